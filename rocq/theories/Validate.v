(** Validation: /repo/src/disk/validation.rs. *)
From Verif Require Import Base Layout Block Bam Format Petscii GeosTypes DirEntry Header World Chain Directory Writer Rel GeosFile File.

(** enum ValidationError: lines 20-27 (Unknown is never constructed). *)
Inductive validation_error :=
| VSystemSectorNotAllocated (l : location)
| VSectorMisallocated (l : location)
| VSectorMisoccupied (l : location) (name : list nat)
| VSectorOveroccupied (l : location) (name1 name2 : list nat)
| VFileScanError (e : disk_error) (name : list nat).

(** SYSTEM_OWNER, "CBM DOS" converted to PETSCII: line 109. *)
Definition system_owner : list nat := from_str_lossy [67; 66; 77; 32; 68; 79; 83]%N.

(** The hash sets and the hash map are lists here; the order in which Rust
    iterates over them is unspecified, so only membership in the resulting
    error list is meaningful. *)

(** invert_locations: lines 79-90. *)
Definition invert_locations (ls : list location) (f : disk_format) : list location :=
  List.filter (fun l => negb (bool_decide (l ∈ ls)))
    (concat (map (fun t => map (fun s => (t, s)) (seq 0 (sectors (tracks f !!! t))))
                 (range_incl (first_track f) (last_track f)))).

(** The occupied-sector map: a list of (location, owner), searched from the front. *)
Definition owner_map := list (location * list nat).
Definition owner_of (m : owner_map) (l : location) : option (list nat) :=
  match List.find (fun p => bool_decide (fst p = l)) m with
  | Some (_, n) => Some n
  | None => None
  end.

(** scan_file: lines 95-100. *)
Definition scan_file (w : world) (e : dirent) : res (list location) :=
  let? f := open_file_from_entry w e in file_occupied (w_dev w) f.

(** The loop over the sectors of one file: lines 149-162. *)
Fixpoint occupy (m : owner_map) (errs : list validation_error) (ls : list location)
    (name : list nat) : owner_map * list validation_error :=
  match ls with
  | [] => (m, errs)
  | l :: ls =>
      match owner_of m l with
      | Some owner => occupy m (errs ++ [VSectorOveroccupied l owner name]) ls name
      | None => occupy (m ++ [(l, name)]) errs ls name
      end
  end.

(** The loop over the directory: lines 137-163. *)
Fixpoint scan_entries (w : world) (es : list dirent) (r : res unit) (m : owner_map)
    (errs : list validation_error) : res (owner_map * list validation_error) :=
  match es with
  | [] => let? _ := r in Ok (m, errs)
  | e :: es =>
      match scan_file w e with
      | Ok ls =>
          let '(m, errs) := occupy m errs ls (de_name e) in scan_entries w es r m errs
      | Err err => scan_entries w es r m (errs ++ [VFileScanError err (de_name e)])
      | Panic => Panic
      | NoFuel => NoFuel
      end
  end.

(** validate: lines 105-196. *)
Definition validate (w : world) : res (list validation_error) :=
  let? f := w_disk_format w in
  let? c := w_get_bam w in
  let? b := cell w c in
  let system := system_locations f in
  let? allocated := allocated_sectors b in
  let? free := free_sectors b in
  let? dir := chain_locations (w_dev w) (directory_track f, first_directory_sector f) in
  let? h := w_get_header w in
  let dir := dir ++ match h_geos h with Some gh => [gh_border gh] | None => [] end in
  let m := map (fun l => (l, system_owner)) (system ++ dir) in
  let '(es, r) := w_iter w in
  let? (m, errs) := scan_entries w es r m [] in
  let occupied := map fst m in
  let unoccupied := invert_locations occupied f in
  Ok (errs
      ++ map VSystemSectorNotAllocated
           (List.filter (fun l => negb (bool_decide (l ∈ allocated))) system)
      ++ map VSectorMisallocated
           (List.filter (fun l => bool_decide (l ∈ unoccupied)) allocated)
      ++ map (fun l => VSectorMisoccupied l
                (match owner_of m l with Some n => n | None => from_str_lossy [78; 111; 110; 101]%N end))
           (List.filter (fun l => bool_decide (l ∈ occupied) && negb (bool_decide (l ∈ system))) free)).
