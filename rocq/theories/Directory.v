(** Directory iteration and slots: /repo/src/disk/directory.rs lines 556-786 and
    the directory methods of /repo/src/disk/mod.rs. *)
From Verif Require Import Base Layout Block Bam Format Petscii GeosTypes DirEntry Header World Chain.

(** [data.chunks(32)]. *)
Fixpoint chunks_fuel {A} (fuel n : nat) (l : list A) : list (list A) :=
  match fuel with
  | 0 => []
  | S fuel =>
      match l with
      | [] => []
      | _ => take n l :: chunks_fuel fuel n (drop n l)
      end
  end.
Definition chunks {A} (n : nat) (l : list A) : list (list A) := chunks_fuel (length l) n l.

(** The part of DirectoryIterator::next that handles the chunks of one sector:
    lines 650-670. A chunk shorter than an entry is skipped without moving the
    offset; the offset wraps at 256. *)
Fixpoint sector_entries (border : bool) (l : location) (off : nat) (cs : list (list nat))
    : res (list dirent) :=
  match cs with
  | [] => Ok []
  | c :: cs =>
      if negb (length c =? ENTRY_SIZE) then sector_entries border l off cs
      else
        let? e := dirent_parse c (Some (mk_position l off ENTRY_SIZE)) in
        let e := set_border border e in
        let? rest := sector_entries border l ((off + ENTRY_SIZE) mod 256) cs in
        Ok (if is_scratched (de_attr e) then rest else e :: rest)
  end.

(** The sectors given to the directory iterator: lines 585-600. The border
    sector is read once, when the iterator is made. *)
Definition directory_sectors (d : dev) (f : disk_format) (h : header)
    : list chain_sector * res unit :=
  let '(ss, r) := chain_walk d (first_directory_location f) in
  match h_geos h with
  | None => (ss, r)
  | Some gh =>
      match r with
      | Ok _ =>
          match sector d (gh_border gh) with
          | Ok b => (ss ++ [mk_cs b (gh_border gh)], Ok tt)
          | Err e => (ss, Err e)
          | Panic => (ss, Panic)
          | NoFuel => (ss, NoFuel)
          end
      | _ => (ss, r)
      end
  end.

(** [processing_geos_border]: lines 675-677. *)
Definition on_border (h : header) (l : location) : bool :=
  match h_geos h with
  | Some gh => bool_decide (gh_border gh = l)
  | None => false
  end.

Fixpoint entries_of_sectors (h : header) (ss : list chain_sector) (r : res unit)
    : list dirent * res unit :=
  match ss with
  | [] => ([], r)
  | s :: ss =>
      match sector_entries (on_border h (cs_location s)) (cs_location s) 0
              (chunks ENTRY_SIZE (cs_data s)) with
      | Ok es => let '(es', r') := entries_of_sectors h ss r in (es ++ es', r')
      | Err e => ([], Err e)
      | Panic => ([], Panic)
      | NoFuel => ([], NoFuel)
      end
  end.

(** Disk::iter driven until it ends or yields an error (mod.rs lines 338-340;
    directory.rs lines 571-699): the entries yielded, and how it ended. All
    users in the library stop at the first error; continuing past it is not
    modelled. *)
Definition w_iter (w : world) : list dirent * res unit :=
  match w_disk_format w with
  | Ok f =>
      match w_get_header w with
      | Ok h =>
          let '(ss, r) := directory_sectors (w_dev w) f h in
          entries_of_sectors h ss r
      | Err e => ([], Err e)
      | Panic => ([], Panic)
      | NoFuel => ([], NoFuel)
      end
  | Err e => ([], Err e)
  | Panic => ([], Panic)
  | NoFuel => ([], NoFuel)
  end.

(** Disk::directory: mod.rs lines 343-345. *)
Definition w_directory (w : world) : res (list dirent) := all_or_error (w_iter w).

(** Disk::find_directory_entry: mod.rs lines 348-355. *)
Definition w_find (w : world) (name : list nat) : res dirent :=
  let '(es, r) := w_iter w in
  match List.find (fun e => bool_decide (de_name e = name)) es with
  | Some e => Ok e
  | None => let? _ := r in Err ENotFound
  end.

(** Disk::check_filename_availability: mod.rs lines 375-385. *)
Definition check_filename_availability (w : world) (name : list nat) : res unit :=
  match w_find w name with
  | Ok _ => Err EFileExists
  | Err ENotFound => Ok tt
  | Err e => Err e
  | Panic => Panic
  | NoFuel => NoFuel
  end.

(** Disk::write_directory_entry: mod.rs lines 367-371. *)
Definition write_directory_entry (e : dirent) : st world unit := on_dev (positioned_write e).

(** Disk::rename: mod.rs lines 388-402. *)
Definition w_rename (original new : list nat) : st world unit :=
  do! e := asks (fun w => w_find w original) in
  do_ (lift (check_filename_validity new)) in
  do_ (asks (fun w => check_filename_availability w new)) in
  write_directory_entry (set_name new e).

(** The chunk loop of next_free_directory_entry: lines 718-734. *)
Fixpoint free_slot_in_chunks (l : location) (off : nat) (cs : list (list nat))
    : res (option dirent) :=
  match cs with
  | [] => Ok None
  | c :: cs =>
      let? e := dirent_parse c (Some (mk_position l off ENTRY_SIZE)) in
      if is_scratched (de_attr e) then Ok (Some e)
      else free_slot_in_chunks l ((off + ENTRY_SIZE) mod 256) cs
  end.

(** The chain loop of next_free_directory_entry: lines 714-735: either a free
    slot or the last sector of the chain. *)
Fixpoint free_slot_in_sectors (last : location) (ss : list chain_sector) (r : res unit)
    : res (dirent + location) :=
  match ss with
  | [] => let? _ := r in Ok (inr last)
  | s :: ss =>
      let? slot := free_slot_in_chunks (cs_location s) 0 (chunks ENTRY_SIZE (cs_data s)) in
      match slot with
      | Some e => Ok (inl e)
      | None => free_slot_in_sectors (cs_location s) ss r
      end
  end.

(** A fresh directory sector: lines 752-759. *)
Definition fresh_directory_sector (b : list nat) : list nat :=
  [0; 255] ++ repeat 0 (length b - 2).

(** next_free_directory_entry: lines 705-786. *)
Definition next_free_directory_entry : st world dirent :=
  do! f := asks w_disk_format in
  do! slot := asks (fun w =>
      let '(ss, r) := chain_walk (w_dev w) (first_directory_location f) in
      free_slot_in_sectors (first_directory_location f) ss r) in
  match slot with
  | inl e => ret e
  | inr last =>
      do! c := asks w_get_bam in
      do! new := asks (fun w => let? b := cell w c in bam_next_free_block b (Some last)) in
      do_ (on_dev (sector_mut new fresh_directory_sector)) in
      do! block := asks (fun w => sector (w_dev w) new) in
      do! e := lift (dirent_parse (slice 0 ENTRY_SIZE block)
                       (Some (mk_position new 0 ENTRY_SIZE))) in
      do_ (update_cell c (fun b => bam_allocate b new)) in
      do_ (on_dev (sector_mut last (write_loc new))) in
      ret e
  end.
