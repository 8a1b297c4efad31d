(** The commands of the program cdisk: /repo/src/bin/cdisk.rs. An image file is
    its type (chosen by [disk_open] of Image.v) and its device; opening it maps
    it read-only or writable, and what the mapping holds at the end is what the
    file holds. Text printed on the terminal is modelled in Text.v; the parsing
    of arguments by the clap library is not modelled, and neither are errors of
    the host's file system. *)
From Verif Require Import Base Layout Image Block Bam Format Petscii GeosTypes DirEntry Header World Chain Directory Writer Rel GeosFile
  File Validate.

(** The [writable] argument of [disk::open]: /repo/src/disk/image.rs lines 17-35. *)
Definition with_mode (writable : bool) (d : dev) : dev :=
  mk_dev writable (d_geom d) (d_blocks d) (d_etable d) (d_log d).
Definition tool_open (t : disk_type) (writable : bool) (d : dev) : world :=
  open_world t (with_mode writable d).
(** The image file when the program has ended. *)
Definition saved (w : world) : dev := with_mode true (w_dev w).

(** The result of a command: main prints the error (lines 201-203). *)
Definition done {A} (r : res A) : res unit := let? _ := r in Ok tt.

(** [io::copy] from a reader into a file, with a buffer of [n] bytes: what has
    been written, and how it ended. *)
Fixpoint copy_out {R} (read : R -> nat -> R * res (list nat)) (fuel : nat) (r : R) (n : nat)
    : list nat * res unit :=
  match fuel with
  | 0 => ([], NoFuel)
  | S fuel =>
      match read r n with
      | (_, Ok []) => ([], Ok tt)
      | (r', Ok bytes) => let '(out, e) := copy_out read fuel r' n in (bytes ++ out, e)
      | (_, Err e) => ([], Err e)
      | (_, Panic) => ([], Panic)
      | (_, NoFuel) => ([], NoFuel)
      end
  end.

(** [Write::write_all] on a ChainWriter (std); a [write] of no bytes is an error. *)
Fixpoint write_all (fuel : nat) (buf : list nat) : wst unit :=
  match buf with
  | [] => ret tt
  | _ =>
      match fuel with
      | 0 => lift NoFuel
      | S fuel =>
          do! n := writer_write buf in
          if n =? 0 then fail EUnknown else write_all fuel (drop n buf)
      end
  end.

(** [io::copy] into a ChainWriter: the source delivers the bytes in the pieces
    [source], whatever their sizes are. *)
Definition copy_in (source : list (list nat)) : wst unit :=
  for_each (fun piece => write_all (length piece) piece) source.

(** [io::copy(...)?; writer.flush()] and the drop of the writer: lines 394-395, 406-407. *)
Definition fill_writer (source : list (list nat)) (w : world) (k : writer) : world * res unit :=
  let '((w', k'), r) := (do_ (copy_in source) in writer_flush) (w, k) in
  (writer_drop k' w', r).

(** The loops of cmd_bam_edit: lines 286-303. An entry that does not exist panics
    before its sectors are looked up. *)
Definition edit_tracks (track : option nat) : list nat :=
  match track with Some t => [t] | None => range_incl 1 35 end.
Definition edit_sectors (f : disk_format) (sector : option nat) (track : nat) : list nat :=
  match sector with Some s => [s] | None => seq 0 (sectors_in_track f track) end.
Fixpoint edit_sector_list (allocate : bool) (track : nat) (b : bam) (ss : list nat) : res bam :=
  match ss with
  | [] => Ok b
  | s :: ss =>
      let? b := bam_update b (track, s) (if allocate then entry_allocate else entry_release) in
      edit_sector_list allocate track b ss
  end.
Fixpoint edit_track_list (f : disk_format) (sector : option nat) (allocate : bool) (b : bam)
    (ts : list nat) : res bam :=
  match ts with
  | [] => Ok b
  | t :: ts =>
      let? _ := bam_entry_at b t in
      let? b := edit_sector_list allocate t b (edit_sectors f sector t) in
      edit_track_list f sector allocate b ts
  end.

(** cmd_bam_edit: lines 276-306. *)
Definition cmd_bam_edit (t : disk_type) (track sector : option nat) (allocate : bool) (d : dev)
    : dev * res unit :=
  let '(w, r) :=
    (do! f := asks w_disk_format in
     do! c := asks w_get_bam in
     do_ (update_cell c (fun b => edit_track_list f sector allocate b (edit_tracks track))) in
     flush_cell c) (tool_open t true d) in
  (saved w, r).

(** cmd_read: lines 373-383, with open_cbm_file and open_cbm_reader (lines
    309-318) and open_fs_writer (lines 365-371): [None] when the destination
    has not been created. *)
Definition copy_fuel (d : dev) : nat := 256 * length (d_blocks d) + 2.
Definition cmd_read (t : disk_type) (name : list N) (n : nat) (d : dev)
    : option (list nat) * res unit :=
  let w := tool_open t false d in
  match (let? f := open_file w (from_str_lossy name) in file_reader f) with
  | Ok r => let '(out, e) := copy_out (reader_read (w_dev w)) (copy_fuel d) r n in (Some out, e)
  | r => (None, done r)
  end.

(** open_cbm_writer and cmd_write: lines 344-353 and 385-396. *)
Definition cmd_write (t : disk_type) (source : list (list nat)) (name : list N) (ft : file_type)
    (d : dev) : dev * res unit :=
  match create_file (from_str_lossy name) ft (tool_open t true d) with
  | (w, Ok f) =>
      match file_writer (w_dev w) f with
      | Ok k => let '(w', r) := fill_writer source w k in (saved w', r)
      | r => (saved w, done r)
      end
  | (w, r) => (saved w, done r)
  end.

(** open_cbm_appender and cmd_append: lines 321-323 and 398-408. *)
Definition cmd_append (t : disk_type) (source : list (list nat)) (name : list N) (d : dev)
    : dev * res unit :=
  let w := tool_open t false d in
  match (let? f := open_file w (from_str_lossy name) in file_writer (w_dev w) f) with
  | Ok k => let '(w', r) := fill_writer source w k in (saved w', r)
  | r => (saved w, done r)
  end.

(** open_geos_file, open_geos_reader and cmd_geosread: lines 326-341 and
    410-420; [unreachable!] for any other kind of file. *)
Definition cmd_geosread (t : disk_type) (fuel : nat) (name : list N) (n : nat) (d : dev)
    : option (list nat) * res unit :=
  let w := tool_open t false d in
  match (let? f := open_file w (from_str_lossy name) in
         match f with
         | FGEOSVLIR g | FGEOSSequential g => geos_reader_new (gf_entry g)
         | _ => Panic
         end) with
  | Ok r => let '(out, e) := copy_out (geos_read (w_dev w)) fuel r n in (Some out, e)
  | r => (None, done r)
  end.

(** FillReader::read: lines 258-267; the state is the number of bytes left. *)
Definition fill_read (fill_byte : nat) (size : N) (n : nat) : N * res (list nat) :=
  let m := Nat.min n (N.to_nat size) in ((size - N.of_nat m)%N, Ok (repeat fill_byte m)).

(** DiskType::from_extension of a file name without directories: mod.rs lines
    146-168. The extension of [std::path::Path] is the part after the last dot,
    if something stands before that dot. No letter but D and d becomes d in
    lower case. *)
Fixpoint split_last_dot (s : list N) : option (list N * list N) :=
  match s with
  | [] => None
  | c :: s =>
      match split_last_dot s with
      | Some (a, b) => Some (c :: a, b)
      | None => if (c =? 46)%N then Some ([], s) else None
      end
  end.
Definition path_extension (s : list N) : option (list N) :=
  match split_last_dot s with Some ([], _) | None => None | Some (_, e) => Some e end.
Definition ascii_lower (c : N) : N := if ((65 <=? c) && (c <=? 90))%N then (c + 32)%N else c.
Definition from_extension (s : list N) : option disk_type :=
  match path_extension s with
  | Some e =>
      let e := map ascii_lower e in
      if bool_decide (e = [100; 54; 52]%N) then Some D64
      else if bool_decide (e = [100; 55; 49]%N) then Some D71
      else if bool_decide (e = [100; 56; 49]%N) then Some D81
      else None
  | None => None
  end.

(** D64::geometry(false), D71::geometry(false), D81::geometry(false): d64.rs lines 193-199. *)
Definition plain_geometry (t : disk_type) : geometry :=
  match t with
  | D64 => mk_geometry d64_tracks 35 false
  | D71 => mk_geometry d71_tracks 70 false
  | D81 => mk_geometry d81_tracks 80 false
  end.
(** cmd_create: lines 422-440, for a path that does not exist yet. The bytes of
    the new file, copied with a buffer of [n] bytes. *)
Definition cmd_create (file : list N) (n : nat) : list nat * res unit :=
  let t := match from_extension file with Some t => t | None => D64 end in
  let size := geometry_size (plain_geometry t) in
  copy_out (fill_read 0) (S (N.to_nat size)) size n.

(** cmd_dir without -vv: lines 442-462, as the data that is printed: header,
    entries, free blocks. *)
Definition cmd_dir (t : disk_type) (d : dev) : option header * list dirent * res nat :=
  let w := tool_open t false d in
  let '(es, r) := w_iter w in
  (w_header w, es, let? _ := r in w_blocks_free w).

(** Id::from(&[u8]): mod.rs lines 671-680. *)
Definition id_from_bytes (bs : list nat) : nat * nat :=
  (match bs with x :: _ => x | [] => 0 end, match bs with _ :: y :: _ => y | _ => 0 end).

(** cmd_format: lines 464-470. *)
Definition cmd_format (t : disk_type) (name id : list N) (d : dev) : dev * res unit :=
  let '(w, r) := write_format (from_str_lossy name) (id_from_bytes (from_str_lossy id)) (tool_open t true d) in
  (saved w, r).

(** cmd_rename: lines 472-475. *)
Definition cmd_rename (t : disk_type) (old new : list N) (d : dev) : dev * res unit :=
  let '(w, r) := w_rename (from_str_lossy old) (from_str_lossy new) (tool_open t true d) in
  (saved w, r).

(** cmd_delete: lines 477-481. *)
Definition cmd_delete (t : disk_type) (name : list N) (d : dev) : dev * res unit :=
  let w := tool_open t true d in
  match open_file w (from_str_lossy name) with
  | Ok f => let '(w', r) := file_delete f w in (saved w', r)
  | r => (saved w, done r)
  end.

(** cmd_validate: lines 495-510, as the list that is printed. *)
Definition cmd_validate (t : disk_type) (d : dev) : res (list validation_error) :=
  validate (tool_open t true d).
