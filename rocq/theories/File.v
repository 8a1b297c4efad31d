(** Files and the file operations of the disk: /repo/src/disk/file.rs and
    /repo/src/disk/mod.rs lines 405-475. *)
From Verif Require Import Base Layout Block Bam Format Petscii GeosTypes DirEntry Header World Chain Directory Writer Rel GeosFile.

(** enum File: file.rs lines 54-80 (the variants Unknown and __Nonexhaustive
    are never constructed). A LinearFile (lines 221-225) is a BAM cell and an entry. *)
Inductive file :=
| FLinear (c : nat) (e : dirent)
| FRelative (f : rel_file)
| FGEOSSequential (f : geos_file)
| FGEOSVLIR (f : geos_file).

(** File::open_from_entry: file.rs lines 130-146. *)
Definition open_file_from_entry (w : world) (e : dirent) : res file :=
  let? c := w_get_bam w in
  match de_scheme e with
  | SLinear => Ok (FLinear c e)
  | SRelative => let? f := rel_new (w_dev w) c e in Ok (FRelative f)
  | SGEOSSequential => let? f := geos_new (w_dev w) c e in Ok (FGEOSSequential f)
  | SGEOSVLIR => let? f := geos_new (w_dev w) c e in Ok (FGEOSVLIR f)
  end.

(** File::open and Disk::open_file: file.rs lines 122-128, mod.rs lines 405-407. *)
Definition open_file (w : world) (name : list nat) : res file :=
  let? e := w_find w name in open_file_from_entry w e.

(** FileOps::entry: file.rs lines 185-187 with 234-236 and 467-469, geos/file.rs lines 86-88. *)
Definition file_entry (f : file) : dirent :=
  match f with
  | FLinear _ e => e
  | FRelative f => rf_entry f
  | FGEOSSequential f | FGEOSVLIR f => gf_entry f
  end.

(** LinearFile::delete: file.rs lines 238-252. *)
Definition linear_delete (c : nat) (e : dirent) : st world unit :=
  do_ (remove_chain c (de_first e)) in
  on_dev (positioned_write (deleted_entry e)).

(** FileOps::delete for File: file.rs lines 189-191. *)
Definition file_delete (f : file) : st world unit :=
  match f with
  | FLinear c e => linear_delete c e
  | FRelative f => rel_delete f
  | FGEOSSequential f | FGEOSVLIR f => geos_delete f
  end.

(** FileOps::record_count: file.rs lines 254-257, 493-495, geos/file.rs lines 118-123. *)
Definition file_record_count (f : file) : nat :=
  match f with
  | FLinear _ _ => 1
  | FRelative f => rf_records f
  | FGEOSSequential f | FGEOSVLIR f => geos_record_count f
  end.

(** FileOps::record: file.rs lines 259-267 and 497-509, geos/file.rs lines 125-136. *)
Definition file_record (d : dev) (f : file) (index : nat) : res (list nat) :=
  match f with
  | FLinear _ e => if index =? 0 then read_all d (de_first e) else Err EInvalidRecord
  | FRelative f => rel_record d f index
  | FGEOSSequential f | FGEOSVLIR f => geos_record d f index
  end.

(** FileOps::occupied_sectors: file.rs lines 285-292 and 530-537, geos/file.rs lines 200-222. *)
Definition file_occupied (d : dev) (f : file) : res (list location) :=
  match f with
  | FLinear _ e =>
      let? ls := chain_locations d (de_first e) in Ok (loc_dedup (loc_sort ls))
  | FRelative f => Ok (rel_occupied f)
  | FGEOSSequential f | FGEOSVLIR f => geos_occupied d f
  end.

(** FileOps::reader: file.rs lines 294-299 and 539-541, geos/file.rs lines 224-236. *)
Definition file_reader (f : file) : res chain_reader :=
  match f with
  | FLinear _ e => Ok (reader_new (de_first e))
  | FRelative _ => Err ENonLinearFile
  | FGEOSSequential f | FGEOSVLIR f => geos_linear_reader f
  end.

(** FileOps::writer: file.rs lines 301-311 and 543-545, geos/file.rs lines 238-243. *)
Definition file_writer (d : dev) (f : file) : res writer :=
  match f with
  | FLinear c e => writer_new d c e (de_first e)
  | FRelative _ => Err ENonLinearFile
  | FGEOSSequential f | FGEOSVLIR f => geos_writer f
  end.

(** Disk::create_file: mod.rs lines 417-475 with scheme [Scheme::Linear] (any
    other scheme fails the assertion of line 424). CHAIN_LINK_ZERO (chain.rs line 12)
    writes the two bytes 0 and 1. The handle is the result. *)
Definition create_file (name : list nat) (t : file_type) : st world file :=
  do_ (lift (check_filename_validity name)) in
  do_ (asks (fun w => check_filename_availability w name)) in
  do! e := next_free_directory_entry in
  do! c := asks w_get_bam in
  do! first := asks (fun w => let? b := cell w c in bam_next_free_block b None) in
  do_ (update_cell c (fun b => bam_allocate b first)) in
  do_ (on_dev (sector_mut first (splice 0 [0; 1]))) in
  let e := dirent_reset e in
  let e := set_attr (set_type t true (de_attr e)) e in
  let e := set_size 1 (set_name name (set_first first e)) in
  do_ (fun w =>
         match on_dev (positioned_write e) w with
         | (w', Err err) =>
             (do_ (update_cell c (fun b => bam_free b first)) in (fail err : st world unit)) w'
         | x => x
         end) in
  ret (FLinear c e).
