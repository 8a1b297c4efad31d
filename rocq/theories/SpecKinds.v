(** What a client can read from an open file. *)
From Verif Require Import Base Block Chain DirEntry Rel GeosFile File SpecChain Session.

(** A plain file; a file of numbered records (a relative or a GEOS VLIR file;
    [tidy] says whether it is linked the way its own lists say); a GEOS
    sequential file. *)
Inductive kind :=
| KPlain
| KRecords (tidy : bool) (rs : list (list nat))
| KStream (data : list nat).

(** The reads of the given sizes through a new reader. *)
Definition read_through (d : dev) (x : file) (ns : list nat) : res (list (list nat)) :=
  let? r := file_reader x in all_reads (run_reads d r ns).

(** The data sectors that the side sectors of a relative file list are those
    of the chain that starts at the file's entry. *)
Definition linked (d : dev) (x : file) : Prop :=
  match x with
  | FRelative f => chain_locations d (de_first (rf_entry f)) = Ok (rf_data_sectors f)
  | _ => True
  end.

(** The open file [x] answers like a file of the kind [k]. Records are read by
    number; a stream is read whole, with reads of any sizes, or as a record
    whatever the number; neither can be written. *)
Definition reads_as (d : dev) (x : file) (k : kind) : Prop :=
  match k with
  | KPlain => False
  | KRecords tidy rs =>
      file_record_count x = length rs
      /\ (forall i, file_record d x i = match rs !! i with Some r => Ok r | None => Err EInvalidRecordIndex end)
      /\ (forall ns, read_through d x ns = Err ENonLinearFile)
      /\ file_writer d x = Err ENonLinearFile
      /\ (tidy = true <-> linked d x)
  | KStream data =>
      file_record_count x = 1
      /\ (forall i, file_record d x i = Ok data)
      /\ (forall ns, read_through d x ns = Ok (pieces data ns))
      /\ file_writer d x = Err EReadOnly
  end.

(** Deleting a file of this kind frees its sectors and no others. *)
Definition removable (k : kind) : bool := match k with KRecords tidy _ => tidy | _ => true end.

(** Opening the file of a directory entry; [c]: the number of the allocation map
    that the handle refers to. *)
Definition file_at (d : dev) (c : nat) (e : dirent) : res file :=
  match de_scheme e with
  | SLinear => Ok (FLinear c e)
  | SRelative => let? f := rel_new d c e in Ok (FRelative f)
  | SGEOSSequential => let? f := geos_new d c e in Ok (FGEOSSequential f)
  | SGEOSVLIR => let? f := geos_new d c e in Ok (FGEOSVLIR f)
  end.

(** A VLIR file with at least one record. *)
Definition has_record (g : geos_file) : bool :=
  match gf_vlir g with Some records => match somes records with [] => false | _ => true end | None => false end.

(** The sectors of a file that are freed also in the image when it is deleted:
    not the side sectors of a relative file, nor the info block of a GEOS file
    without VLIR records. *)
Definition saved_by_delete (d : dev) (x : file) (l : location) : Prop :=
  match x with
  | FLinear _ e => exists ls, chain_locations d (de_first e) = Ok ls /\ In l ls
  | FRelative f => In l (rf_data_sectors f)
  | FGEOSSequential g | FGEOSVLIR g =>
      exists ls, (if has_record g then geos_occupied d g else chain_locations d (de_first (gf_entry g))) = Ok ls /\ In l ls
  end.
