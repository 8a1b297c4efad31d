(** Property theorems about every image, sound or corrupt. *)
From Verif Require Import Base Layout Block Bam Format Petscii GeosTypes DirEntry Header World Chain Directory Writer Rel GeosFile File Validate
  Spec SpecChain SpecBam SpecFiles CodecMore View DevFacts Session SessionMore SpecDisk SpecValidate ValidateProofs Opening SectorProofs AnyDir ReadOnly
  DemoImages.

(** C04: no sequence of calls changes a read-only image. The device holds all
    the bytes of the image and the log of writes. *)
Theorem C04_read_only : forall s os,
  d_writable (w_dev (s_world s)) = false -> w_dev (s_world (any_calls s os)) = w_dev (s_world s).
Proof. exact read_only. Qed.
Print Assumptions C04_read_only.
Example C04_example : d_writable (w_dev (s_world (start D64 (blank_dev D64 false)))) = false
  /\ snd (calls (start D64 (blank_dev D64 false)) [OFormat [65] (1, 2); ORename [65] [66]])
     = [AError EReadOnly; AError EInvalidChainLink].
Proof. split; vm_compute; reflexivity. Qed.

(** C29: a successful rename changes the 16 name bytes of one slot and nothing
    else; a failed one changes nothing; and which of the two happens. *)
Theorem C29_rename : forall t w old new,
  dev_shape t (w_dev w) -> holds_bytes (w_dev w) ->
  let names := map de_name (fst (w_iter w)) in
  (forall w' k, w_rename old new w = (w', Err k) -> w' = w)
  /\ (forall w', w_rename old new w = (w', Ok tt) ->
       In old names /\ length new <= 16 /\ ~ In new names
       /\ exists e l j b, In e (fst (w_iter w)) /\ de_name e = old /\ stored (w_dev w) e l j b
          /\ sector (w_dev w') l = Ok (splice (32 * j + 5) (new ++ repeat 160 (16 - length new)) b)
          /\ (forall l', l' <> l -> sector (w_dev w') l' = sector (w_dev w) l')
          /\ d_etable (w_dev w') = d_etable (w_dev w) /\ d_geom (w_dev w') = d_geom (w_dev w) /\ set_dev (w_dev w) w' = w)
  /\ (snd (w_iter w) = Ok tt -> d_writable (w_dev w) = true ->
       (~ In old names -> snd (w_rename old new w) = Err ENotFound)
       /\ (In old names -> 16 < length new -> snd (w_rename old new w) = Err EFilenameTooLong)
       /\ (In old names -> length new <= 16 -> In new names -> snd (w_rename old new w) = Err EFileExists)
       /\ (In old names -> length new <= 16 -> ~ In new names -> snd (w_rename old new w) = Ok tt)).
Proof. exact rename_any. Qed.
Print Assumptions C29_rename.
Example C29_example : dev_shape D64 rel_dev /\ holds_bytes rel_dev
  /\ map de_name (fst (w_iter (open_world D64 rel_dev))) = [rel_name]
  /\ snd (w_rename rel_name [83; 84] (open_world D64 rel_dev)) = Ok tt.
Proof. split; [exact rel_shape|]. split; [exact rel_bytes|]. split; vm_compute; reflexivity. Qed.

(** C32: what validate reports, for any image. *)
Theorem C32_report : forall t d errs,
  dev_shape t d -> validate (open_world t d) = Ok errs ->
  exists h b dirs es base, w_header (open_world t d) = Some h /\ current_map (open_world t d) = Ok b
    /\ chain_locations d (first_dir t) = Ok dirs /\ w_iter (open_world t d) = (es, Ok tt) /\ system_claims t dirs h base
    /\ (forall e, In e es -> exists y, sectors_of (open_world t d) e = Ok y \/ exists k, sectors_of (open_world t d) e = Err k)
    /\ (forall l, In (VSystemSectorNotAllocated l) errs <-> system_sector t l /\ is_free b l)
    /\ (forall l, In (VSectorMisallocated l) errs <->
          bam_sector t l /\ ~ is_free b l /\ ~ claimed (base ++ file_claims (open_world t d) es) l)
    /\ (forall l n, In (VSectorMisoccupied l n) errs <->
          bam_sector t l /\ is_free b l /\ ~ system_sector t l /\ first_claim (base ++ file_claims (open_world t d) es) l n)
    /\ (forall l n1 n2, In (VSectorOveroccupied l n1 n2) errs <->
          exists pre post, file_claims (open_world t d) es = pre ++ (l, n2) :: post /\ first_claim (base ++ pre) l n1)
    /\ (forall k n, In (VFileScanError k n) errs <->
          exists e, In e es /\ de_name e = n /\ sectors_of (open_world t d) e = Err k).
Proof. exact validate_any_report. Qed.
Print Assumptions C32_report.

(** C32: the sectors a listed file claims are the sectors it has, whatever its kind. *)
Theorem C32_file_sectors : forall t w e ls,
  dev_shape t (w_dev w) -> holds_bytes (w_dev w) -> sectors_of w e = Ok ls ->
  NoDup ls /\ forall l, In l ls <-> file_sector (w_dev w) e l.
Proof. exact sectors_of_spec. Qed.
Print Assumptions C32_file_sectors.

(** C32: what an empty report means. *)
Theorem C32_clean : forall t d,
  dev_shape t d ->
  validate (open_world t d) = Ok [] <->
  exists h b dirs es base, w_header (open_world t d) = Some h /\ current_map (open_world t d) = Ok b
    /\ chain_locations d (first_dir t) = Ok dirs /\ w_iter (open_world t d) = (es, Ok tt) /\ system_claims t dirs h base
    /\ (forall e, In e es -> exists ls, sectors_of (open_world t d) e = Ok ls)
    /\ NoDup (map fst (file_claims (open_world t d) es))
    /\ (forall l, claimed base l -> claimed (file_claims (open_world t d) es) l -> False)
    /\ (forall l, bam_sector t l -> is_free b l <-> ~ claimed base l /\ ~ claimed (file_claims (open_world t d) es) l).
Proof. exact validate_any_clean. Qed.
Print Assumptions C32_clean.

(** C32: when validate gives a report at all. *)
Theorem C32_outcome : forall t d,
  dev_shape t d ->
  (exists errs, validate (open_world t d) = Ok errs) <->
  is_Some (w_header (open_world t d)) /\ (exists dirs, chain_locations d (first_dir t) = Ok dirs) /\ snd (w_iter (open_world t d)) = Ok tt
  /\ forall e, In e (fst (w_iter (open_world t d))) ->
       sectors_of (open_world t d) e <> Panic /\ sectors_of (open_world t d) e <> NoFuel.
Proof. exact validate_any_outcome. Qed.
Print Assumptions C32_outcome.
Example C32_example : dev_shape D64 rel_dev /\ holds_bytes rel_dev
  /\ match validate (open_world D64 rel_dev) with
     | Ok errs => length errs = 678 /\ hd_error errs = Some (VSectorMisallocated (1, 0))
     | _ => False
     end
  /\ map (sectors_of (open_world D64 rel_dev)) (fst (w_iter (open_world D64 rel_dev))) = [Ok [(17, 0); (17, 1); (17, 5)]].
Proof.
  split; [exact rel_shape|]. split; [exact rel_bytes|]. split; [vm_compute; split; reflexivity|vm_compute; reflexivity].
Qed.

(** C35: the records of a relative file tile its data. *)
Theorem C35_records : forall t d name f,
  dev_shape t d -> holds_bytes d ->
  open_file (open_world t d) name = Ok f -> de_scheme (file_entry f) = SRelative ->
  exists side len u sides datas,
    de_name (file_entry f) = name /\ de_extra (file_entry f) = XRelative side len u /\ 0 < len
    /\ rel_layout d side sides datas
    /\ file_record_count f * len = length (rel_stream d datas)
    /\ (forall i, i < file_record_count f -> Forall (fun l => valid_loc (d_geom d) l = true) datas ->
          file_record d f i = Ok (slice (i * len) len (rel_stream d datas)))
    /\ (forall i x, file_record d f i = Ok x ->
          i < file_record_count f /\ x = slice (i * len) len (rel_stream d datas) /\ length x = len)
    /\ (forall i, file_record_count f <= i -> file_record d f i = Err EInvalidRecordIndex)
    /\ (forall i, file_record d f i <> Panic).
Proof. exact rel_records. Qed.
Print Assumptions C35_records.
Example C35_example : dev_shape D64 rel_dev /\ holds_bytes rel_dev
  /\ match open_file (open_world D64 rel_dev) rel_name with
     | Ok f => de_scheme (file_entry f) = SRelative /\ file_record_count f = 3
               /\ file_record rel_dev f 2 = Ok (repeat 3 54 ++ repeat 4 46)
     | _ => False
     end.
Proof. split; [exact rel_shape|]. split; [exact rel_bytes|]. vm_compute. repeat split. Qed.
