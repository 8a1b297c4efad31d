(** Property theorems: the records of relative and GEOS files. *)
From Verif Require Import Base Layout Block Bam Format Petscii GeosTypes DirEntry Header World Chain Directory Writer Rel GeosFile File Validate
  Spec SpecChain SpecBam View DevFacts SpecKinds Session SpecDisk SpecFiles Trace RecordsKept DemoMixed.

(** C74: relative and GEOS files keep their records. [f] is such a file, shown
    with its records (or its data); no call but a rename or a deletion of it,
    and formatting the disk, changes what is shown of it. *)
Theorem C74_records_kept : forall t a s f os a' rs,
  reached t a s -> shows (s_world s) f -> a_kind f <> KPlain ->
  arun t a os = Some (a', rs) -> all_spare t a f os ->
  exists s', calls s os = (s', rs) /\ shows (s_world s') f.
Proof. exact file_records_kept. Qed.
Print Assumptions C74_records_kept.

(** A handle on such a file answers as before, also when the file was renamed. *)
Theorem C74_handle_kept : forall t a s h k os a' rs,
  reached t a s -> kind_of a h = Some k -> k <> KPlain ->
  arun t a os = Some (a', rs) -> handle_spared t a h os ->
  exists s' x, calls s os = (s', rs) /\ s_handles s' !! h = Some x /\ reads_as (w_dev (s_world s')) x k.
Proof. exact handle_kept. Qed.
Print Assumptions C74_handle_kept.

(** The same at every point within the sector writes of a call. *)
Theorem C74_crash : forall t a s f o a' r,
  reached t a s -> shows (s_world s) f -> a_kind f <> KPlain ->
  astep t a o = Some (a', r) -> spares a f o ->
  exists s' ws, call s o = (s', r) /\ w_dev (s_world s') = after_writes (w_dev (s_world s)) ws
    /\ forall n, shows (open_world t (after_writes (w_dev (s_world s)) (take n ws))) f.
Proof. exact records_crash. Qed.
Print Assumptions C74_crash.

(** The image [mixed_dev] holds such files, and the session [mixed_ops],
    [mixed_more] is one. *)
Example C74_example : reached D64 mixed_a (start D64 mixed_dev)
  /\ shows (open_world D64 mixed_dev) mixed_R /\ shows (open_world D64 mixed_dev) mixed_V /\ shows (open_world D64 mixed_dev) mixed_S
  /\ a_kind mixed_R = KRecords true [repeat 3 100; repeat 3 100; repeat 3 54 ++ repeat 4 46]
  /\ a_kind mixed_V = KRecords true [[]; repeat 6 254 ++ repeat 7 10; []; [1; 2; 3; 4]]
  /\ a_kind mixed_S = KStream [7; 8; 9].
Proof.
  exact (conj mixed_reached (conj mixed_shows_R (conj mixed_shows_V (conj mixed_shows_S (conj eq_refl (conj eq_refl eq_refl)))))).
Qed.
Example C74_example_session : (exists a' rs, arun D64 mixed_a (mixed_ops ++ mixed_more) = Some (a', rs))
  /\ all_spare D64 mixed_a mixed_V (mixed_ops ++ mixed_more)
  /\ (exists a' rs, arun D64 mixed_a [OOpen [82]] = Some (a', rs) /\ kind_of a' 0 = Some (a_kind mixed_R)
       /\ handle_spared D64 a' 0 (drop 1 mixed_ops) /\ exists a'' rs', arun D64 a' (drop 1 mixed_ops) = Some (a'', rs')).
Proof.
  split; [eexists _, _; vm_compute; reflexivity|]. split; [apply spare_b_ok; vm_compute; reflexivity|].
  eexists _, _. split; [vm_compute; reflexivity|]. split; [vm_compute; reflexivity|]. split; [apply handle_b_ok; vm_compute; reflexivity|].
  eexists _, _. vm_compute. reflexivity.
Qed.

(** The hypotheses of the theorems on existing images (C24, C54) hold for it. *)
Example C54_example_mixed : dev_shape D64 mixed_dev /\ holds_bytes mixed_dev /\ validate (open_world D64 mixed_dev) = Ok []
  /\ plain_image D64 mixed_dev [(18, 1)] mixed_es /\ exists chains, sound_image D64 mixed_dev [(18, 1)] chains mixed_a.
Proof.
  split; [exact mixed_shape|]. split; [exact mixed_bytes|]. split; [vm_compute; reflexivity|]. split; [exact mixed_plain|exact mixed_table].
Qed.

(** The hypotheses of C28 hold for the files of every kind on it. *)
Example C28_example_kinds : exists a rs, arun D64 mixed_a [OOpen [82]; OOpen [86]; OOpen [83]; OOpen [80]] = Some (a, rs)
  /\ map (fun h => match held a h with Some (i, f) => Some (i, a_name f, writer_on a i, removable (a_kind f)) | None => None end) [0; 1; 2; 3]
     = [Some (0, [82], false, true); Some (1, [86], false, true); Some (2, [83], false, true); Some (3, [80], false, true)].
Proof. eexists _, _. split; vm_compute; reflexivity. Qed.

(** C75: deleting a file leaves the other files intact. Proved for plain and GEOS
    files, and for relative files whose data chain is the list in their side
    sectors, on images in order. Missing: other relative files, for which it is
    false. *)
Theorem C75_others_kept_partial : forall t a s h i f,
  reached t a s -> held a h = Some (i, f) -> writer_on a i = false -> removable (a_kind f) = true ->
  exists s', call s (ODelete h) = (s', ADone) /\ validate (s_world s') = Ok []
    /\ forall g, a_name g <> a_name f -> shows (s_world s) g -> shows (s_world s') g.
Proof. exact delete_spares. Qed.
Print Assumptions C75_others_kept_partial.
Example C75_example : exists a rs, arun D64 mixed_a [OOpen [82]; OOpen [83]] = Some (a, rs)
  /\ map (fun h => match held a h with Some (i, f) => Some (i, a_name f, writer_on a i, removable (a_kind f)) | None => None end) [0; 1]
     = [Some (0, [82], false, true); Some (2, [83], false, true)].
Proof. eexists _, _. split; vm_compute; reflexivity. Qed.

(** An image that validates clean: the file "S" holds the bytes 7, 8, 9; the
    relative file "R" is deleted and a new file is written; then "S" holds the
    data of the new file. *)
Theorem C75_loss_refuted : exists d s,
  dev_shape D64 d /\ holds_bytes d /\ d_writable d = true /\ validate (open_world D64 d) = Ok []
  /\ calls (start D64 d) [OOpen [83]; ORecord 0 0; OOpen [82]; ODelete 1; OCreate [78] PRG; OWriter 2; OWrite 0 [1]; OClose 0; OOpen [83]; ORecord 3 0]
     = (s, [AIndex 0; ABytes [7; 8; 9]; AIndex 1; ADone; AIndex 2; AIndex 0; ACount 1; ADone; AIndex 3; ABytes [1]]).
Proof. exact astray_loss. Qed.
Print Assumptions C75_loss_refuted.

(** C36: which sectors are free in the image after the deletion of a file: those
    that were free in the map in memory, and the chain of the file, or all
    sectors of a VLIR file that has a record. Missing: the side sectors of
    relative files and other info blocks, which stay allocated. *)
Theorem C36_saved_partial : forall t a s h i f x,
  reached t a s -> held a h = Some (i, f) -> writer_on a i = false -> removable (a_kind f) = true -> s_handles s !! h = Some x ->
  exists s' b b', call s (ODelete h) = (s', ADone) /\ current_map (s_world s) = Ok b
    /\ current_map (open_world t (w_dev (s_world s'))) = Ok b'
    /\ forall l, bam_sector t l -> is_free b' l <-> is_free b l \/ saved_by_delete (w_dev (s_world s)) x l.
Proof. exact delete_saved. Qed.
Print Assumptions C36_saved_partial.
Theorem C36_side_sectors_refuted : forall t a s h i f r l,
  reached t a s -> held a h = Some (i, f) -> writer_on a i = false -> removable (a_kind f) = true ->
  s_handles s !! h = Some (FRelative r) -> In l (rf_side_sectors r) -> ~ In l (rf_data_sectors r) ->
  exists s' b', call s (ODelete h) = (s', ADone) /\ current_map (open_world t (w_dev (s_world s'))) = Ok b' /\ bam_sector t l /\ ~ is_free b' l.
Proof. exact relative_lost. Qed.
Print Assumptions C36_side_sectors_refuted.
Theorem C36_info_block_refuted : forall t a s h i f g l ls,
  reached t a s -> held a h = Some (i, f) -> writer_on a i = false -> removable (a_kind f) = true ->
  s_handles s !! h = Some (FGEOSSequential g) \/ s_handles s !! h = Some (FGEOSVLIR g) -> has_record g = false ->
  entry_info_location (gf_entry g) = Ok (Some l) -> chain_locations (w_dev (s_world s)) (de_first (gf_entry g)) = Ok ls -> ~ In l ls ->
  exists s' b', call s (ODelete h) = (s', ADone) /\ current_map (open_world t (w_dev (s_world s'))) = Ok b' /\ bam_sector t l /\ ~ is_free b' l.
Proof. exact info_lost. Qed.
Print Assumptions C36_info_block_refuted.
Example C36_example_mixed :
  match s_handles (fst (calls (start D64 mixed_dev) [OOpen [82]; OOpen [83]])) with
  | [FRelative r; FGEOSSequential g] => rf_side_sectors r = [(17, 5)] /\ rf_data_sectors r = [(17, 0); (17, 1)]
      /\ has_record g = false /\ entry_info_location (gf_entry g) = Ok (Some (17, 3))
      /\ chain_locations mixed_dev (de_first (gf_entry g)) = Ok [(17, 2)]
  | _ => False
  end.
Proof. vm_compute. repeat split. Qed.
