(** Image files that hold the devices of the other examples. *)
From Verif Require Import Base Layout Image Block Petscii GeosTypes DirEntry Header World Chain GeosFile File Spec SpecChain SpecBam SpecFiles SpecGeos SpecDisk Session CodecMore Host Main SpecHost
  FlatProofs ChainProofs HostProofs Demo SpecProgram DemoHost DemoImages DemoGeos DemoTool.
Local Open Scope list_scope.

(** The host's files after the image of [d] is put at [place_disk]. *)
Definition host_with (d : dev) : host := put_file place_disk (file_of_dev d) host1.
(** [d] as it is just after opening. *)
Definition opened_as (m : bool) (d : dev) : dev := mk_dev m (d_geom d) (d_blocks d) (d_etable d) [].

Lemma host_with_opens m d : dev_shape D64 d -> d_geom d = d_geom (blank_dev D64 true) ->
  disk_open_path m place_disk (host_with d) = Good (D64, opened_as m d).
Proof.
  intros Hd Hg. destruct (host_create around place_disk host0 around_fair host0_bytes eq_refl) as (_ & _ & _ & H4).
  apply (reopened true m place_disk host1 D64 (blank_dev D64 true)); [exact H4|exact Hd|exact Hg|apply put_same].
Qed.
Lemma host_with_bytes d : holds_bytes d -> d_etable d = [] -> byte_files (host_with d).
Proof.
  intros Hb He. destruct (host_create around place_disk host0 around_fair host0_bytes eq_refl) as (_ & H2 & _).
  apply put_bytes; [exact H2|]. apply dev_bytes. split; [exact Hb|]. rewrite He. apply Forall_nil_2.
Qed.
Lemma host_geos m : byte_files (host_with geos_dev) /\ disk_open_path m place_disk (host_with geos_dev) = Good (D64, opened_as m geos_dev).
Proof. split; [apply host_with_bytes; [exact geos_bytes|reflexivity]|apply host_with_opens; [exact geos_shape|reflexivity]]. Qed.
Lemma host_rel m : byte_files (host_with rel_dev) /\ disk_open_path m place_disk (host_with rel_dev) = Good (D64, opened_as m rel_dev).
Proof. split; [apply host_with_bytes; [exact rel_bytes|reflexivity]|apply host_with_opens; [exact rel_shape|reflexivity]]. Qed.
Lemma host_broken m : byte_files (host_with broken_dev) /\ disk_open_path m place_disk (host_with broken_dev) = Good (D64, opened_as m broken_dev).
Proof.
  split; [|apply host_with_opens; [exact broken_shape|reflexivity]]. apply host_with_bytes; [|reflexivity]. apply byte_blocks. vm_compute. reflexivity.
Qed.

(** A larger buffer. *)
Definition around_large : surroundings := mk_surroundings [] (fun bs => [bs]) 1000 10.
Lemma around_large_fair : fair around_large.
Proof. split; [cbn [su_buffer around_large]; lia|]. split; [intros bs; cbn; apply app_nil_r|]. apply Forall_nil_2. Qed.

(** The GEOS sequential file, seen in the opened image. *)
Lemma geos_seq_opened : exists f, open_file (open_world D64 (opened_as false geos_dev)) (from_str_lossy [115%N]) = Ok f
  /\ one_chain f /\ sound_chain (opened_as false geos_dev) (de_first (file_entry f)) [(17, 0)]
  /\ de_scheme (file_entry f) = SGEOSSequential /\ stored (opened_as false geos_dev) (file_entry f) (18, 1) 0 geos_dir
  /\ convert_blocks (opened_as false geos_dev) (slice (32 * 0) 32 geos_dir) geos_seq_blocks.
Proof.
  destruct (open_file (open_world D64 (opened_as false geos_dev)) (from_str_lossy [115%N])) as [f| | |] eqn:E; try by vm_compute in E.
  vm_compute in E. injection E as <-.
  assert (sound_chain (opened_as false geos_dev) (17, 0) [(17, 0)]) as Hc.
  { apply chain_check; [|by vm_compute|by vm_compute]. apply NoDup_singleton. }
  eexists. split; [reflexivity|]. split; [reflexivity|]. split; [exact Hc|]. split; [reflexivity|]. split.
  - split; [by vm_compute|]. split; [lia|]. exists false. eexists. split; [vm_compute; reflexivity|]. split; reflexivity.
  - replace geos_seq_blocks with [entry_block false (slice (32 * 0) 32 geos_dir); drop 2 (0 :: 255 :: 3 :: 21 :: 191 :: repeat 5 251); data_of (opened_as false geos_dev) [(17, 0)]]
      by (vm_compute; reflexivity).
    apply cb_sequential; [by vm_compute|by vm_compute|by vm_compute|exact Hc].
Qed.

(** The file with a fault in its chain. *)
Lemma broken_opened : exists f, open_file (open_world D64 (opened_as false broken_dev)) (from_str_lossy [115%N]) = Ok f
  /\ one_chain f /\ forall ls, ~ sound_chain (opened_as false broken_dev) (de_first (file_entry f)) ls.
Proof.
  destruct (open_file (open_world D64 (opened_as false broken_dev)) (from_str_lossy [115%N])) as [f| | |] eqn:E; try by vm_compute in E.
  vm_compute in E. injection E as <-. eexists. split; [reflexivity|]. split; [exact I|]. intros ls Hs.
  assert (dev_shape D64 (opened_as false broken_dev)) as Hd by (destruct broken_shape; by constructor).
  apply (locations_sound D64) in Hs; [|exact Hd]. by vm_compute in Hs.
Qed.
