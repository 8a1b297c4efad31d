(** The GEOS files of an image, for the examples beside the theorems. *)
From Verif Require Import Base Layout Block Bam Format Petscii GeosTypes DirEntry Header World Chain Directory Rel GeosFile File
  Spec SpecChain SpecBam SpecFiles SpecGeos CodecMore DemoImages.

(** ** Checking chains *)
Fixpoint chain_b (d : dev) (ls : list location) : bool :=
  match ls with
  | [] => false
  | l :: ls' =>
      match sector d l with
      | Ok b =>
          match ls' with
          | [] => (b !!! 0 =? 0) && negb (b !!! 1 =? 0)
          | l' :: _ => (b !!! 0 =? fst l') && (b !!! 1 =? snd l') && negb (fst l' =? 0) && chain_b d ls'
          end
      | _ => false
      end
  end.
Lemma chain_check d ls l0 : NoDup ls -> head ls = Some l0 -> chain_b d ls = true -> sound_chain d l0 ls.
Proof.
  intros Hn Hh H. split; [done|]. split; [done|]. clear Hn Hh l0.
  induction ls as [|l ls IH]; [done|]. cbn [chain_b] in H. destruct (sector d l) as [b| | |] eqn:E; [|done..].
  destruct ls as [|l' ls].
  - apply andb_prop in H as [H0%Nat.eqb_eq H1%negb_true_iff%Nat.eqb_neq]. split.
    + intros i x y Hx Hy. by destruct i.
    + exists l, (b !!! 1). split; [done|]. by exists b.
  - apply andb_prop in H as [H H4]. apply andb_prop in H as [H H3%negb_true_iff%Nat.eqb_neq].
    apply andb_prop in H as [H1%Nat.eqb_eq H2%Nat.eqb_eq].
    destruct (IH H4) as [Hp (k & e & Hk & He)]. split.
    + intros i x y Hx Hy. destruct i as [|i]; [|by apply (Hp i)]. cbn in Hx, Hy. injection Hx as ->. injection Hy as ->. by exists b.
    + by exists k, e.
Qed.

(** ** The GEOS files of [geos_dev] *)
Definition geos_dir : list nat := match sector geos_dev (18, 1) with Ok b => b | _ => [] end.
Definition geos_seq_blocks : list (list nat) :=
  [entry_block false (slice 0 32 geos_dir); 3 :: 21 :: 191 :: repeat 5 251; [7; 8; 9]].
Definition geos_vlir_blocks : list (list nat) :=
  [entry_block true (slice 32 32 geos_dir); 3 :: 21 :: 191 :: repeat 9 251; zeros_to 254 [2; 11; 0; 255; 1; 5];
   repeat 6 254 ++ repeat 7 10 ++ repeat 0 244; [1; 2; 3; 4]].

Lemma geos_seq_file : exists f, open_file (open_world D64 geos_dev) (from_str_lossy [115%N]) = Ok f
  /\ de_scheme (file_entry f) = SGEOSSequential /\ stored geos_dev (file_entry f) (18, 1) 0 geos_dir
  /\ convert_blocks geos_dev (slice (32 * 0) 32 geos_dir) geos_seq_blocks.
Proof.
  destruct (open_file (open_world D64 geos_dev) (from_str_lossy [115%N])) as [f| | |] eqn:E; try by vm_compute in E.
  vm_compute in E. injection E as <-. eexists. split; [reflexivity|]. split; [reflexivity|]. split.
  - split; [by vm_compute|]. split; [lia|]. exists false. eexists. split; [vm_compute; reflexivity|]. split; reflexivity.
  - replace geos_seq_blocks with [entry_block false (slice (32 * 0) 32 geos_dir); drop 2 (0 :: 255 :: 3 :: 21 :: 191 :: repeat 5 251); data_of geos_dev [(17, 0)]]
      by (vm_compute; reflexivity).
    apply cb_sequential; [by vm_compute|by vm_compute|by vm_compute|].
    apply chain_check; [|by vm_compute|by vm_compute]. apply NoDup_singleton.
Qed.

Lemma geos_record_chain : sound_chain geos_dev (16, 1) [(16, 1); (16, 3)].
Proof.
  apply chain_check; [|by vm_compute|by vm_compute]. apply NoDup_cons. split; [by intros ?%elem_of_list_singleton|apply NoDup_singleton].
Qed.
Lemma geos_vlir_file : exists f, open_file (open_world D64 geos_dev) (from_str_lossy [118%N]) = Ok f
  /\ de_scheme (file_entry f) = SGEOSVLIR /\ stored geos_dev (file_entry f) (18, 1) 1 geos_dir
  /\ convert_blocks geos_dev (slice (32 * 1) 32 geos_dir) geos_vlir_blocks.
Proof.
  destruct (open_file (open_world D64 geos_dev) (from_str_lossy [118%N])) as [f| | |] eqn:E; try by vm_compute in E.
  vm_compute in E. injection E as <-. eexists. split; [reflexivity|]. split; [reflexivity|]. split.
  - split; [by vm_compute|]. split; [lia|]. exists false. eexists. split; [vm_compute; reflexivity|]. split; reflexivity.
  - pose proof geos_record_chain as C1.
    assert (C2 : sound_chain geos_dev (16, 2) [(16, 2)]).
    { apply chain_check; [|by vm_compute|by vm_compute]. apply NoDup_singleton. }
    pose (index := match sector geos_dev (16, 0) with Ok b => b | _ => [] end).
    assert (S1 : index_slots index = [(16, 1); (0, 255); (16, 2)]) by by vm_compute.
    assert (S2 : List.filter present (index_slots index) = [(16, 1); (16, 2)]) by (rewrite S1; by vm_compute).
    replace geos_vlir_blocks with
      ([entry_block true (slice (32 * 1) 32 geos_dir); drop 2 (0 :: 255 :: 3 :: 21 :: 191 :: repeat 9 251); zeros_to 254 (concat [[2; 11]; [0; 255]; [1; 5]])]
       ++ fill_all (map (data_of geos_dev) [[(16, 1); (16, 3)]; [(16, 2)]]))
      by (vm_compute; reflexivity).
    apply (cb_vlir geos_dev _ _ index); [by vm_compute|by vm_compute|by vm_compute|by vm_compute| |].
    + rewrite S1. repeat constructor.
      * apply (ip_record geos_dev (16, 1) [(16, 1); (16, 3)] (16, 3) 11); [done|done|cbn; lia|done|]. eexists. split; [vm_compute; reflexivity|]. repeat split; lia.
      * apply (ip_record geos_dev (16, 2) [(16, 2)] (16, 2) 5); [done|done|cbn; lia|done|]. eexists. split; [vm_compute; reflexivity|]. repeat split; lia.
    + rewrite S2. exact (List.Forall2_cons _ _ C1 (List.Forall2_cons _ _ C2 (List.Forall2_nil _))).

Qed.
