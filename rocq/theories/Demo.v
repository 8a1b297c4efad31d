(** A history used as an example for the theorems about histories. *)
From Verif Require Import Base Layout Block Bam Format Petscii GeosTypes DirEntry Header World Directory File Spec CodecMore SpecKinds Session SpecDisk
  Refine Tables SpecFiles Trace SoundImage.

Definition demo_name : list nat := [68; 69; 77; 79].
Definition name_a : list nat := [65].
Definition name_b : list nat := [66; 66].
Definition name_c : list nat := [67].

(** Two files are created; one is written and closed, the other has a writer
    open with unwritten bytes; a third is created and deleted. *)
Definition demo_ops : list op :=
  [OCreate name_a PRG; OWriter 0; OWrite 0 (repeat 7 300); OClose 0;
   OCreate name_c USR; OCreate name_b SEQ; OWriter 2; OWrite 1 [1; 2; 3]; ODelete 1].

Definition demo_a : astate :=
  match arun D64 (formatted demo_name 0 0) demo_ops with Some (a, _) => a | None => formatted [] 0 0 end.
Definition demo_s : session := fst (calls (start D64 (blank_dev D64 true)) (OFormat demo_name (48, 49) :: demo_ops)).

Lemma demo_reached : reached D64 demo_a demo_s.
Proof.
  destruct (arun D64 (formatted demo_name 0 0) demo_ops) as [[a rs]|] eqn:E; [|by vm_compute in E].
  refine (reached_by D64 demo_a demo_s (blank_dev D64 true) demo_name (48, 49) demo_ops rs (blank_dev_shape D64 true) eq_refl _ _ eq_refl).
  - cbn [length demo_name]. lia.
  - unfold demo_a. rewrite E. exact eq_refl.
Qed.

Definition file_a : afile := mk_afile name_a (mk_attr PRG false false false true) 2 (repeat 7 300) KPlain.
Definition file_b : afile := mk_afile name_b (mk_attr SEQ false false false true) 1 [] KPlain.
Lemma demo_slots : as_slots demo_a = [Some file_a; None; Some file_b; None; None; None; None; None].
Proof. by vm_compute. Qed.

(** The same with the second writer closed, so that the image is up to date. *)
Definition demo_a2 : astate :=
  match astep D64 demo_a (OClose 1) with Some (a, _) => a | None => demo_a end.
Definition demo_s2 : session := fst (call demo_s (OClose 1)).
Lemma demo_reached2 : reached D64 demo_a2 demo_s2.
Proof.
  destruct (astep D64 demo_a (OClose 1)) as [[a r]|] eqn:E; [|by vm_compute in E].
  destruct (reached_step D64 demo_a demo_s _ a r demo_reached E) as (s' & Hc & Hr).
  unfold demo_a2, demo_s2. by rewrite E, Hc.
Qed.

(** The image holds bytes. *)
Definition is_zero (x : nat) : bool := match x with 0 => true | _ => false end.
Definition byte_block (b : list nat) : bool := forallb (fun x => is_zero x || (N.of_nat x <? 256)%N) b.
Lemma byte_blocks d : forallb byte_block (d_blocks d) = true -> holds_bytes d.
Proof.
  intros H. apply Forall_forall. intros b Hb%elem_of_list_In. rewrite forallb_forall in H. specialize (H b Hb).
  apply Forall_forall. intros x Hx%elem_of_list_In. unfold byte_block in H. rewrite forallb_forall in H. specialize (H x Hx).
  unfold is_byte. destruct x; [lia|]. cbn [is_zero orb] in H. apply N.ltb_lt in H. lia.
Qed.
Lemma demo_bytes : holds_bytes (w_dev (s_world demo_s2)).
Proof. apply byte_blocks. vm_compute. reflexivity. Qed.

Lemma demo_sound : exists dirs chains,
  sound_image D64 (w_dev (s_world demo_s2)) dirs chains (set_handles [] (set_writers [] demo_a2)).
Proof. apply reached_sound; [apply demo_reached2|vm_compute; reflexivity..|apply demo_bytes]. Qed.
