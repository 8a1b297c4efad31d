(** Turns used as examples. *)
From Verif Require Import Base Layout Block DirEntry Spec SpecChain Session SpecKinds SpecDisk Trace SpecTurns Demo DemoMixed.

(** Between the reads another file is written, closed and deleted, and a third
    is created, which may take the sectors that came free. *)
Definition read_turns : list (turn nat) :=
  [Step 100; Other (OWrite 1 (repeat 9 600)); Other (OClose 1); Step 100; Other (ODelete 2); Other (OCreate name_c SEQ); Step 200; Step 5].

(** On the GEOS disk the first file is deleted once it has been listed and
    another is created; the file in the border sector is listed all the same. *)
Definition list_turns : list (turn unit) :=
  [Step tt; Other (OOpen [65]); Other (ODelete 0); Other (OCreate [67] SEQ); Step tt; Step tt].

(** The disk with relative and GEOS files, two of them opened. *)
Definition opened_ops : list op := [OOpen [83]; OOpen [86]].
Definition opened_a : astate := match arun D64 mixed_a opened_ops with Some (a, _) => a | None => mixed_a end.
Definition opened_s : session := fst (calls (start D64 mixed_dev) opened_ops).
Lemma opened_reached : reached D64 opened_a opened_s.
Proof.
  destruct (arun D64 mixed_a opened_ops) as [[a rs]|] eqn:E; [|by vm_compute in E].
  destruct (reached_run D64 mixed_a (start D64 mixed_dev) _ a rs mixed_reached E) as (s' & Hc & Hr).
  unfold opened_a, opened_s. by rewrite E, Hc.
Qed.
(** The relative file and the plain file are deleted, and a file is written. *)
Definition geos_turns (n : nat) : list (turn nat) :=
  [Step n; Other (OOpen [82]); Other (ODelete 2); Step n; Other (OOpen [80]); Other (ODelete 3); Other (OCreate [78] PRG);
   Other (OWriter 4); Other (OWrite 0 (repeat 9 600)); Step n; Other (OClose 0); Step n].

(** The file that is read is appended to. *)
Definition grow_turns : list (turn nat) :=
  [Step 100; Other (OWriter 0); Other (OWrite 2 (repeat 9 400)); Step 300; Other (OClose 2); Step 200; Step 200; Step 5].

(** Reads while the image is exchanged for another and back. *)
Definition exchanged (d1 d2 : dev) : list (dev * nat) := [(d1, 100); (d2, 100); (d1, 300); (d2, 5)].
Lemma exchanged_shape t d1 d2 : dev_shape t d1 -> dev_shape t d2 -> d_geom d2 = d_geom d1 ->
  Forall (fun x => dev_shape t (fst x) /\ d_geom (fst x) = d_geom d1) (exchanged d1 d2).
Proof. intros H1 H2 H3. unfold exchanged. apply Forall_forall. intros x Hx. rewrite !elem_of_cons, elem_of_nil in Hx. destruct Hx as [->|[->|[->|[->|[]]]]]; cbn [fst]; auto. Qed.
