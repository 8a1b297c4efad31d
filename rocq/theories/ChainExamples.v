(** Concrete chains, for the examples beside the theorems. *)
From Verif Require Import Base ListFacts Layout Block Chain Spec SpecChain GeomFacts FlatProofs DevFacts
  CodecMore ChainProofs.

(** A D64 with a sound chain of two sectors at (17,0) and (1,5), a chain that
    loops at (2,0) and (2,1), and a bad link at (3,3). *)
Definition example_dev : dev :=
  upd (upd (upd (upd (upd (blank_dev D64 true)
    (17, 0) ([1; 5] ++ repeat 66 254)) (1, 5) ([0; 4; 7; 8; 9] ++ repeat 99 251))
    (2, 0) ([2; 1] ++ repeat 0 254)) (2, 1) ([2; 0] ++ repeat 0 254))
    (3, 3) (repeat 0 256).

Lemma example_shape : dev_shape D64 example_dev.
Proof. repeat (apply upd_shape; [|reflexivity]). apply blank_dev_shape. Qed.

Lemma example_sound : sound_chain example_dev (17, 0) [(17, 0); (1, 5)].
Proof.
  assert (chain_walk example_dev (17, 0) =
    ([mk_cs ([1; 5] ++ repeat 66 254) (17, 0); mk_cs [0; 4; 7; 8; 9] (1, 5)], Ok tt)) as H
    by (vm_compute; reflexivity).
  exact (sound_walk _ _ _ _ example_shape H).
Qed.

Lemma example_cycle : exists t d start,
  dev_shape t d /\ forall fuel, find_tail_fuel fuel d start = NoFuel.
Proof.
  exists D64, example_dev, (2, 0). split; [apply example_shape|].
  apply (proj2 (find_tail_terminates _ _ _ example_shape)). vm_compute. reflexivity.
Qed.
