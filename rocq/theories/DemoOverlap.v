(** Handles and writers in use at the same time, as examples. *)
From Verif Require Import Base Layout Block DirEntry Spec SpecChain World Directory File Validate Session SpecKinds SpecDisk Trace SpecTurns Demo.

(** The other file is written and closed and a third created while the first
    is appended to. *)
Definition write_turns : list (turn (option (list nat))) :=
  [Step (Some (repeat 9 200)); Other (OWrite 1 [4; 5]); Step None; Other (OClose 1); Other (OCreate name_c SEQ); Step (Some (repeat 8 200))].

(** A file is created, opened a second time and deleted, and another takes its
    place in the directory. *)
Definition stale_ops : list op := [OCreate [70] PRG; OOpen [70]; ODelete 3; OCreate [71] PRG].
Definition stale_a : astate := match arun D64 demo_a stale_ops with Some (a, _) => a | None => demo_a end.
Definition stale_s : session := fst (calls demo_s stale_ops).
Lemma stale_reached : reached D64 stale_a stale_s.
Proof.
  destruct (arun D64 demo_a stale_ops) as [[a rs]|] eqn:E; [|by vm_compute in E].
  destruct (reached_run D64 demo_a demo_s _ a rs demo_reached E) as (s' & Hc & Hr).
  unfold stale_a, stale_s. by rewrite E, Hc.
Qed.

(** The second handle deletes the other file. *)
Lemma stale_deletes : ~ (forall t a s h name, reached t a s -> as_handles a !! h = Some None -> slot_named a name <> None ->
  forall s' r, call s (ODelete h) = (s', r) ->
  exists es e, w_directory (s_world s') = Ok es /\ In e es /\ de_name e = name).
Proof.
  intros H. specialize (H D64 stale_a stale_s 4 [71] stale_reached).
  assert (as_handles stale_a !! 4 = Some None) as H1 by (vm_compute; reflexivity).
  assert (slot_named stale_a [71] <> None) as H2 by (vm_compute; discriminate).
  destruct (H H1 H2 _ _ (surjective_pairing _)) as (es & e & He & Hin & Hn).
  assert (match w_directory (s_world (fst (call stale_s (ODelete 4)))) with
          | Ok es => forallb (fun e => negb (bool_decide (de_name e = [71]))) es
          | _ => true
          end = true) as Hall by (vm_compute; reflexivity).
  rewrite He in Hall. pose proof (proj1 (forallb_forall _ _) Hall e Hin) as Hx. cbn beta in Hx. by rewrite bool_decide_eq_true_2 in Hx.
Qed.

(** A file has a writer open. *)
Definition busy_ops : list op := [OCreate [70] PRG; OWriter 3].
Definition busy_a : astate := match arun D64 demo_a busy_ops with Some (a, _) => a | None => demo_a end.
Definition busy_s : session := fst (calls demo_s busy_ops).
Lemma busy_reached : reached D64 busy_a busy_s.
Proof.
  destruct (arun D64 demo_a busy_ops) as [[a rs]|] eqn:E; [|by vm_compute in E].
  destruct (reached_run D64 demo_a demo_s _ a rs demo_reached E) as (s' & Hc & Hr).
  unfold busy_a, busy_s. by rewrite E, Hc.
Qed.

(** The writer of a deleted file writes to the file that has taken its place. *)
Lemma stale_writes : ~ (forall t a s h i f k x name s1 h', reached t a s -> file_of a h = Some (i, f) ->
  as_writers a !! k = Some (Some x) -> aw_slot x = i ->
  calls s [ODelete h; OCreate name PRG] = (s1, [ADone; AIndex h']) ->
  forall buf s2 rs, calls s1 [OWrite k buf; OClose k; ORead h' [length buf]] = (s2, rs) ->
  last rs = Some (AReads [[]])).
Proof.
  intros H. specialize (H D64 busy_a busy_s 3 1 (mk_afile [70] (mk_attr PRG false false false true) 1 [] KPlain) 2 (mk_awriter 1 [] true) [71]
    (fst (calls busy_s [ODelete 3; OCreate [71] PRG])) 4 busy_reached).
  assert (file_of busy_a 3 = Some (1, mk_afile [70] (mk_attr PRG false false false true) 1 [] KPlain)) as H1 by (vm_compute; reflexivity).
  assert (as_writers busy_a !! 2 = Some (Some (mk_awriter 1 [] true))) as H2 by (vm_compute; reflexivity).
  assert (snd (calls busy_s [ODelete 3; OCreate [71] PRG]) = [ADone; AIndex 4]) as H3 by (vm_compute; reflexivity).
  specialize (H H1 H2 eq_refl). rewrite <- H3 in H. specialize (H (surjective_pairing _) [9; 9] _ _ (surjective_pairing _)).
  assert (last (snd (calls (fst (calls busy_s [ODelete 3; OCreate [71] PRG])) [OWrite 2 [9; 9]; OClose 2; ORead 4 [2]])) = Some (AReads [[9; 9]])) as H4
    by (vm_compute; reflexivity).
  pose proof (eq_trans (eq_sym H4) H) as Hx. discriminate Hx.
Qed.

(** Two writers on a file: what the first wrote is lost. *)
Lemma two_writers : ~ (forall t a s h i f n b1 b2, reached t a s -> file_of a h = Some (i, f) -> writer_on a i = false ->
  w_blocks_free (s_world s) = Ok n -> length (a_data f ++ b1 ++ b2) <= 254 * (a_blocks f + n) ->
  let k := length (s_writers s) in
  forall s' rs, calls s [OWriter h; OWriter h; OWrite k b1; OWrite (S k) b2; OClose k; OClose (S k); ORead h [length (a_data f ++ b1 ++ b2)]] = (s', rs) ->
  last rs = Some (AReads [a_data f ++ b1 ++ b2]) \/ last rs = Some (AReads [a_data f ++ b2 ++ b1])).
Proof.
  intros H. specialize (H D64 stale_a stale_s 5 1 (mk_afile [71] (mk_attr PRG false false false true) 1 [] KPlain) 660 [1; 2] [3; 4] stale_reached).
  assert (file_of stale_a 5 = Some (1, mk_afile [71] (mk_attr PRG false false false true) 1 [] KPlain)) as H1 by (vm_compute; reflexivity).
  assert (writer_on stale_a 1 = false) as H2 by (vm_compute; reflexivity).
  assert (w_blocks_free (s_world stale_s) = Ok 660) as H3 by (vm_compute; reflexivity).
  specialize (H H1 H2 H3). assert (length (s_writers stale_s) = 2) as H4 by (vm_compute; reflexivity). rewrite H4 in H.
  cbn [a_data a_blocks app length] in H. specialize (H ltac:(lia) _ _ (surjective_pairing _)).
  assert (last (snd (calls stale_s [OWriter 5; OWriter 5; OWrite 2 [1; 2]; OWrite 3 [3; 4]; OClose 2; OClose 3; ORead 5 [4]])) = Some (AReads [[3; 4]])) as H5
    by (vm_compute; reflexivity).
  rewrite H5 in H. destruct H as [H|H]; discriminate H.
Qed.

(** Two writers on a file, with more to write: a sector is lost as well. *)
Definition lost_ops : list op :=
  [OWriter 5; OWriter 5; OWrite 2 (repeat 1 300); OWrite 3 (repeat 2 300); OClose 2; OClose 3].
Lemma lost_sector : ~ (forall t a s os s' rs, reached t a s -> calls s os = (s', rs) ->
  Forall (fun r => match r with AError _ | ABroken => False | _ => True end) rs -> validate (s_world s') = Ok []).
Proof.
  intros H. specialize (H D64 stale_a stale_s lost_ops _ _ stale_reached (surjective_pairing _)).
  assert (snd (calls stale_s lost_ops) = [AIndex 2; AIndex 3; ACount 300; ACount 300; ADone; ADone]) as H1 by (vm_compute; reflexivity).
  rewrite H1 in H. specialize (H ltac:(repeat constructor)).
  assert (validate (s_world (fst (calls stale_s lost_ops))) = Ok [VSectorMisallocated (17, 4)]) as H2 by (vm_compute; reflexivity).
  rewrite H2 in H. discriminate H.
Qed.
