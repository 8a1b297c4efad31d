(** Facts about the table of files alone. *)
From Verif Require Import Base ListFacts DirEntry SpecChain SpecKinds Session SpecDisk Refine.
Ltac Zify.zify_post_hook ::= Z.div_mod_to_equations.

Lemma calls_app s os os' :
  calls s (os ++ os') = let '(s1, rs) := calls s os in let '(s2, rs') := calls s1 os' in (s2, rs ++ rs').
Proof.
  revert s. induction os as [|o os IH]; intros s; cbn [app calls]; [by destruct (calls s os')|].
  destruct (call s o) as [s1 r]. rewrite IH. destruct (calls s1 os) as [s2 rs]. by destruct (calls s2 os').
Qed.

Lemma arun_app t a os os' :
  arun t a (os ++ os') =
  match arun t a os with
  | Some (a1, rs) => match arun t a1 os' with Some (a2, rs') => Some (a2, rs ++ rs') | None => None end
  | None => None
  end.
Proof.
  revert a. induction os as [|o os IH]; intros a; cbn [app arun].
  - by destruct (arun t a os') as [[]|].
  - destruct (astep t a o) as [[a1 r]|]; [|done]. rewrite IH. destruct (arun t a1 os) as [[a2 rs]|]; [|done].
    by destruct (arun t a2 os') as [[]|].
Qed.

Lemma sum_insert (l : list nat) i x y : l !! i = Some x -> sum (<[i := y]> l) + x = sum l + y.
Proof.
  unfold sum. revert i. induction l as [|z l IH]; intros [|i]; cbn; [done..| |].
  - intros [= ->]. lia.
  - intros H%IH. rewrite <- !Nat.add_assoc. f_equal. exact H.
Qed.

Lemma used_put a i o o' : as_slots a !! i = Some o -> blocks_used (put i o' a) + blocks_of o = blocks_used a + blocks_of o'.
Proof.
  intros H. unfold blocks_used, put. cbn [as_slots set_slots].
  change (map blocks_of) with (@fmap list _ _ _ blocks_of). rewrite list_fmap_insert. apply sum_insert.
  rewrite list_lookup_fmap, H. done.
Qed.

Lemma ceil_mono x y : x <= y -> (x + 253) / 254 <= (y + 253) / 254.
Proof. lia. Qed.

Lemma take_rest {A} n (l : list A) : take n l ++ drop (length (take n l)) l = l.
Proof.
  rewrite take_length. destruct (Nat.le_gt_cases n (length l)).
  - rewrite Nat.min_l by lia. apply take_drop.
  - rewrite Nat.min_r, take_ge, drop_ge by lia. apply app_nil_r.
Qed.

(** ** Several writes in a row *)

Definition same_but (i : nat) (a a' : astate) : Prop :=
  as_label a' = as_label a /\ as_dirs a' = as_dirs a /\ as_border a' = as_border a /\ as_handles a' = as_handles a
  /\ length (as_slots a') = length (as_slots a) /\ (forall j, j <> i -> as_slots a' !! j = as_slots a !! j).

Lemma writes_run t k i bufs : forall a f pend dirty,
  as_writers a !! k = Some (Some (mk_awriter i pend dirty)) ->
  as_slots a !! i = Some (Some f) ->
  blocks_taken a <= disk_blocks t ->
  blocks_for (a_blocks f) (length (a_data f ++ pend)) = a_blocks f ->
  length (a_data f ++ pend ++ concat bufs) <= 254 * (a_blocks f + blocks_left t a) ->
  exists a' f' pend' dirty',
    arun t a (map (OWrite k) bufs) = Some (a', map (fun b => ACount (length b)) bufs)
    /\ as_writers a' = <[k := Some (mk_awriter i pend' dirty')]> (as_writers a)
    /\ as_slots a' = <[i := Some f']> (as_slots a)
    /\ as_label a' = as_label a /\ as_dirs a' = as_dirs a /\ as_border a' = as_border a /\ as_handles a' = as_handles a
    /\ a_name f' = a_name f /\ a_attr f' = a_attr f /\ a_kind f' = a_kind f
    /\ a_blocks f' = blocks_for (a_blocks f) (length (a_data f ++ pend ++ concat bufs))
    /\ a_data f' ++ pend' = a_data f ++ pend ++ concat bufs
    /\ (dirty = true -> dirty' = true).
Proof.
  induction bufs as [|buf bufs IH]; intros a f pend dirty Hw Hs Hu Hb Hl.
  - exists a, f, pend, dirty. cbn. rewrite app_nil_r.
    rewrite !list_insert_id by done. by rewrite Hb.
  - cbn [map concat] in *.
    set (all := a_data f ++ pend ++ buf).
    assert (length (a_data f ++ pend ++ buf ++ concat bufs) = length all + length (concat bufs)) as EL
      by (unfold all; rewrite !app_length; lia).
    rewrite EL in Hl.
    cbn [arun astep]. rewrite Hw. cbn [aw_slot aw_pend]. rewrite Hs.
    unfold write_to. fold all. destruct (Nat.leb_spec (length all) (254 * (a_blocks f + blocks_left t a))) as [Hle|]; [|lia].
    set (nb := blocks_for (a_blocks f) (length all)).
    set (data := if nb =? a_blocks f then a_data f else take (254 * (nb - 1)) all).
    set (f1 := mk_afile (a_name f) (a_attr f) nb data (a_kind f)).
    set (a1 := put i (Some f1) (set_writers (<[k := Some (mk_awriter i (drop (length data) all) true)]> (as_writers a)) a)).
    assert (data ++ drop (length data) all = all) as Hall.
    { unfold data. destruct (nb =? a_blocks f); [unfold all; by rewrite drop_app|].
apply take_rest. }
    assert (forall x, exists a2, (if a_blocks f1 =? a_blocks f then a1 else set_synced x a1) = a2 /\
        as_writers a2 = as_writers a1 /\ as_slots a2 = as_slots a1 /\ as_label a2 = as_label a1 /\ as_dirs a2 = as_dirs a1 /\ as_border a2 = as_border a1
        /\ as_handles a2 = as_handles a1) as Hx.
    { intros x. eexists. split; [done|]. destruct (_ =? _); done. }
    destruct (Hx false) as (a2 & -> & W2 & S2 & L2 & D2 & B2 & H2). clear Hx.
    assert (i < length (as_slots a)) as Hi by by eapply lookup_lt_Some.
    assert (k < length (as_writers a)) as Hk by by eapply lookup_lt_Some.
    assert (blocks_used a2 + a_blocks f = blocks_used a + nb) as Hused.
    { pose proof (used_put a i (Some f) (Some f1) Hs) as H. cbn [blocks_of] in H. unfold blocks_used in *.
      rewrite S2. exact H. }
    assert (nb <= a_blocks f + blocks_left t a) as Hnb.
    { unfold nb, blocks_for. pose proof (ceil_mono _ _ Hle). lia. }
    assert (a_blocks f <= nb) as Hnb' by (unfold nb, blocks_for; lia).
    assert (as_border a2 = as_border a) as Hbo by (by rewrite B2).
    unfold blocks_left, blocks_taken in *. rewrite Hbo in *.
    destruct (IH a2 f1 (drop (length data) all) true) as (a3 & f3 & p3 & d3 & Hr & Hw3 & Hs3 & L3 & D3 & Bo3 & H3 & N3 & T3 & Q3 & B3 & C3 & Hd3).
    + rewrite W2. cbn. by rewrite list_lookup_insert.
    + rewrite S2. cbn. by rewrite list_lookup_insert.
    + rewrite Hbo. lia.
    + cbn [a_blocks a_data f1]. rewrite Hall. unfold nb, blocks_for. lia.
    + cbn [a_blocks a_data f1]. rewrite app_assoc, Hall, app_length. unfold blocks_left. rewrite Hbo. lia.
    + rewrite Hr. exists a3, f3, p3, d3. split; [done|].
      rewrite Hw3, W2. cbn [a1 put set_slots set_writers as_writers]. rewrite list_insert_insert. split; [done|].
      rewrite Hs3, S2. cbn [a1 put set_slots set_writers as_slots]. rewrite list_insert_insert. split; [done|].
      rewrite L3, L2, D3, D2, Bo3, Hbo, H3, H2, N3, T3, Q3. do 7 (split; [done|]).
      rewrite B3, C3. cbn [a_blocks a_data f1]. rewrite !(app_assoc data), Hall. split.
      * rewrite EL, app_length. unfold nb, blocks_for.
        assert ((length all + 253) / 254 <= (length all + length (concat bufs) + 253) / 254) by (apply ceil_mono; lia). lia.
      * split; [unfold all; by rewrite <- !app_assoc|]. by intros _; apply Hd3.
Qed.

Lemma plain_afile f : a_special f = false -> a_kind f = KPlain.
Proof. unfold a_special. by destruct (a_kind f). Qed.

(** Opening a writer, writing and closing it. *)
Lemma append_run t a h i f bufs :
  as_handles a !! h = Some (Some i) -> as_slots a !! i = Some (Some f) -> a_special f = false -> writer_on a i = false ->
  blocks_taken a <= disk_blocks t ->
  blocks_for (a_blocks f) (length (a_data f)) = a_blocks f ->
  length (a_data f ++ concat bufs) <= 254 * (a_blocks f + blocks_left t a) ->
  let k := length (as_writers a) in
  exists a',
    arun t a (OWriter h :: map (OWrite k) bufs ++ [OClose k])
      = Some (a', AIndex k :: map (fun b => ACount (length b)) bufs ++ [ADone])
    /\ as_slots a' = <[i := Some (mk_afile (a_name f) (a_attr f)
                              (blocks_for (a_blocks f) (length (a_data f ++ concat bufs))) (a_data f ++ concat bufs) KPlain)]> (as_slots a)
    /\ as_writers a' = as_writers a ++ [None] /\ as_handles a' = as_handles a
    /\ as_label a' = as_label a /\ as_dirs a' = as_dirs a /\ as_border a' = as_border a /\ as_synced a' = true.
Proof.
  intros Hh Hs Hsp Hw Hu Hb Hl k.
  cbn [arun astep]. unfold file_of. rewrite Hh, Hs, Hsp, Hw.
  set (a1 := set_writers (as_writers a ++ [Some (mk_awriter i [] true)]) a).
  assert (as_writers a1 !! k = Some (Some (mk_awriter i [] true))) as Hk.
  { cbn. unfold k. rewrite lookup_app_r by lia. by rewrite Nat.sub_diag. }
  destruct (writes_run t k i bufs a1 f [] true Hk Hs Hu)
    as (a3 & f3 & p3 & d3 & Hr & Hw3 & Hs3 & L3 & D3 & Bo3 & H3 & N3 & T3 & Q3 & B3 & C3 & Hd3).
  - by rewrite app_nil_r.
  - done.
  - rewrite arun_app, Hr. cbn [arun astep].
    assert (as_writers a3 !! k = Some (Some (mk_awriter i p3 d3))) as Hk3.
    { rewrite Hw3. apply list_lookup_insert. by eapply lookup_lt_Some. }
    rewrite Hk3. specialize (Hd3 eq_refl). subst d3. unfold settle. cbn [aw_dirty aw_slot aw_pend set_writers as_slots].
    assert (i < length (as_slots a)) as Hi by by eapply lookup_lt_Some.
    assert (as_slots a3 !! i = Some (Some f3)) as Hs3'.
    { rewrite Hs3. by apply list_lookup_insert. }
    rewrite Hs3'. eexists. split; [done|]. cbn [set_synced put set_slots as_slots as_writers as_handles as_label as_dirs as_border as_synced set_writers].
    rewrite Hs3, list_insert_insert. cbn in C3, B3. rewrite N3, T3, Q3, (plain_afile _ Hsp), B3, C3. split; [done|].
    rewrite Hw3, list_insert_insert. cbn [a1 set_writers as_writers].
    rewrite insert_app_r_alt by (unfold k; lia). unfold k. rewrite Nat.sub_diag. cbn [insert list_insert]. by rewrite H3, L3, D3, Bo3.
Qed.

(** ** Block counts match contents *)

Record tidy (a : astate) : Prop := {
  ti_free : forall i f, as_slots a !! i = Some (Some f) -> a_special f = false -> writer_on a i = false -> a_blocks f = blocks_for 1 (length (a_data f));
  ti_writer : forall k x f, as_writers a !! k = Some (Some x) -> as_slots a !! aw_slot x = Some (Some f) ->
    a_blocks f = blocks_for 1 (length (a_data f ++ aw_pend x));
  ti_clean : forall k x, as_writers a !! k = Some (Some x) -> aw_dirty x = false -> aw_pend x = [];
  ti_live : forall k x, as_writers a !! k = Some (Some x) -> exists f, as_slots a !! aw_slot x = Some (Some f);
  ti_apart : apart (as_writers a)
}.

Lemma writer_on_spec a i : writer_on a i = true <-> exists k x, as_writers a !! k = Some (Some x) /\ aw_slot x = i.
Proof.
  unfold writer_on. rewrite existsb_exists. split.
  - intros ([x|] & Hin & Hx); [|done]. apply Nat.eqb_eq in Hx. apply elem_of_list_In, elem_of_list_lookup in Hin as [k Hk].
    by exists k, x.
  - intros (k & x & Hk & Hx). exists (Some x). split; [|by apply Nat.eqb_eq].
    apply elem_of_list_In, elem_of_list_lookup. by exists k.
Qed.
Lemma writer_on_none a i : writer_on a i = false <-> forall k x, as_writers a !! k = Some (Some x) -> aw_slot x <> i.
Proof.
  rewrite <- not_true_iff_false, writer_on_spec. split.
  - intros H k x Hk Hx. apply H. by exists k, x.
  - intros H (k & x & Hk & Hx). by apply (H k x).
Qed.

Lemma tidy_formatted name h k : tidy (formatted name h k).
Proof.
  split; unfold formatted; cbn [as_slots as_writers].
  - intros i f H. exfalso. apply elem_of_list_lookup_2 in H. apply elem_of_list_In, repeat_spec in H. done.
  - intros i x f H. exfalso. apply elem_of_list_lookup_2 in H. apply elem_of_list_In, repeat_spec in H. done.
  - intros i x H. exfalso. apply elem_of_list_lookup_2 in H. apply elem_of_list_In, repeat_spec in H. done.
  - intros i x H. exfalso. apply elem_of_list_lookup_2 in H. apply elem_of_list_In, repeat_spec in H. done.
  - intros i j x y H. exfalso. apply elem_of_list_lookup_2 in H. apply elem_of_list_In, repeat_spec in H. done.
Qed.

Lemma tidy_same a a' : as_slots a' = as_slots a -> as_writers a' = as_writers a -> tidy a -> tidy a'.
Proof.
  intros Es Ew [T1 T2 T3 T4 T5]. split; rewrite ?Es, ?Ew; [|done..]. intros i f Hf Hp Hw. apply (T1 i); [done|done|].
  unfold writer_on in *. by rewrite <- Ew.
Qed.

Lemma lookup_insert_cases {A} (l : list A) i j x y :
  <[i := x]> l !! j = Some y -> (i = j /\ i < length l /\ x = y) \/ (i <> j /\ l !! j = Some y).
Proof.
  intros H. destruct (decide (i = j)) as [->|n].
  - apply list_lookup_insert_Some in H as [(? & ? & ?)|[? ?]]; [by left|done].
  - right. split; [done|]. by rewrite list_lookup_insert_ne in H.
Qed.

Lemma tidy_update a a' k x o' f' :
  as_writers a !! k = Some (Some x) ->
  as_slots a' = <[aw_slot x := Some f']> (as_slots a) -> as_writers a' = <[k := o']> (as_writers a) ->
  match o' with
  | Some y => aw_slot y = aw_slot x /\ a_blocks f' = blocks_for 1 (length (a_data f' ++ aw_pend y)) /\ (aw_dirty y = false -> aw_pend y = [])
  | None => a_blocks f' = blocks_for 1 (length (a_data f'))
  end ->
  tidy a -> tidy a'.
Proof.
  intros Hk Es Ew Ho [T1 T2 T3 T4 T5].
  assert (k < length (as_writers a)) as Lk by by eapply lookup_lt_Some.
  destruct (T4 k x Hk) as [f Hf]. assert (aw_slot x < length (as_slots a)) as Lx by by eapply lookup_lt_Some.
  split.
  - intros i g Hg Hp Hw. rewrite writer_on_none in Hw. rewrite Es in Hg.
    apply lookup_insert_cases in Hg as [(<- & _ & [= <-])|[Hne Hg]].
    + destruct o' as [y|]; [|done]. destruct Ho as [Hy _]. exfalso. apply (Hw k y); [|done]. rewrite Ew. by apply list_lookup_insert.
    + apply (T1 i g Hg Hp). apply writer_on_none. intros k' x' Hk' E. destruct (decide (k' = k)) as [->|Hn].
      * rewrite Hk in Hk'. injection Hk' as <-. done.
      * apply (Hw k' x'); [|done]. rewrite Ew. by rewrite list_lookup_insert_ne.
  - intros k' x' g Hk' Hg. rewrite Ew in Hk'. rewrite Es in Hg.
    apply lookup_insert_cases in Hk' as [(<- & _ & ->)|[Hne Hk']].
    + destruct Ho as (Hy & Hb & _). rewrite Hy, list_lookup_insert in Hg by done. by injection Hg as <-.
    + apply lookup_insert_cases in Hg as [(E & _ & _)|[Hne' Hg]]; [|by apply (T2 k')].
      exfalso. apply Hne. by apply (T5 k k' x x').
  - intros k' x' Hk'. rewrite Ew in Hk'. apply lookup_insert_cases in Hk' as [(<- & _ & ->)|[Hne Hk']]; [apply Ho|by apply (T3 k')].
  - intros k' x' Hk'. rewrite Ew in Hk'. rewrite Es. apply lookup_insert_cases in Hk' as [(<- & _ & ->)|[Hne Hk']].
    + destruct Ho as [-> _]. exists f'. by apply list_lookup_insert.
    + destruct (T4 k' x' Hk') as [g Hg]. exists g. rewrite list_lookup_insert_ne; [done|].
      intros E. apply Hne. by apply (T5 k k' x x').
  - rewrite Ew. apply (apart_insert _ k x); [done..|]. destruct o' as [y|]; [|done]. intros ? [= <-]. apply Ho.
Qed.

Lemma tidy_step t a o a' r : astep t a o = Some (a', r) -> tidy a -> tidy a'.
Proof.
  intros Ha T. destruct o; cbn [astep] in Ha.
  - (* create *)
    destruct (16 <? length name); [by injection Ha as <- <-|].
    destruct (slot_named a name); [by injection Ha as <- <-|].
    destruct (negb _); [done|].
    assert (forall a1 i, tidy a1 -> as_slots a1 !! i = Some None -> tidy (add i name ft a1)) as Hadd.
    { intros a1 i [T1 T2 T3 T4 T5] Hi. split; unfold add; cbn [as_slots as_writers set_synced set_handles put set_slots].
      - intros j f Hj Hp Hw. apply lookup_insert_cases in Hj as [(<- & _ & [= <-])|[Hne Hj]]; [done|]. by apply (T1 j).
      - intros k x f Hk Hf. apply lookup_insert_cases in Hf as [(E & _ & _)|[Hne Hf]]; [|by apply (T2 k)].
        destruct (T4 k x Hk) as [g Hg]. congruence.
      - done.
      - intros k x Hk. destruct (T4 k x Hk) as [g Hg]. exists g. rewrite list_lookup_insert_ne; [done|]. congruence.
      - done. }
    assert (tidy (grow a)) as Hgrow.
    { destruct T as [T1 T2 T3 T4 T5].
      assert (forall j f, (as_slots a ++ repeat None 8) !! j = Some (Some f) -> as_slots a !! j = Some (Some f)) as Hg.
      { intros j f Hj. destruct (decide (j < length (as_slots a))); [by rewrite lookup_app_l in Hj|].
        rewrite lookup_app_r in Hj by lia. exfalso. apply elem_of_list_lookup_2 in Hj. apply elem_of_list_In, repeat_spec in Hj. done. }
      split; unfold grow; cbn [as_slots as_writers].
      - intros j f Hj%Hg Hp Hw. by apply (T1 j).
      - intros k x f Hk Hf%Hg. by apply (T2 k).
      - done.
      - intros k x Hk. destruct (T4 k x Hk) as [f Hf]. exists f. by apply lookup_app_l_Some.
      - done. }
    destruct (slot_unused a) as [i|] eqn:Eu.
    + destruct (blocks_left t a =? 0); [by injection Ha as <- <-|]. injection Ha as <- <-. apply Hadd; [done|].
      by apply slot_unused_some in Eu as [? _].
    + destruct (_ <? dir_limit t); [|by injection Ha as <- <-].
      destruct (blocks_left t a =? 0); [by injection Ha as <- <-|]. injection Ha as <- <-. apply Hadd; [done|].
      cbn [grow as_slots]. rewrite lookup_app_r by lia. by rewrite Nat.sub_diag.
  - destruct (slot_named a name); injection Ha as <- <-; [|done]. by apply (tidy_same a).
  - (* writer *)
    destruct (file_of a h) as [[i f]|] eqn:Ef.
    2: { destruct (kind_of a h) as [[]|]; [done|..|done]; by injection Ha as <- <-. }
    destruct (writer_on a i) eqn:Ew; [done|]. injection Ha as <- <-.
    assert (as_slots a !! i = Some (Some f) /\ a_special f = false) as [Hf Hsp].
    { unfold file_of in Ef. destruct (as_handles a !! h) as [[j|]|]; [|done..]. destruct (as_slots a !! j) as [[g|]|] eqn:E; [|done..].
      destruct (a_special g) eqn:Eg; [done|]. by injection Ef as <- <-. }
    destruct T as [T1 T2 T3 T4 T5].
    assert (forall k x, (as_writers a ++ [Some (mk_awriter i [] true)]) !! k = Some (Some x) ->
      as_writers a !! k = Some (Some x) \/ (k = length (as_writers a) /\ x = mk_awriter i [] true)) as Happ.
    { intros k x Hk. apply lookup_app_Some in Hk as [Hk|[Hl Hk]]; [by left|]. right.
      apply list_lookup_singleton_Some in Hk as [? [= <-]]. split; [lia|done]. }
    split; cbn [set_writers as_slots as_writers].
    + intros j g Hj Hp Hw. apply (T1 j); [done|done|]. apply writer_on_none. rewrite writer_on_none in Hw. intros k x Hk. apply (Hw k x).
      cbn. by apply lookup_app_l_Some.
    + intros k x g [Hk|[-> ->]]%Happ Hg; [by apply (T2 k)|]. cbn in *. rewrite app_nil_r. apply (T1 i); [done| |done]. rewrite Hf in Hg. by injection Hg as <-.
    + intros k x [Hk|[-> ->]]%Happ; [by apply (T3 k)|done].
    + intros k x [Hk|[-> ->]]%Happ; [by apply (T4 k)|by exists f].
    + intros k1 k2 x1 x2 [H1|[-> ->]]%Happ [H2|[-> ->]]%Happ E; [by apply (T5 k1 k2 x1 x2)| | |done].
      * exfalso. by apply (proj1 (writer_on_none a i) Ew k1 x1).
      * exfalso. by apply (proj1 (writer_on_none a i) Ew k2 x2).
  - (* write *)
    destruct (as_writers a !! k) as [[x|]|] eqn:Ek; [|done..].
    destruct (as_slots a !! aw_slot x) as [[f|]|] eqn:Ef; [|done..].
    pose proof (ti_writer a T k x f Ek Ef) as Hb.
    unfold write_to in Ha. set (all := a_data f ++ aw_pend x ++ buf) in Ha.
    assert (length (a_data f ++ aw_pend x) <= length all) as Hlen by (unfold all; rewrite !app_length; lia).
    destruct (Nat.leb_spec (length all) (254 * (a_blocks f + blocks_left t a))) as [Hle|Hgt].
    + set (nb := blocks_for (a_blocks f) (length all)) in Ha.
      set (data := if nb =? a_blocks f then a_data f else take (254 * (nb - 1)) all) in Ha.
      assert (data ++ drop (length data) all = all) as Hall.
      { unfold data. destruct (nb =? a_blocks f); [unfold all; by rewrite drop_app|]. apply take_rest. }
      set (a1 := put _ _ _) in Ha.
      assert (tidy a1) as T1; [|destruct (_ =? _) in Ha; injection Ha as <- <-; [done|by apply (tidy_same a1)]].
      apply (tidy_update a a1 k x (Some (mk_awriter (aw_slot x) (drop (length data) all) true)) (mk_afile (a_name f) (a_attr f) nb data (a_kind f)));
        [done..| |done].
      split; [done|]. cbn [aw_pend a_data a_blocks aw_dirty]. split; [|done]. rewrite Hall.
      unfold nb. rewrite Hb. unfold blocks_for. pose proof (ceil_mono _ _ Hlen). lia.
    + set (nb := a_blocks f + blocks_left t a) in *.
      set (a1 := put _ _ _) in Ha.
      assert (tidy a1) as T1; [|destruct (_ =? _) in Ha; injection Ha as <- <-; [done|by apply (tidy_same a1)]].
      apply (tidy_update a a1 k x (Some (mk_awriter (aw_slot x) [] true)) (mk_afile (a_name f) (a_attr f) nb (take (254 * nb) all) (a_kind f)));
        [done..| |done].
      split; [done|]. cbn [aw_pend a_data a_blocks aw_dirty]. split; [|done]. rewrite app_nil_r, take_length.
      rewrite Nat.min_l by lia. unfold blocks_for.
      assert (1 <= nb) by (unfold nb; rewrite Hb; unfold blocks_for; lia). clear -H. lia.
  - (* flush *)
    destruct (as_writers a !! k) as [[x|]|] eqn:Ek; [|done..]. injection Ha as <- <-. unfold settle.
    destruct (ti_live a T k x Ek) as [f Hf]. cbn [set_writers as_slots]. rewrite Hf.
    destruct (aw_dirty x) eqn:Ed.
    + eapply (tidy_update a _ k x (Some (mk_awriter (aw_slot x) [] false))); [done|done|done| |done].
      split; [done|]. cbn. split; [|done]. rewrite app_nil_r. by apply (ti_writer a T k).
    + eapply (tidy_update a _ k x (Some (mk_awriter (aw_slot x) [] false)) f); [done| |done| |done].
      * cbn. by rewrite list_insert_id.
      * split; [done|]. cbn. split; [|done]. rewrite <- (ti_clean a T k x Ek Ed). by apply (ti_writer a T k).
  - (* close *)
    destruct (as_writers a !! k) as [[x|]|] eqn:Ek; [|done..]. injection Ha as <- <-. unfold settle.
    destruct (ti_live a T k x Ek) as [f Hf]. cbn [set_writers as_slots]. rewrite Hf.
    destruct (aw_dirty x) eqn:Ed.
    + eapply (tidy_update a _ k x None); [done|done|done| |done]. cbn. by apply (ti_writer a T k).
    + eapply (tidy_update a _ k x None f); [done| |done| |done].
      * cbn. by rewrite list_insert_id.
      * rewrite <- (app_nil_r (a_data f)), <- (ti_clean a T k x Ek Ed). by apply (ti_writer a T k).
  - destruct (file_of a h) as [[i f]|]; [by injection Ha as <- <-|]. destruct (kind_of a h) as [[]|]; [done|..|done]; by injection Ha as <- <-.
  - destruct (file_of a h) as [[j f]|]; [by injection Ha as <- <-|]. destruct (kind_of a h) as [[]|]; [done|..|done]; by injection Ha as <- <-.
  - (* delete *)
    destruct (held a h) as [[i f]|] eqn:Ef; [|done]. destruct (writer_on a i) eqn:Ew; [done|]. cbn [orb] in Ha. destruct (negb _); [done|]. injection Ha as <- <-.
    destruct T as [T1 T2 T3 T4 T5].
    split; cbn [set_synced set_handles put set_slots as_slots as_writers]; [| |done| |done].
    + intros j g Hj Hp Hw. apply lookup_insert_cases in Hj as [(<- & _ & [=])|[Hne Hj]]. by apply (T1 j).
    + intros k x g Hk Hg. apply lookup_insert_cases in Hg as [(E & _ & [=])|[Hne Hg]]. by apply (T2 k).
    + intros k x Hk. destruct (T4 k x Hk) as [g Hg]. exists g. rewrite list_lookup_insert_ne; [done|].
      intros E. by apply (proj1 (writer_on_none a i) Ew k x).
  - (* rename *)
    destruct (slot_named a old) as [i|]; [|by injection Ha as <- <-]. destruct (16 <? length new); [by injection Ha as <- <-|].
    destruct (slot_named a new); [by injection Ha as <- <-|]. destruct (negb _); [done|].
    destruct (as_slots a !! i) as [[f|]|] eqn:Ef; [|done..]. injection Ha as <- <-.
    destruct T as [T1 T2 T3 T4 T5].
    split; cbn [put set_slots as_slots as_writers]; [| |done| |done].
    + intros j g Hj Hp Hw. apply lookup_insert_cases in Hj as [(<- & _ & [= <-])|[Hne Hj]]; [|by apply (T1 j)]. exact (T1 i f Ef Hp Hw).
    + intros k x g Hk Hg. apply lookup_insert_cases in Hg as [(E & _ & [= <-])|[Hne Hg]]; [|by apply (T2 k)].
      apply (T2 k x f Hk). by rewrite <- E.
    + intros k x Hk. destruct (T4 k x Hk) as [g Hg]. destruct (decide (i = aw_slot x)) as [->|Hne].
      * eexists. rewrite list_lookup_insert; [done|]. by eapply lookup_lt_Some.
      * exists g. by rewrite list_lookup_insert_ne.
  - by injection Ha as <- <-.
  - by injection Ha as <- <-.
  - by injection Ha as <- <-.
  - by injection Ha as <- <-.
  - destruct (as_synced a); [|done]. by injection Ha as <- <-.
  - destruct (as_synced a); [|done]. destruct (writer_open a) eqn:Ew; [done|]. injection Ha as <- <-.
    destruct T as [T1 T2 T3 T4 T5]. split; cbn [set_handles set_writers as_slots as_writers]; [|intros ? ? ? H|intros ? ? H|intros ? ? H|intros ? ? ? ? H]; try by rewrite lookup_nil in H.
    intros i f Hf Hp _. apply (T1 i f Hf Hp). apply writer_on_none. intros k x Hk. exfalso. by apply (writer_open_false a k x).
  - destruct (writer_open a || _); [done|]. injection Ha as <- <-. apply tidy_formatted.
Qed.

Lemma tidy_run t os : forall a a' rs, arun t a os = Some (a', rs) -> tidy a -> tidy a'.
Proof.
  induction os as [|o os IH]; intros a a' rs Ha T; cbn [arun] in Ha; [by injection Ha as <- <-|].
  destruct (astep t a o) as [[a1 r]|] eqn:E; [|done]. destruct (arun t a1 os) as [[a2 rs']|] eqn:E2; [|done].
  injection Ha as <- <-. eapply IH; [done|]. by eapply tidy_step.
Qed.
