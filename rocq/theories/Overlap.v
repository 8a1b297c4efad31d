(** Writers and handles that are in use at the same time. *)
From Verif Require Import Base ListFacts Layout Block Bam Chain Writer GeosTypes Petscii DirEntry Header World Directory Rel GeosFile File Spec SpecCodec SpecChain
  SpecBam SpecFiles SpecKinds Session SpecDisk GeomFacts FlatProofs DevFacts EntryProofs HeaderProofs ChainProofs BamProofs Evolve Holds View Dirs Ops OpWrite OpFile Refine Tables Trace SpecTurns.
Ltac Zify.zify_post_hook ::= Z.div_mod_to_equations.

Lemma settle_writers x a : as_writers (settle x a) = as_writers a.
Proof. unfold settle. destruct (aw_dirty x); [|done]. by destruct (as_slots a !! aw_slot x) as [[f|]|]. Qed.

(** A call that is not about a file leaves the writer of that file alone. *)
Lemma writer_kept t a o a' r k x :
  astep t a o = Some (a', r) -> o <> OReopen -> about a o <> Some (aw_slot x) -> as_writers a !! k = Some (Some x) ->
  as_writers a' !! k = Some (Some x).
Proof.
  intros Ha Hn Hab Hk.
  destruct o as [name ft|name|h|k' buf|k'|k'|h ns|h n|h|old new| | | | | | |name id]; cbn [astep about] in *.
  - destruct (16 <? _); [by injection Ha as <- _|]. destruct (slot_named a name); [by injection Ha as <- _|]. destruct (negb _); [done|].
    destruct (slot_unused a); [destruct (_ =? 0); by injection Ha as <- _|].
    destruct (_ <? _); [destruct (_ =? 0)|]; by injection Ha as <- _.
  - destruct (slot_named a name); by injection Ha as <- _.
  - destruct (file_of a h) as [[i f]|].
    + destruct (writer_on a i); [done|]. injection Ha as <- _. cbn [set_writers as_writers]. by apply lookup_app_l_Some.
    + destruct (kind_of a h) as [[|? ?|?]|]; try done; by injection Ha as <- _.
  - destruct (as_writers a !! k') as [[y|]|] eqn:Ey; try done. destruct (decide (k' = k)) as [->|Hne].
    { rewrite Hk in Ey. injection Ey as <-. done. }
    destruct (as_slots a !! aw_slot y) as [[f|]|]; try done. destruct (write_to _ _ _ _) as [[f' pend'] r'].
    injection Ha as <- _. destruct (_ =? _); cbn [set_synced put set_slots set_writers as_writers]; by rewrite list_lookup_insert_ne.
  - destruct (as_writers a !! k') as [[y|]|] eqn:Ey; try done. destruct (decide (k' = k)) as [->|Hne].
    { rewrite Hk in Ey. injection Ey as <-. done. }
    injection Ha as <- _. rewrite settle_writers. cbn [set_writers as_writers]. by rewrite list_lookup_insert_ne.
  - destruct (as_writers a !! k') as [[y|]|] eqn:Ey; try done. destruct (decide (k' = k)) as [->|Hne].
    { rewrite Hk in Ey. injection Ey as <-. done. }
    injection Ha as <- _. rewrite settle_writers. cbn [set_writers as_writers]. by rewrite list_lookup_insert_ne.
  - destruct (file_of a h) as [[i f]|]; [by injection Ha as <- _|]. destruct (kind_of a h) as [[|? ?|?]|]; try done; by injection Ha as <- _.
  - destruct (file_of a h) as [[i f]|]; [by injection Ha as <- _|]. destruct (kind_of a h) as [[|? ?|?]|]; try done; by injection Ha as <- _.
  - destruct (held a h) as [[i f]|]; [|done]. destruct (_ || _); [done|]. by injection Ha as <- _.
  - destruct (slot_named a old) as [i|]; [|by injection Ha as <- _]. destruct (16 <? _); [by injection Ha as <- _|].
    destruct (slot_named a new); [by injection Ha as <- _|]. destruct (negb _); [done|].
    destruct (as_slots a !! i) as [[f|]|]; try done. by injection Ha as <- _.
  - by injection Ha as <- _.
  - by injection Ha as <- _.
  - by injection Ha as <- _.
  - by injection Ha as <- _.
  - destruct (as_synced a); [|done]. by injection Ha as <- _.
  - done.
  - destruct (writer_open a) eqn:Ew; [done|]. exfalso. unfold writer_open in Ew.
    assert (existsb (fun o => match o with Some _ => true | None => false end) (as_writers a) = true); [|congruence].
    apply existsb_exists. exists (Some x). split; [|done]. apply elem_of_list_In. by eapply elem_of_list_lookup_2.
Qed.

Lemma no_reopen t a a' r k x : astep t a OReopen = Some (a', r) -> as_writers a !! k = Some (Some x) -> False.
Proof.
  cbn [astep]. intros Ha Hk. destruct (writer_open a) eqn:Ew; [by rewrite andb_false_r in Ha|]. unfold writer_open in Ew.
  assert (existsb (fun o => match o with Some _ => true | None => false end) (as_writers a) = true); [|congruence].
  apply existsb_exists. exists (Some x). split; [|done]. apply elem_of_list_In. by eapply elem_of_list_lookup_2.
Qed.

(** A writer of file [i] that has brought the file from [f] to [base] in all. *)
Definition at_work (a : astate) (k i : nat) (f : afile) (base : list nat) : Prop :=
  exists x g, as_writers a !! k = Some (Some x) /\ aw_slot x = i /\ as_slots a !! i = Some (Some g)
    /\ a_name g = a_name f /\ a_attr g = a_attr f /\ a_kind g = a_kind f /\ a_data g ++ aw_pend x = base
    /\ (aw_dirty x = false -> aw_pend x = []).

Lemma insert_slot {A} (i : nat) (y x : A) (l : list A) : l !! i = Some y -> <[i := x]> l !! i = Some x.
Proof. intros H. apply list_lookup_insert. by eapply lookup_lt_Some. Qed.

Lemma settle_work a k i f base x g (o : option awriter) :
  as_writers a !! k = Some (Some x) -> aw_slot x = i -> as_slots a !! i = Some (Some g) ->
  a_name g = a_name f -> a_attr g = a_attr f -> a_kind g = a_kind f -> a_data g ++ aw_pend x = base ->
  (aw_dirty x = false -> aw_pend x = []) ->
  exists g', as_slots (settle x (set_writers (<[k := o]> (as_writers a)) a)) !! i = Some (Some g')
    /\ a_name g' = a_name f /\ a_attr g' = a_attr f /\ a_kind g' = a_kind f /\ a_data g' = base.
Proof.
  intros Hx Hi Hg H1 H2 H3 H4 H5. unfold settle. destruct (aw_dirty x) eqn:Ed.
  - cbn [set_writers as_slots]. rewrite Hi, Hg. eexists. cbn [set_synced put set_slots set_writers as_slots].
    split; [by eapply insert_slot|]. done.
  - exists g. cbn [set_writers as_slots]. split; [done|]. rewrite (H5 eq_refl), app_nil_r in H4. done.
Qed.

Lemma work_turn t a s x a' r k i f base :
  reached t a s -> astep t a (call_of k x) = Some (a', r) -> at_work a k i f base ->
  match x with Other o => about a o <> Some i | Step _ => True end ->
  (forall buf, x = Step (Some buf) -> r = ACount (length buf)) ->
  at_work a' k i f (base ++ written [x]).
Proof.
  intros Hr Ha (w & g & Hw & Hi & Hg & H1 & H2 & H3 & H4 & H5) Hx Hans. unfold written. cbn [map concat].
  destruct x as [o|[buf|]]; cbn [call_of] in Ha.
  - rewrite app_nil_r. exists w, g.
    assert (o <> OReopen) as Hn by (intros ->; by eapply no_reopen).
    assert (is_format o = false) as Hf.
    { destruct o as [| | | | | | | | | | | | | | | |name id]; try done. cbn [astep] in Ha. exfalso. destruct (writer_open a) eqn:Ew; [done|].
      unfold writer_open in Ew. assert (existsb (fun o => match o with Some _ => true | None => false end) (as_writers a) = true); [|congruence].
      apply existsb_exists. exists (Some w). split; [|done]. apply elem_of_list_In. by eapply elem_of_list_lookup_2. }
    split; [by apply (writer_kept t a o a' r k w Ha Hn); [rewrite Hi|]|]. split; [done|].
    destruct (crash_safe t a s o a' r Hr Ha Hf) as (s' & ws & _ & _ & _ & _ & Hk). split; [by apply Hk|]. done.
  - rewrite app_nil_r. specialize (Hans buf eq_refl). cbn [astep] in Ha. rewrite Hw, Hi, Hg in Ha. unfold write_to in Ha.
    destruct (Nat.leb_spec (length (a_data g ++ aw_pend w ++ buf)) (254 * (a_blocks g + blocks_left t a))) as [_|_].
    2: { cbv beta iota zeta in Ha. injection Ha as _ <-. done. }
    set (all := a_data g ++ aw_pend w ++ buf) in *. set (b := blocks_for (a_blocks g) (length all)) in *.
    set (data := if b =? a_blocks g then a_data g else take (254 * (b - 1)) all) in *. cbv beta iota zeta in Ha.
    assert (data ++ drop (length data) all = base ++ buf) as Hall.
    { transitivity all; [|unfold all; by rewrite <- H4, <- app_assoc]. unfold data. destruct (b =? a_blocks g).
      - unfold all. by rewrite drop_app.
      - rewrite take_length. destruct (Nat.le_gt_cases (254 * (b - 1)) (length all)).
        + rewrite Nat.min_l by done. apply take_drop.
        + rewrite Nat.min_r, take_ge, drop_all, app_nil_r by lia. done. }
    assert (exists a1, as_writers a1 = <[k := Some (mk_awriter i (drop (length data) all) true)]> (as_writers a)
      /\ as_slots a1 = <[i := Some (mk_afile (a_name g) (a_attr g) b data (a_kind g))]> (as_slots a) /\ a' = a1) as (a1 & E1 & E2 & ->).
    { injection Ha as <- _. destruct (_ =? _); eexists; (split; [|split; [|reflexivity]]); reflexivity. }
    exists (mk_awriter i (drop (length data) all) true), (mk_afile (a_name g) (a_attr g) b data (a_kind g)).
    rewrite E1, E2. split; [by eapply insert_slot|]. split; [done|]. split; [by eapply insert_slot|]. done.
  - rewrite app_nil_r. cbn [astep] in Ha. rewrite Hw in Ha. injection Ha as <- _.
    destruct (settle_work a k i f base w g (Some (mk_awriter (aw_slot w) [] false)) Hw Hi Hg H1 H2 H3 H4 H5) as (g' & G1 & G2 & G3 & G4 & G5).
    exists (mk_awriter (aw_slot w) [] false), g'. rewrite settle_writers. cbn [set_writers as_writers].
    split; [by eapply insert_slot|]. split; [done|]. split; [done|]. rewrite app_nil_r. done.
Qed.

Lemma work_turns t k i f ts : forall a s a' rs base,
  reached t a s -> arun t a (map (call_of k) ts) = Some (a', rs) -> at_work a k i f base -> elsewhere t a k i ts ->
  (forall j buf, ts !! j = Some (Step (Some buf)) -> rs !! j = Some (ACount (length buf))) ->
  at_work a' k i f (base ++ written ts).
Proof.
  induction ts as [|x ts IH]; intros a s a' rs base Hr Ha Hw He Hans; cbn [map arun] in Ha.
  { injection Ha as <- <-. unfold written. cbn. by rewrite app_nil_r. }
  cbn [elsewhere] in He. destruct (astep t a (call_of k x)) as [[a1 r1]|] eqn:E; [|done].
  destruct (arun t a1 (map (call_of k) ts)) as [[a2 rs2]|] eqn:E2; [|done]. injection Ha as <- <-. destruct He as [Hx He].
  destruct (reached_step t a s _ a1 r1 Hr E) as (s1 & _ & Hr1).
  assert (written (x :: ts) = written [x] ++ written ts) as -> by (unfold written; cbn [map concat]; by rewrite app_nil_r).
  rewrite app_assoc. apply (IH a1 s1 a2 rs2); [done|done| |done|].
  - apply (work_turn t a s x a1 r1); [done..|]. intros buf ->. specialize (Hans 0 buf eq_refl). by injection Hans.
  - intros j buf Hj. by apply (Hans (S j) buf).
Qed.

Theorem writer_undisturbed t a s h i f ts a' rs :
  let k := length (as_writers a) in
  reached t a s -> file_of a h = Some (i, f) ->
  arun t a (OWriter h :: map (call_of k) ts ++ [OClose k]) = Some (a', rs) ->
  (forall a1 r1, astep t a (OWriter h) = Some (a1, r1) -> elsewhere t a1 k i ts) ->
  (forall j buf, ts !! j = Some (Step (Some buf)) -> rs !! S j = Some (ACount (length buf))) ->
  exists s' g, calls s (OWriter h :: map (call_of k) ts ++ [OClose k]) = (s', rs) /\ reached t a' s'
    /\ as_slots a' !! i = Some (Some g) /\ shows (s_world s') g
    /\ a_name g = a_name f /\ a_attr g = a_attr f /\ a_data g = a_data f ++ written ts.
Proof.
  intros k Hr Hf Ha He Hans. destruct (reached_run t a s _ a' rs Hr Ha) as (s' & Hc & Hr'). exists s'.
  cbn [arun] in Ha. destruct (astep t a (OWriter h)) as [[a1 r1]|] eqn:E; [|done].
  destruct (reached_step t a s _ a1 r1 Hr E) as (s1 & _ & Hr1). specialize (He a1 r1 eq_refl).
  assert (at_work a1 k i f (a_data f)) as Hw.
  { destruct (file_of_slot a h i f Hf) as [_ Hs]. cbn [astep] in E. rewrite Hf in E. destruct (writer_on a i); [done|]. injection E as <- _.
    exists (mk_awriter i [] true), f. cbn [set_writers as_writers as_slots aw_slot aw_pend].
    split; [unfold k; by apply list_lookup_middle|]. rewrite app_nil_r. done. }
  rewrite arun_app in Ha. destruct (arun t a1 (map (call_of k) ts)) as [[a2 rs2]|] eqn:E2; [|done].
  destruct (arun t a2 [OClose k]) as [[a3 rs3]|] eqn:E3; [|done]. injection Ha as <- <-.
  apply (work_turns t k i f ts a1 s1 a2 rs2 _ Hr1 E2) in Hw; [|done|].
  2: { intros j buf Hj. specialize (Hans j buf Hj). change ((rs2 ++ rs3) !! j = Some (ACount (length buf))) in Hans. rewrite lookup_app_l in Hans; [done|].
       apply lookup_lt_Some in Hj. assert (length rs2 = length (map (call_of k) ts)) as ->; [|by rewrite map_length].
       clear -E2. revert a1 a2 rs2 E2. induction (map (call_of k) ts) as [|o os IH]; intros a1 a2 rs2; cbn [arun]; [by intros [= <- <-]|].
       destruct (astep t a1 o) as [[b r]|]; [|done]. destruct (arun t b os) as [[b2 r2]|] eqn:E; [|done]. intros [= <- <-].
       cbn [length]. by rewrite (IH _ _ _ E). }
  destruct Hw as (x & g & Hx & Hi & Hg & H1 & H2 & H3 & H4 & H5). cbn [arun astep] in E3. rewrite Hx in E3. injection E3 as <- _.
  destruct (settle_work a2 k i f _ x g None Hx Hi Hg H1 H2 H3 H4 H5) as (g' & G1 & G2 & G3 & G4 & G5).
  exists g'. split; [done|]. split; [done|]. split; [done|]. split; [|done]. apply (reached_shows t _ s' g' Hr'). by exists i.
Qed.

(** ** Deleting through the same handle again *)

Lemma holds_bam_closed t ls data : Forall (data_loc t) ls -> bam_closed t (fun d => holds d ls data).
Proof.
  intros Hls d l b Hd Hh (Hb & Hv & Hl & _). eapply holds_ext; [exact Hh|]. intros l' Hl'.
  apply (sector_upd_other t); [done| |done]. intros ->. rewrite Forall_forall in Hls.
  destruct (Hls _ Hl') as (_ & _ & Hs). by apply Hs, bam_loc_sys.
Qed.

Section again.
  Context (t : disk_type).

  (** The steps of [delete_view], whether the file is still in the directory or not. *)
  Lemma delete_run w m c b i e ex ls data :
    view t (w_dev w) m -> names_ok m -> w_cells w !! c = Some b -> bam_consistent t b -> b_format b = m_format t m ->
    i < length (md_slots m) -> de_pos e = Some (slot_pos m i) -> length (de_name e) <= 16 -> de_extra e = XLinear ex -> length ex = 9 ->
    Forall (data_loc t) ls -> NoDup ls -> (forall l, l ∈ ls -> l ∉ md_secs m) -> holds (w_dev w) ls data -> head ls = Some (de_first e) ->
    exists b' d', file_delete (FLinear c e) w = (set_dev d' (set_cell c b' w), Ok tt)
      /\ bam_consistent t b' /\ b_format b' = b_format b
      /\ (forall l, bam_sector t l -> freeb b' l = true <-> freeb b l = true \/ l ∈ ls)
      /\ view t d' (set_slot i None m) /\ moved t i w m (set_dev d' (set_cell c b' w)) (set_slot i None m)
      /\ disk_bam t d' = Ok b' /\ holds d' ls data.
  Proof.
    intros V Hn Hcell Hb Hfmt Hilt Hp Hnm Hex Hlx Hdl Hnd Hap Hh Hhd. cbn [file_delete]. unfold linear_delete.
    destruct (free_list t ls w c b Hcell Hb) as (b' & Hrun & Hb' & Hf' & Hfr).
    { eapply Forall_impl; [exact Hdl|]. by intros l [? _]. }
    set (w1 := set_cell c b' w) in *.
    assert (w_cells w1 !! c = Some b') as Hc1.
    { cbn [w1 set_cell w_cells]. apply list_lookup_insert. by eapply lookup_lt_Some. }
    destruct (flush_cell_raw t w1 m c b' i V Hn Hc1 Hb') as (d2 & Hrun2 & V2 & M2 & D2); [congruence|].
    assert (holds d2 ls data) as Hh2.
    { pose proof (bam_flush_steps t (fun d => holds d ls data) (w_dev w1) b' (holds_bam_closed t ls data Hdl) (v_shape _ _ _ V)
        (v_writable _ _ _ V) (consistent_shape t b' Hb') Hh) as Hev. apply evolves_end in Hev.
      pose proof Hrun2 as Hfl. unfold flush_cell, sbind, asks, cell in Hfl. rewrite Hc1 in Hfl. unfold on_dev, zoom in Hfl.
      destruct (bam_flush b' (w_dev w1)) as [d2' r2] eqn:E2. cbn [fst] in Hev.
      assert (d2' = d2) as <-; [|done]. by injection Hfl. }
    assert (remove_chain c (de_first e) w = (set_dev d2 w1, Ok tt)) as Hrm.
    { unfold remove_chain. unfold asks. unfold sbind at 1.
      rewrite (locations_sound t _ _ _ (v_shape _ _ _ V) (holds_sound _ _ _ _ Hnd
        (Forall_impl _ _ _ Hdl (fun l Hl => plain_track t l (data_plain t l Hl))) Hh Hhd)).
      rewrite (sbind_ok _ _ _ _ _ Hrun). done. }
    rewrite (sbind_ok _ _ _ _ _ Hrm).
    destruct (entry_delete_view t d2 m i e ex V2 Hilt Hp Hnm Hex Hlx) as (bk & Hwr & Hlb & V3).
    assert (slot_loc m i ∈ md_secs m) as Hsl by (apply slot_loc_elem; by rewrite <- (v_slots _ _ _ V)).
    assert (plain t (slot_loc m i)) as Hpl by (apply (view_used_plain _ _ _ V), used_in; by left).
    exists b', (upd d2 (slot_loc m i) bk). split; [|split; [done|split; [done|split; [done|split; [done|split; [|split]]]]]].
    - change (set_dev (upd d2 (slot_loc m i) bk) (set_cell c b' w)) with (set_dev (upd d2 (slot_loc m i) bk) (set_dev d2 w1)).
      by apply on_dev_run.
    - eapply moved_trans; [|eapply moved_trans; [exact M2|]].
      + by apply moved_same.
      + eapply moved_upd; [exact V2|done|done|exact V3| |apply frame_set_slot].
        apply names_ok_set; [done|done|]. done.
    - rewrite disk_bam_plain; [done|apply V2|done].
    - eapply holds_ext; [exact Hh2|]. intros l Hl. apply (sector_upd_other t); [apply V2| |].
      + intros <-. by apply (Hap _ Hl).
      + destruct Hpl as [Hpl _]. eapply bam_sector_valid; [apply V2|done].
  Qed.

  Lemma delete_over n : forall w m c b i x f s h,
    wok t w m c b [] -> names_ok m -> handle_ok m c i x -> slot_at m i = Some f -> s_handles s !! h = Some x -> s_world s = w ->
    exists w' b', calls s (repeat (ODelete h) (S n)) = (set_world w' s, repeat ADone (S n))
      /\ wok t w' (set_slot i None m) c b' [] /\ moved t i w m w' (set_slot i None m) /\ disk_bam t (w_dev w') = Ok b'
      /\ holds (w_dev w') (mf_chain f) (mf_data f).
  Proof.
    intros w m c b i x f s h W Hn [(f' & e & ex & Hi & -> & Hp & Hfi & Hnm & Hex & Hlx & Hk)] Hi' Hx Hw.
    rewrite Hi in Hi'. injection Hi' as ->.
    pose proof (wo_view _ _ _ _ _ _ W) as V. pose proof (slot_at_lt _ _ _ Hi) as Hilt.
    pose proof Hi as Hi'. apply slot_at_Some in Hi'.
    destruct (v_files _ _ _ V i f Hi') as (_ & Hdl & Hco).
    pose proof (wo_alloc _ _ _ _ _ _ W) as [Hcon Hfmt Hfree].
    assert (NoDup (mf_chain f)) as Hnd by (by eapply view_chain_nodup).
    assert (forall l, l ∈ mf_chain f -> l ∉ md_secs m) as Hap by (intros l Hl; eapply used_apart_dir; [apply V|done|done]).
    assert (head (mf_chain f) = Some (de_first e)) as Hhd by (rewrite Hfi; by eapply view_file_head).
    assert (forall l, l ∈ mf_chain f -> l ∈ used m /\ ~ sys t l) as Hused.
    { intros l Hlf. split; [apply used_in; right; eauto|]. rewrite Forall_forall in Hdl. by apply Hdl. }
    induction n as [|n IH].
    - destruct (delete_run w m c b i e ex (mf_chain f) (mf_data f)) as (b' & d' & Hdel & Hb' & Hf' & Hfr & V' & Hmv & Hdb & Hh');
        try done; [apply W|by eapply contents_plain|].
      exists (set_dev d' (set_cell c b' w)), b'. split; [|split; [|done]].
      + cbn [repeat calls call]. by rewrite Hx, Hw, Hdel.
      + split; try apply W; try done.
        * cbn [set_dev set_cell w_cells]. apply list_lookup_insert. eapply lookup_lt_Some, W.
        * split; [done|rewrite Hf'; exact Hfmt|]. intros l Hl. rewrite (Hfr l Hl), (Hfree l Hl).
          rewrite (used_set_in m i (Some f)) by (done || apply V). cbn [chain_of]. rewrite elem_of_nil.
          specialize (Hused l). destruct (decide (l ∈ mf_chain f)); tauto.
    - destruct IH as (w1 & b1 & Hc1 & W1 & Hmv1 & Hdb1 & Hh1).
      pose proof (wo_alloc _ _ _ _ _ _ W1) as [Hcon1 Hfmt1 Hfree1].
      destruct (delete_run w1 (set_slot i None m) c b1 i e ex (mf_chain f) (mf_data f)) as (b' & d' & Hdel & Hb' & Hf' & Hfr & V' & Hmv & Hdb & Hh');
        try done; [apply W1|apply Hmv1|apply W1|cbn [set_slot md_slots]; by rewrite insert_length|].
      rewrite set_slot_twice in V', Hmv.
      exists (set_dev d' (set_cell c b' w1)), b'. split; [|split; [|split; [by eapply moved_trans|done]]].
      + assert (forall k s0, calls s0 (repeat (ODelete h) k ++ [ODelete h])
          = let '(s1, rs) := calls s0 (repeat (ODelete h) k) in let '(s2, r) := call s1 (ODelete h) in (s2, rs ++ [r])) as Hsplit.
        { induction k as [|k IHk]; intros s0; [cbn [repeat app calls]; by destruct (call s0 (ODelete h))|].
          cbn [repeat app calls]. destruct (call s0 (ODelete h)) as [s1 r1]. rewrite IHk.
          destruct (calls s1 _) as [s2 rs2]. by destruct (call s2 (ODelete h)). }
        change (repeat (ODelete h) (S (S n))) with (ODelete h :: repeat (ODelete h) (S n)). rewrite repeat_cons, Hsplit, Hc1. cbn [call].
        change (s_handles (set_world w1 s)) with (s_handles s). rewrite Hx. change (s_world (set_world w1 s)) with w1. rewrite Hdel.
        by rewrite <- repeat_cons.
      + split; try apply W1; try done.
        * cbn [set_dev set_cell w_cells]. apply list_lookup_insert. eapply lookup_lt_Some, W1.
        * split; [done|rewrite Hf'; exact Hfmt1|]. intros l Hl. rewrite (Hfr l Hl), (Hfree1 l Hl).
          rewrite (used_set_in m i (Some f)) by (done || apply V). cbn [chain_of]. rewrite elem_of_nil.
          specialize (Hused l). destruct (decide (l ∈ mf_chain f)); tauto.
  Qed.
End again.

Lemma delete_again t a s h i f a' r n :
  reached t a s -> file_of a h = Some (i, f) -> astep t a (ODelete h) = Some (a', r) ->
  exists s', calls s (repeat (ODelete h) (S n)) = (s', repeat ADone (S n))
    /\ forall os a2 rs, arun t a' os = Some (a2, rs) -> snd (calls s' os) = rs.
Proof.
  intros (m & c & b & R)%reached_related Hf Ha.
  destruct (file_of_some t a s m c b R h i f Hf) as (x & g & Hx & Hok & Hg & ->).
  destruct (delete_over t n (s_world s) m c b i x g s h (rl_wok _ _ _ _ _ _ R) (rl_names _ _ _ _ _ _ R) Hok Hg Hx eq_refl)
    as (w' & b' & Hc & W' & Hmv & Hdb & _).
  assert (held a h = Some (i, abs_file g)) as Hh.
  { unfold file_of in Hf. unfold held. destruct (as_handles a !! h) as [[j|]|]; [|done..].
    destruct (as_slots a !! j) as [[k|]|]; [|done..]. destruct (a_special k); [done|]. by injection Hf as -> ->. }
  cbn [astep] in Ha. rewrite Hh in Ha. destruct (writer_on a i) eqn:Ew; [done|]. destruct (removable _); [|done]. injection Ha as <- _.
  exists (set_world w' s). split; [done|]. intros os a2 rs Hr.
  destruct (run_refines t os _ _ _ _ _ _ _ (slot_gone t a s m c b R i g w' b' _ Hg Ew W' Hmv (fun _ => Hdb)) Hr) as (s2 & m2 & c2 & b2 & Hc2 & _).
  by rewrite Hc2.
Qed.
