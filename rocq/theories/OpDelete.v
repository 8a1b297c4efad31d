(** Deleting relative and GEOS files. *)
From Verif Require Import Base ListFacts Layout Block Bam Format Chain GeosTypes DirEntry Header World Directory Writer
  Rel GeosFile File Spec SpecCodec SpecChain SpecBam GeomFacts FlatProofs DevFacts CodecProofs EntryProofs ChainProofs RelProofs SectorProofs
  AllocProofs BamState Evolve Holds SpecKinds View Dirs Ops Count OpWrite OpFile SpecialFiles.
Ltac Zify.zify_post_hook ::= Z.div_mod_to_equations.

(** The extra bytes of a stored entry can be written back. *)
Lemma stored_extra_writes e : entry_ok e -> extra_writes (de_extra e).
Proof.
  intros [_ _ _ _ _ Hx] old Hold. destruct (de_scheme e), (de_extra e) as [u|side n u|info s ft y mo da ho mi]; try done; unfold extra_to_bytes.
  - destruct Hx as [Hl _]. rewrite Hl. by exists u.
  - destruct Hx as [_ Hl]. rewrite Hl. eexists. split; [reflexivity|]. rewrite !length_splice; [done|cbn; lia|rewrite length_splice; cbn; lia].
  - by eexists.
  - by eexists.
Qed.

Section freeing.
  Context (t : disk_type) (w0 : world) (m : mdisk) (c i : nat) (b0 : bam).

  (** The map in the image is the old one in memory with the sectors [ls] free. *)
  Definition saved (sv : option (list location)) (d : dev) : Prop :=
    match sv with
    | Some ls => exists b, disk_bam t d = Ok b /\ b_format b = d_format t d
        /\ forall l, bam_sector t l -> freeb b l = true <-> freeb b0 l = true \/ l ∈ ls
    | None => True
    end.

  (** After some of the steps of a deletion: the sectors [ls] are free in
      memory, and [sv] in the image. *)
  Definition freeing (sv : option (list location)) (ls : list location) (w : world) : Prop :=
    exists d b, w = set_dev d (set_cell c b w0) /\ view t d m /\ moved t i w0 m w m /\ c < length (w_cells w0)
      /\ bam_consistent t b /\ b_format b = m_format t m
      /\ (forall l, bam_sector t l -> freeb b l = true <-> freeb b0 l = true \/ l ∈ ls)
      /\ saved sv d.

  Lemma freeing_cells sv ls w : freeing sv ls w -> exists b, w_cells w !! c = Some b /\ bam_consistent t b /\ b_format b = m_format t m
      /\ forall l, bam_sector t l -> freeb b l = true <-> freeb b0 l = true \/ l ∈ ls.
  Proof.
    intros (d & b & -> & _ & _ & Hc & Hb & Hf & Hfr & _). exists b. split; [|done]. cbn [set_dev set_cell w_cells]. by apply list_lookup_insert.
  Qed.

  Lemma freeing_start : wok t w0 m c b0 [] -> names_ok m -> freeing None [] w0.
  Proof.
    intros W Hn. pose proof (wo_cell _ _ _ _ _ _ W) as Hc. exists (w_dev w0), b0. split.
    { unfold set_dev, set_cell. cbn. rewrite list_insert_id by done. by destruct w0. }
    split; [apply W|]. split; [by apply moved_same; [apply W|..]|]. split; [by eapply lookup_lt_Some|].
    pose proof (wo_alloc _ _ _ _ _ _ W) as Hb. split; [apply Hb|]. split; [apply Hb|]. split; [|done]. intros l _. rewrite elem_of_nil. tauto.
  Qed.

  Lemma freeing_list sv ls ls' w : freeing sv ls w -> Forall (bam_sector t) ls' ->
    exists w', for_each (fun l => update_cell c (fun b => bam_free b l)) ls' w = (w', Ok tt) /\ freeing sv (ls ++ ls') w' /\ w_dev w' = w_dev w.
  Proof.
    intros F Hls. destruct (freeing_cells _ _ _ F) as (b & Hc & Hb & Hf & Hfr).
    destruct (free_list t ls' w c b Hc Hb Hls) as (b' & Hrun & Hb' & Hf' & Hfr').
    exists (set_cell c b' w). split; [done|]. split; [|done].
    destruct F as (d & b1 & -> & V & M & Hlt & _ & _ & _ & Hsv). exists d, b'. split.
    { unfold set_dev, set_cell. cbn. by rewrite list_insert_insert. }
    split; [done|]. split; [destruct M as [E F N]; by split|]. split; [done|]. split; [done|]. split; [congruence|]. split; [|done].
    intros l Hl. rewrite (Hfr' l Hl), (Hfr l Hl), elem_of_app. tauto.
  Qed.

  Lemma freeing_chain sv ls ls' start w : freeing sv ls w -> names_ok m -> chain_locations (w_dev w) start = Ok ls' -> Forall (bam_sector t) ls' ->
    exists w', remove_chain c start w = (w', Ok tt) /\ freeing (Some (ls ++ ls')) (ls ++ ls') w'.
  Proof.
    intros F Hn Hch Hls. destruct (freeing_list sv ls ls' w F Hls) as (w1 & Hrun & F1 & Hd1).
    destruct (freeing_cells _ _ _ F1) as (b & Hc & Hb & Hf & Hfr).
    destruct F1 as (d & b1 & -> & V & M & Hlt & Hb1 & Hf1 & Hfr1 & _).
    destruct (flush_cell_raw t (set_dev d (set_cell c b1 w0)) m c b i V Hn Hc Hb Hf) as (d2 & Hrun2 & V2 & M2 & Hdb).
    eexists. split.
    - unfold remove_chain, asks. unfold sbind at 1. rewrite Hch. rewrite (sbind_ok _ _ _ _ _ Hrun). exact Hrun2.
    - exists d2, b1. split; [done|]. split; [done|]. split; [by eapply moved_trans|]. do 4 (split; [done|]). exists b. by rewrite (view_format _ _ _ V2).
  Qed.

  Lemma freeing_view sv ls w : freeing sv ls w -> view t (w_dev w) m.
  Proof. by intros (d & b & -> & V & _). Qed.

  (** The file's entry is marked deleted. *)
  Lemma freeing_done sv ls w e f :
    wok t w0 m c b0 [] -> names_ok m -> freeing sv ls w -> slot_at m i = Some f -> (forall l, l ∈ ls <-> l ∈ mf_chain f) ->
    de_pos e = Some (slot_pos m i) -> length (de_name e) <= 16 -> extra_writes (de_extra e) ->
    exists w' b', on_dev (positioned_write (deleted_entry e)) w = (w', Ok tt)
      /\ wok t w' (set_slot i None m) c b' [] /\ moved t i w0 m w' (set_slot i None m) /\ saved sv (w_dev w').
  Proof.
    intros W Hn (d & b & -> & V & M & Hlt & Hb & Hf & Hfr & Hsv) Hi Hls Hp Hnm Hx. pose proof (slot_at_lt _ _ _ Hi) as Hilt.
    pose proof Hi as Hi'. apply slot_at_Some in Hi'. destruct (v_files _ _ _ V i f Hi') as (_ & Hdl & _).
    destruct (entry_delete_any t d m i e V Hilt Hp Hnm Hx) as (bk & Hwr & Hlb & V3).
    exists (set_dev (upd d (slot_loc m i) bk) (set_cell c b w0)), b. split; [|split; [|split]].
    - change (set_dev (upd d (slot_loc m i) bk) (set_cell c b w0)) with (set_dev (upd d (slot_loc m i) bk) (set_dev d (set_cell c b w0))).
      by apply on_dev_run.
    - split; try apply W; try done.
      + cbn [set_dev set_cell w_cells]. by apply list_lookup_insert.
      + split; [done|done|]. intros l Hl. rewrite (Hfr l Hl), Hls. rewrite (bo_free _ _ _ _ (wo_alloc _ _ _ _ _ _ W) l Hl).
        rewrite (used_set_in m i (Some f)) by (done || apply V). cbn [chain_of]. rewrite elem_of_nil.
        assert (l ∈ mf_chain f -> l ∈ used m /\ ~ sys t l).
        { intros Hlf. split; [apply used_in; right; eauto|]. rewrite Forall_forall in Hdl. by apply Hdl. }
        destruct (decide (l ∈ mf_chain f)); tauto.
    - eapply moved_trans; [exact M|]. eapply moved_upd; [exact V|done|done|exact V3| |apply frame_set_slot].
      by apply names_ok_set.
    - destruct sv as [ls'|]; [|done]. destruct Hsv as (bs & Hbs & Hbf). exists bs. cbn [set_dev w_dev].
      split; [|rewrite (view_format _ _ _ V3); change (m_format t (set_slot i None m)) with (m_format t m); by rewrite <- (view_format _ _ _ V)].
      rewrite disk_bam_plain; [done|apply V|]. apply (view_used_plain _ _ _ V), used_in. left. apply slot_loc_elem. by rewrite <- (v_slots _ _ _ V).
  Qed.
End freeing.

Section deleting.
  Context (t : disk_type) (w0 : world) (m : mdisk) (c i : nat) (b0 : bam) (f : mfile) (y : special).
  Context (W : wok t w0 m c b0 []) (Hn : names_ok m) (Hi : slot_at m i = Some f) (Hy : mf_special f = Some y).
  Notation freed := (freeing t w0 m c i b0).

  Lemma freed_agree sv ls w : freed sv ls w -> forall l, l ∈ mf_chain f -> sector (w_dev w) l = sector (w_dev w0) l.
  Proof.
    intros F. pose proof (freeing_view _ _ _ _ _ _ _ _ _ F) as V. pose proof (wo_view _ _ _ _ _ _ W) as V0.
    pose proof Hi as Hi'. apply slot_at_Some in Hi'. destruct (v_files _ _ _ V i f Hi') as (_ & Hdl & H1). destruct (v_files _ _ _ V0 i f Hi') as (_ & _ & H2).
    unfold contents in H1, H2. rewrite Hy in H1, H2. destruct H1 as (_ & H1 & _), H2 as (_ & H2 & _).
    apply (raw_agree t); [apply V0|apply V|done|congruence].
  Qed.

  Lemma own_sectors ls : (forall l, l ∈ ls -> l ∈ mf_chain f) -> Forall (bam_sector t) ls.
  Proof.
    intros H. apply Forall_forall. intros l Hl. pose proof (wo_view _ _ _ _ _ _ W) as V. pose proof Hi as Hi'. apply slot_at_Some in Hi'.
    destruct (v_files _ _ _ V i f Hi') as (_ & Hdl & _). rewrite Forall_forall in Hdl. by apply Hdl, H.
  Qed.

  Lemma freed_chain sv ls start ls' w : freed sv ls w -> chain_locations (w_dev w0) start = Ok ls' -> (forall l, l ∈ ls' -> l ∈ mf_chain f) ->
    exists w', remove_chain c start w = (w', Ok tt) /\ freed (Some (ls ++ ls')) (ls ++ ls') w'.
  Proof.
    intros F Hch Hown. apply (freeing_chain t w0 m c i b0 sv ls ls' start w F Hn); [|by apply own_sectors].
    apply (locations_local t (w_dev w0) (w_dev w)); [apply (v_shape _ _ _ (wo_view _ _ _ _ _ _ W))|
      apply (v_shape _ _ _ (freeing_view _ _ _ _ _ _ _ _ _ F))|done|].
    intros l Hl. apply (freed_agree sv ls w F). by apply Hown.
  Qed.

  Lemma freed_records starts : forall sv ls ls' w, freed sv ls w -> vlir_locations (w_dev w0) starts = Ok ls' -> (forall l, l ∈ ls' -> l ∈ mf_chain f) ->
    exists w', for_each (fun l => remove_chain c l) starts w = (w', Ok tt)
      /\ freed (match starts with [] => sv | _ => Some (ls ++ ls') end) (ls ++ ls') w'.
  Proof.
    induction starts as [|x starts IH]; intros sv ls ls' w F; cbn [vlir_locations for_each].
    { intros [= <-] _. exists w. split; [done|]. by rewrite app_nil_r. }
    destruct (chain_locations (w_dev w0) x) as [l1| | |] eqn:E1; try done. cbn [rbind].
    destruct (vlir_locations (w_dev w0) starts) as [l2| | |] eqn:E2; try done. cbn [rbind]. intros [= <-] Hown.
    destruct (freed_chain sv ls x l1 w F E1) as (w1 & Hr1 & F1); [set_solver|].
    destruct (IH _ (ls ++ l1) l2 w1 F1 eq_refl) as (w2 & Hr2 & F2); [set_solver|].
    exists w2. rewrite (sbind_ok _ _ _ _ _ Hr1). split; [done|]. rewrite app_assoc. destruct starts as [|x' starts]; [|done].
    injection E2 as <-. by rewrite app_nil_r in *.
  Qed.

  Lemma freed_one sv ls l w : freed sv ls w -> l ∈ mf_chain f ->
    exists w', update_cell c (fun b => bam_free b l) w = (w', Ok tt) /\ freed sv (ls ++ [l]) w'.
  Proof.
    intros F Hl. destruct (freeing_list t w0 m c i b0 sv ls [l] w F) as (w1 & Hr & F1 & _).
    { apply own_sectors. intros l' Hl'. apply elem_of_list_singleton in Hl' as ->. done. }
    exists w1. split; [|done]. cbn [for_each] in Hr. unfold sbind in Hr. destruct (update_cell c _ w) as [w2 [[]| | |]]; try done.
  Qed.

  Lemma geos_delete_view e g :
    gf_bam g = c -> gf_entry g = e -> geos_occupied (w_dev w0) g = Ok (mf_chain f) ->
    de_pos e = Some (slot_pos m i) -> length (de_name e) <= 16 -> extra_writes (de_extra e) ->
    exists w' b' ls, geos_delete g w0 = (w', Ok tt)
      /\ wok t w' (set_slot i None m) c b' [] /\ moved t i w0 m w' (set_slot i None m)
      /\ saved t b0 (Some ls) (w_dev w')
      /\ (if has_record g then forall l, l ∈ ls <-> l ∈ mf_chain f else chain_locations (w_dev w0) (de_first e) = Ok ls).
  Proof.
    intros Hc He Ho Hp Hnm Hx. unfold geos_delete. rewrite Hc, He. unfold geos_occupied in Ho. rewrite He in Ho.
    destruct (chain_locations (w_dev w0) (de_first e)) as [ch| | |] eqn:Ec; try discriminate. cbn [rbind] in Ho.
    destruct (entry_info_location e) as [il| | |]; try discriminate. cbn [rbind] in Ho.
    destruct (match gf_vlir g with Some _ => _ | None => _ end) as [rs| | |] eqn:Er in Ho; try discriminate. cbn [rbind] in Ho. apply Ok_inj in Ho.
    assert (forall l, l ∈ mf_chain f <-> l ∈ ch ++ match il with Some l => [l] | None => [] end ++ rs) as Hin.
    { intros l. rewrite <- Ho, !elem_of_list_In. apply occupied_in. }
    destruct (freed_chain None [] (de_first e) ch w0 (freeing_start _ _ _ _ _ _ W Hn) Ec) as (w1 & R1 & F1); [intros l Hl; apply Hin; set_solver|].
    rewrite (sbind_ok _ _ _ _ _ R1). unfold lift at 1. unfold sbind at 1. cbn [app] in F1.
    assert (exists w2, (match il with Some l => update_cell c (fun b => bam_free b l) | None => ret tt end) w1 = (w2, Ok tt)
      /\ freed (Some ch) (ch ++ match il with Some l => [l] | None => [] end) w2) as (w2 & R2 & F2).
    { destruct il as [l|].
      - apply freed_one; [done|]. apply Hin. set_solver.
      - exists w1. split; [done|]. by rewrite app_nil_r. }
    rewrite (sbind_ok _ _ _ _ _ R2).
    assert (exists w3, (match gf_vlir g with Some records => for_each (fun l => remove_chain c l) (somes records) | None => ret tt end) w2 = (w3, Ok tt)
      /\ exists ls, freed (Some ls) ((ch ++ match il with Some l => [l] | None => [] end) ++ rs) w3
         /\ if has_record g then forall l, l ∈ ls <-> l ∈ mf_chain f else ls = ch) as (w3 & R3 & ls & F3 & Hls).
    { unfold has_record. destruct (gf_vlir g) as [records|].
      - destruct (freed_records (somes records) (Some ch) _ rs w2 F2 Er) as (w3 & R3 & F3); [intros l Hl; apply Hin; set_solver|].
        exists w3. split; [done|]. destruct (somes records) as [|x xs]; [by exists ch|]. eexists. split; [exact F3|]. intros l. rewrite Hin. set_solver.
      - apply Ok_inj in Er as <-. exists w2. split; [done|]. exists ch. split; [by rewrite app_nil_r|done]. }
    rewrite (sbind_ok _ _ _ _ _ R3).
    destruct (freeing_done t w0 m c i b0 _ _ w3 e f W Hn F3 Hi) as (w4 & b4 & R4 & W4 & M4 & S4); [intros l; rewrite Hin; set_solver|done|done|done|].
    exists w4, b4, ls. do 4 (split; [done|]). destruct (has_record g); [done|]. by subst.
  Qed.

  Lemma rel_delete_view e r :
    rf_bam r = c -> rf_entry r = e -> rel_occupied r = mf_chain f -> linked (w_dev w0) (FRelative r) ->
    de_pos e = Some (slot_pos m i) -> length (de_name e) <= 16 -> extra_writes (de_extra e) ->
    exists w' b', rel_delete r w0 = (w', Ok tt)
      /\ wok t w' (set_slot i None m) c b' [] /\ moved t i w0 m w' (set_slot i None m)
      /\ saved t b0 (Some (rf_data_sectors r)) (w_dev w').
  Proof.
    intros Hc He Ho Hlk Hp Hnm Hx. unfold rel_delete. cbn [linked] in Hlk. rewrite Hc, He. rewrite He in Hlk.
    assert (forall l, l ∈ mf_chain f <-> l ∈ rf_data_sectors r ++ rf_side_sectors r) as Hin.
    { intros l. rewrite <- Ho, !elem_of_list_In. apply occupied_in. }
    destruct (freed_chain None [] (de_first e) _ w0 (freeing_start _ _ _ _ _ _ W Hn) Hlk) as (w1 & R1 & F1); [intros l Hl; apply Hin; set_solver|].
    rewrite (sbind_ok _ _ _ _ _ R1). cbn [app] in F1.
    destruct (freeing_list t w0 m c i b0 _ _ (rf_side_sectors r) w1 F1) as (w2 & R2 & F2 & _).
    { apply own_sectors. intros l Hl. apply Hin. set_solver. }
    rewrite (sbind_ok _ _ _ _ _ R2).
    eapply (freeing_done t w0 m c i b0 _ _ w2 e f W Hn F2 Hi); [|done|done|done]. intros l. by rewrite Hin.
  Qed.
End deleting.

Lemma rel_new_entry d c e r : rel_new d c e = Ok r -> rf_bam r = c /\ rf_entry r = e.
Proof.
  unfold rel_new. intros H.
  destruct (match de_extra e with XRelative _ _ _ => _ | _ => _ end) as [[rs fs]| | |]; try discriminate. cbn [rbind] in *.
  destruct (chain_walk d fs) as [ss r0]. destruct (side_loop ss r0) as [[[a1 a2] a3]| | |]; try discriminate. cbn [rbind] in *.
  destruct (_ <? _); [discriminate|]. destruct (negb _); [discriminate|].
  destruct (match last a3 with Some _ => _ | None => _ end) as [il| | |]; try discriminate. cbn [rbind] in *.
  destruct (rs =? 0); [discriminate|]. destruct (negb _); [discriminate|]. by apply Ok_inj in H as <-.
Qed.

(** Deleting a relative or GEOS file frees its sectors and no others in memory,
    and takes its entry out of the directory. *)
Lemma delete_special_view t w m c b i x f y :
  wok t w m c b [] -> names_ok m -> slot_at m i = Some f -> special_handle t m c i f x ->
  mf_special f = Some y -> removable (sp_kind y) = true ->
  exists w' b' ls, file_delete x w = (w', Ok tt)
    /\ wok t w' (set_slot i None m) c b' [] /\ moved t i w m w' (set_slot i None m)
    /\ saved t b (Some ls) (w_dev w') /\ forall l, l ∈ ls <-> saved_by_delete (w_dev w) x l.
Proof.
  intros W Hn Hi (y' & e & Hy & Hp & Hnm & Hs & Hf & Hx & Hd) Hy' Hrem. assert (y' = y) as -> by congruence. clear Hy'.
  pose proof (wo_view _ _ _ _ _ _ W) as V. pose proof Hi as Hi'. apply slot_at_Some in Hi'.
  destruct (v_files _ _ _ V i f Hi') as ((Hok & _) & _ & Hco). destruct (Hd (w_dev w) (v_shape _ _ _ V) Hco) as (Hat & Ho & Hr).
  assert (extra_writes (de_extra e)) as Hew.
  { rewrite Hx. apply stored_extra_writes in Hok. cbn [mf_entry de_extra] in Hok. unfold mf_extras in Hok. by rewrite Hy in Hok. }
  unfold contents in Hco. rewrite Hy in Hco. destruct Hco as (Hsl & _). rewrite <- Hs in Hsl. unfold file_at in Hat.
  destruct (de_scheme e) eqn:Ee; [done|..].
  - destruct (rel_new (w_dev w) c e) as [r| | |] eqn:Er; try discriminate. cbn [rbind] in Hat. apply Ok_inj in Hat as <-.
    cbn [file_delete file_occupied] in *. apply Ok_inj in Ho. destruct (rel_new_entry _ _ _ _ Er) as [Hc He].
    assert (linked (w_dev w) (FRelative r)) as Hlk; [|destruct (rel_delete_view t w m c i b f y W Hn Hi Hy e r) as (w' & b' & H1 & H2 & H3 & H4); try done;
      exists w', b', (rf_data_sectors r); do 4 (split; [done|]); intros l; cbn [saved_by_delete]; by rewrite elem_of_list_In].
    destruct (sp_kind y) as [|tidy rs|data]; [done|..].
    + destruct Hr as (_ & _ & _ & _ & Hr). by apply Hr.
    + destruct Hr as (_ & _ & Hr & _). by specialize (Hr []).
  - destruct (geos_new (w_dev w) c e) as [g| | |] eqn:Eg; try discriminate. cbn [rbind] in Hat. apply Ok_inj in Hat as <-.
    destruct (geos_new_entry _ _ _ _ Eg) as [He Hc]. cbn [file_delete file_occupied] in *.
    destruct (geos_delete_view t w m c i b f y W Hn Hi Hy e g) as (w' & b' & ls & H1 & H2 & H3 & H4 & H5); try done.
    exists w', b', ls. do 4 (split; [done|]). intros l. cbn [saved_by_delete]. rewrite He, Ho. destruct (has_record g).
    + rewrite H5. rewrite elem_of_list_In. split; [intros Hl; by exists (mf_chain f)|by intros (ls' & [= <-] & Hl)].
    + rewrite H5. rewrite elem_of_list_In. split; [intros Hl; by exists ls|by intros (ls' & [= <-] & Hl)].
  - destruct (geos_new (w_dev w) c e) as [g| | |] eqn:Eg; try discriminate. cbn [rbind] in Hat. apply Ok_inj in Hat as <-.
    destruct (geos_new_entry _ _ _ _ Eg) as [He Hc]. cbn [file_delete file_occupied] in *.
    destruct (geos_delete_view t w m c i b f y W Hn Hi Hy e g) as (w' & b' & ls & H1 & H2 & H3 & H4 & H5); try done.
    exists w', b', ls. do 4 (split; [done|]). intros l. cbn [saved_by_delete]. rewrite He, Ho. destruct (has_record g).
    + rewrite H5. rewrite elem_of_list_In. split; [intros Hl; by exists (mf_chain f)|by intros (ls' & [= <-] & Hl)].
    + rewrite H5. rewrite elem_of_list_In. split; [intros Hl; by exists ls|by intros (ls' & [= <-] & Hl)].
Qed.
