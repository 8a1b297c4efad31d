(** Relative and GEOS files keep their records. *)
From Verif Require Import Base ListFacts Layout Block Bam Format Petscii DirEntry Header World Chain Directory Rel GeosFile File Validate Spec SpecChain SpecBam SpecFiles
  ChainProofs EntryProofs BamState Holds DevFacts Dirs FormatProofs SectorProofs OpDelete View Ops OpWrite OpFile SpecialFiles SpecKinds Session SpecDisk Refine Tables Trace.

(** No writer is open on such a file. *)
Lemma special_unwritten t a s k x f :
  reached t a s -> as_writers a !! k = Some (Some x) -> as_slots a !! aw_slot x = Some (Some f) -> a_special f = false.
Proof.
  intros Hr Hk Hf. destruct (reached_related _ _ _ Hr) as (m & c & b & R).
  destruct (Forall2_lookup_l _ _ _ _ _ (rl_writers _ _ _ _ _ _ R) Hk) as (o & _ & Ho). cbn in Ho. destruct Ho as (k' & g & _ & Hg & _).
  rewrite (rl_slots _ _ _ _ _ _ R), (abs_lookup _ _ _ (wk_slot _ _ _ _ _ _ Hg)) in Hf. injection Hf as <-.
  unfold a_special. cbn [abs_file a_kind]. unfold mf_kind. by rewrite (wk_plain _ _ _ _ _ _ Hg).
Qed.

Lemma special_not_about t a s o i f :
  reached t a s -> as_slots a !! i = Some (Some f) -> a_special f = true -> spares a f o ->
  about a o <> Some i.
Proof.
  intros Hr Hf Hsp (_ & Hren & Hdel) Hab.
  assert (forall k, match as_writers a !! k with Some (Some x) => Some (aw_slot x) | _ => None end = Some i -> False) as Hw.
  { intros k E. destruct (as_writers a !! k) as [[x|]|] eqn:Ek; [|done..]. injection E as <-.
    by rewrite (special_unwritten t a s k x f Hr Ek Hf) in Hsp. }
  destruct o as [name ft|name|h|k buf|k|k|h ns|h j|h|old new| | | | | | |name id]; cbn [about] in Hab; try done; try by apply (Hw k).
  - destruct (held a h) as [[j g]|] eqn:E; [|done]. injection Hab as ->. destruct (Hdel h i eq_refl). rewrite E.
    unfold held in E. destruct (as_handles a !! h) as [[j|]|]; [|done..]. destruct (as_slots a !! j) as [[g'|]|] eqn:Ej; [|done..].
    injection E as -> ->. rewrite Hf in Ej. by injection Ej as ->.
  - apply (named_slot a) in Hab as (g & Hg & <-). rewrite Hf in Hg. injection Hg as <-. by apply (Hren new).
Qed.

Lemma special_slots t os : forall a s a' rs i f,
  reached t a s -> as_slots a !! i = Some (Some f) -> a_special f = true -> arun t a os = Some (a', rs) ->
  all_spare t a f os -> as_slots a' !! i = Some (Some f).
Proof.
  induction os as [|o os IH]; intros a s a' rs i f Hr Hf Hsp Ha Hos; cbn [arun all_spare] in Ha, Hos; [by injection Ha as <- <-|].
  destruct Hos as [Ho Hos]. destruct (astep t a o) as [[a1 r]|] eqn:E1; [|done]. destruct (arun t a1 os) as [[a2 rs']|] eqn:E2; [|done]. injection Ha as <- <-.
  destruct (crash_safe t a s o a1 r Hr E1 (proj1 Ho)) as (s1 & ws & _ & Hr1 & _ & _ & Hk).
  eapply (IH a1 s1); [done| |done|done|done]. apply Hk; [done|]. by eapply special_not_about.
Qed.

Theorem records_kept t a s f os a' rs :
  reached t a s -> shows (s_world s) f -> a_special f = true -> arun t a os = Some (a', rs) -> all_spare t a f os ->
  exists s', calls s os = (s', rs) /\ shows (s_world s') f.
Proof.
  intros Hr Hf Hsp Ha Hos. apply (reached_shows t a s f Hr) in Hf as [i Hi].
  destruct (reached_run t a s os a' rs Hr Ha) as (s' & Hc & Hr'). exists s'. split; [done|].
  apply (reached_shows t a' s' f Hr'). exists i. exact (special_slots t os a s a' rs i f Hr Hi Hsp Ha Hos).
Qed.

(** A call that changes the name of the file changes nothing else of it, and
    leaves the handles on it open. *)
Lemma special_step t a s o a1 r i f :
  reached t a s -> astep t a o = Some (a1, r) -> is_format o = false -> as_slots a !! i = Some (Some f) -> a_special f = true ->
  (forall h, o = ODelete h -> as_handles a !! h <> Some (Some i)) ->
  exists name, as_slots a1 !! i = Some (Some (mk_afile name (a_attr f) (a_blocks f) (a_data f) (a_kind f)))
    /\ forall h, o <> OReopen -> as_handles a !! h = Some (Some i) -> as_handles a1 !! h = Some (Some i).
Proof.
  intros Hr Ha Hfo Hf Hsp Hdel. assert (exists new, as_slots a1 !! i = Some (Some (mk_afile new (a_attr f) (a_blocks f) (a_data f) (a_kind f)))) as [new Hnew].
  { destruct (crash_safe t a s o a1 r Hr Ha Hfo) as (s1 & ws & _ & _ & _ & _ & Hk).
    assert (about a o <> Some i \/ exists new, o = ORename (a_name f) new) as [Hab|[new ->]].
    { assert (forall h j, o = ODelete h -> held a h <> Some (j, f)) as Hheld.
      { intros h j -> E. apply (Hdel h eq_refl). unfold held in E. destruct (as_handles a !! h) as [[j'|]|]; [|done..].
        destruct (as_slots a !! j') as [[g|]|] eqn:Ej; [|done..]. injection E as -> ->. do 2 f_equal.
        pose proof (slot_name_of t a s Hr i f Hf) as E1. rewrite (slot_name_of t a s Hr j f Ej) in E1. by injection E1. }
      destruct o as [| | | | | | | | |old new| | | | | | |]; try (left; eapply special_not_about; [done..|]; split; [done|]; split; [done|exact Hheld]).
      destruct (decide (old = a_name f)) as [->|Hne]; [right; by eexists|]. left. eapply special_not_about; [done..|].
      split; [done|]. split; [congruence|done]. }
    { exists (a_name f). destruct (Hk i f Hf Hab) as [-> _]. by destruct f. }
    cbn [astep] in Ha. rewrite (slot_name_of t a s Hr i f Hf) in Ha.
    assert (mk_afile (a_name f) (a_attr f) (a_blocks f) (a_data f) (a_kind f) = f) as Ef by (by destruct f).
    destruct (16 <? length new); [injection Ha as <- _; exists (a_name f); by rewrite Ef|].
    destruct (slot_named a new); [injection Ha as <- _; exists (a_name f); by rewrite Ef|].
    destruct (negb (storable_name new)); [done|]. rewrite Hf in Ha. injection Ha as <- _. exists new.
    cbn [put set_slots as_slots]. apply list_lookup_insert. by eapply lookup_lt_Some. }
  exists new. split; [done|]. intros h Hre Hh.
  assert (as_handles a1 = as_handles a \/ (exists o', as_handles a1 = as_handles a ++ [o']) \/ exists j, as_handles a1 = map (stale j) (as_handles a) /\ j <> i) as [->|[[o' ->]|(j & -> & Hj)]].
  { clear Hnew new. destruct o as [name ft|name|h'|k buf|k|k|h' ns|h' j|h'|old new| | | | | | |name id]; cbn [astep] in Ha; try done.
    - repeat (case_match; try done); injection Ha as <- <-; first [by left|right; left; by eexists].
    - repeat (case_match; try done); injection Ha as <- <-; first [by left|right; left; by eexists].
    - repeat (case_match; try done); injection Ha as <- <-; by left.
    - destruct (as_writers a !! k) as [[x|]|]; [|done..]. destruct (as_slots a !! aw_slot x) as [[g|]|]; [|done..].
      destruct (write_to _ g (aw_pend x) buf) as [[f' pend] r']. injection Ha as <- _. left. by destruct (a_blocks f' =? a_blocks g).
    - destruct (as_writers a !! k) as [[x|]|]; [|done..]. injection Ha as <- _. left. unfold settle.
      destruct (aw_dirty x); [|done]. cbn [set_writers as_slots]. by destruct (as_slots a !! aw_slot x) as [[g|]|].
    - destruct (as_writers a !! k) as [[x|]|]; [|done..]. injection Ha as <- _. left. unfold settle.
      destruct (aw_dirty x); [|done]. cbn [set_writers as_slots]. by destruct (as_slots a !! aw_slot x) as [[g|]|].
    - repeat (case_match; try done); injection Ha as <- <-; by left.
    - repeat (case_match; try done); injection Ha as <- <-; by left.
    - destruct (held a h') as [[j g]|] eqn:E; [|done]. destruct (_ || _); [done|]. injection Ha as <- _. right. right. exists j.
      split; [done|]. intros ->. apply (Hdel h' eq_refl). unfold held in E. destruct (as_handles a !! h') as [[j|]|]; [|done..].
      destruct (as_slots a !! j) as [[g'|]|]; [|done..]. by injection E as ->.
    - repeat (case_match; try done); injection Ha as <- <-; by left.
    - injection Ha as <- _. by left.
    - injection Ha as <- _. by left.
    - injection Ha as <- _. by left.
    - injection Ha as <- _. by left.
    - destruct (as_synced a); [|done]. injection Ha as <- _. by left. }
  - done.
  - by apply lookup_app_l_Some.
  - change (map (stale j) (as_handles a)) with (stale j <$> as_handles a). rewrite list_lookup_fmap, Hh. cbn.
    destruct (Nat.eqb_spec i j) as [->|_]; done.
Qed.

Theorem handle_records_kept t os : forall a s a' rs h k,
  reached t a s -> kind_of a h = Some k -> k <> KPlain -> arun t a os = Some (a', rs) ->
  handle_spared t a h os ->
  exists s' x, calls s os = (s', rs) /\ s_handles s' !! h = Some x /\ reads_as (w_dev (s_world s')) x k.
Proof.
  intros a s a' rs h k Hr Hk Hp Ha Hos. destruct (reached_run t a s os a' rs Hr Ha) as (s' & Hc & Hr'). exists s'.
  assert (kind_of a' h = Some k) as Hk'.
  { clear Hc Hr'. revert a s a' rs Hr Hk Ha Hos. induction os as [|o os IH]; intros a s a' rs Hr Hk Ha Hos; cbn [arun handle_spared] in Ha, Hos; [by injection Ha as <- <-|].
    destruct Hos as [(Ho1 & Ho2 & Ho3) Hos]. destruct (astep t a o) as [[a1 r]|] eqn:E1; [|done]. destruct (arun t a1 os) as [[a2 rs']|] eqn:E2; [|done]. injection Ha as <- <-.
    destruct (reached_step t a s o a1 r Hr E1) as (s1 & _ & Hr1). eapply (IH a1 s1); [done| |done|done].
    unfold kind_of in Hk. destruct (as_handles a !! h) as [[i|]|] eqn:Eh; [|done..]. destruct (as_slots a !! i) as [[f|]|] eqn:Ei; [|done..].
    injection Hk as <-. destruct (special_step t a s o a1 r i f Hr E1 Ho1 Ei) as (name & Hi & Hh).
    { unfold a_special. by destruct (a_kind f). }
    { exact Ho3. }
    unfold kind_of. by rewrite (Hh h Ho2 Eh), Hi. }
  destruct (reached_related _ _ _ Hr') as (m & c & b & R).
  destruct (special_reads t a' s' m c b R h k Hk' Hp) as (x & Hx & Hrd). by exists x.
Qed.

(** The same, for the property theorems. *)
Lemma kind_special f : a_kind f <> KPlain -> a_special f = true.
Proof. unfold a_special. by destruct (a_kind f). Qed.
Lemma file_records_kept t a s f os a' rs :
  reached t a s -> shows (s_world s) f -> a_kind f <> KPlain -> arun t a os = Some (a', rs) ->
  all_spare t a f os ->
  exists s', calls s os = (s', rs) /\ shows (s_world s') f.
Proof. intros Hr Hf Hk%kind_special. by apply records_kept with (a := a) (a' := a'). Qed.
Lemma handle_kept t a s h k os a' rs :
  reached t a s -> kind_of a h = Some k -> k <> KPlain ->
  arun t a os = Some (a', rs) -> handle_spared t a h os ->
  exists s' x, calls s os = (s', rs) /\ s_handles s' !! h = Some x /\ reads_as (w_dev (s_world s')) x k.
Proof. intros Hr Hh Hk Ha Hf. exact (handle_records_kept t os a s a' rs h k Hr Hh Hk Ha Hf). Qed.
Lemma records_crash t a s f o a' r :
  reached t a s -> shows (s_world s) f -> a_kind f <> KPlain ->
  astep t a o = Some (a', r) -> spares a f o ->
  exists s' ws, call s o = (s', r) /\ w_dev (s_world s') = after_writes (w_dev (s_world s)) ws
    /\ forall n, shows (open_world t (after_writes (w_dev (s_world s)) (take n ws))) f.
Proof.
  intros Hr Hf Hk%kind_special Ha Hn. destruct (crash_safe t a s o a' r Hr Ha (proj1 Hn)) as (s' & ws & Hc & _ & _ & Hd & Hx).
  exists s', ws. split; [done|]. split; [done|]. destruct (proj1 (reached_shows t a s f Hr) Hf) as [j Hj].
  apply (Hx j f Hj). exact (special_not_about t a s o j f Hr Hj Hk Hn).
Qed.

(** Deleting a file leaves the others as they are. *)
Lemma delete_spares t a s h i f :
  reached t a s -> held a h = Some (i, f) -> writer_on a i = false -> removable (a_kind f) = true ->
  exists s', call s (ODelete h) = (s', ADone) /\ validate (s_world s') = Ok []
    /\ forall g, a_name g <> a_name f -> shows (s_world s) g -> shows (s_world s') g.
Proof.
  intros Hr Hh Hw Hk. destruct (delete_outcome t a s h i f Hr Hh Hw Hk) as (s' & a' & x & ls & b & b' & Hc & Hr' & H).
  exists s'. split; [done|]. split; [by eapply reached_clean|]. intros g Hg Hs. by apply H.
Qed.

(** The map of an image that is opened. *)
Lemma opened_map t d m b : view t d m -> disk_bam t d = Ok b -> b_format b = d_format t d -> current_map (open_world t d) = Ok b.
Proof.
  intros V Hb Hf. unfold open_world, initialize, native. cbn [w_type w_dev]. change (header_fmt (native_format t)) with (hf t).
  rewrite (v_header _ _ _ V). unfold disk_bam in Hb. rewrite (view_format _ _ _ V) in Hb.
  destruct (read_other_format _ (m_format t m) (native_format t) b eq_refl Hb) as [-> Hbb]. cbn [res_ok].
  assert (match h_geos (md_header m) with Some _ => set_geos true (native_format t) | None => native_format t end = m_format t m) as ->.
  { unfold m_format, is_geos. destruct (h_geos (md_header m)); [done|]. by destruct t. }
  rewrite Hbb. unfold current_map, w_get_bam, cell, set_bam. done.
Qed.

(** What is free in the image when a file was deleted. *)
Lemma delete_saved t a s h i f x :
  reached t a s -> held a h = Some (i, f) -> writer_on a i = false -> removable (a_kind f) = true -> s_handles s !! h = Some x ->
  exists s' b b', call s (ODelete h) = (s', ADone) /\ current_map (s_world s) = Ok b
    /\ current_map (open_world t (w_dev (s_world s'))) = Ok b'
    /\ forall l, bam_sector t l -> is_free b' l <-> is_free b l \/ saved_by_delete (w_dev (s_world s)) x l.
Proof.
  intros Hr Hh Hw Hrm Hx. destruct (reached_related _ _ _ Hr) as (m & c & b & R).
  destruct (held_some t a s m c b R h i f Hh) as (x' & g & Hx' & Hg & Hfg & Hok). assert (x' = x) as -> by congruence. subst f.
  pose proof (rl_wok _ _ _ _ _ _ R) as W. pose proof (wo_view _ _ _ _ _ _ W) as V.
  assert (exists w' b' b1, file_delete x (s_world s) = (w', Ok tt) /\ wok t w' (set_slot i None m) c b1 []
    /\ disk_bam t (w_dev w') = Ok b' /\ b_format b' = d_format t (w_dev w')
    /\ forall l, bam_sector t l -> freeb b' l = true <-> freeb b l = true \/ saved_by_delete (w_dev (s_world s)) x l) as (w' & b' & b1 & Hd & W' & Hb & Hf & Hfr).
  { destruct Hok as [[Hok _]|(y & Hok & Hy & Hk & _)].
    - destruct (delete_view t _ m c b i x g W (rl_names _ _ _ _ _ _ R) Hok Hg) as (w' & b' & Hd & W' & _ & Hdb).
      exists w', b', b'. split; [done|]. split; [done|]. split; [done|]. split; [rewrite (view_format _ _ _ (wo_view _ _ _ _ _ _ W')); apply W'|].
      pose proof Hg as Hmi. apply slot_at_Some in Hmi. pose proof (slot_at_lt _ _ _ Hg) as Hlt.
      destruct Hok as [(g' & e & ex & Hi & -> & Hp & Hfi & _ & _ & _ & Hpl)]. assert (g' = g) as -> by congruence.
      intros l Hl. cbn [saved_by_delete]. rewrite Hfi.
      rewrite (locations_sound t _ _ _ (v_shape _ _ _ V) (view_file_sound t _ m V i g Hmi Hpl)).
      pose proof (bo_free _ _ _ _ (wo_alloc _ _ _ _ _ _ W)) as F. pose proof (bo_free _ _ _ _ (wo_alloc _ _ _ _ _ _ W')) as F'.
      rewrite F, F' by done. rewrite (used_set_in m i (Some g) None l Hg Hlt (v_nodup _ _ _ V)). cbn [chain_of]. rewrite !elem_of_nil.
      destruct (v_files _ _ _ V i g Hmi) as (_ & Hfa & _). rewrite Forall_forall in Hfa.
      assert (l ∈ mf_chain g -> ~ sys t l /\ l ∈ used m) as Hown.
      { intros Hlg. split; [apply data_plain, Hfa, Hlg|]. apply used_in. right. by exists i, g. }
      assert ((exists ls, Ok (mf_chain g) = Ok ls /\ In l ls) <-> l ∈ mf_chain g) as ->.
      { rewrite elem_of_list_In. split; [by intros (ls & [= <-] & H)|]. intros H. by exists (mf_chain g). }
      destruct (decide (l ∈ mf_chain g)); tauto.
    - rewrite Hk in Hrm. destruct (delete_special_view t _ m c b i x g y W (rl_names _ _ _ _ _ _ R) Hg Hok Hy Hrm) as (w' & b1 & ls & Hd & W' & _ & (b' & Hb & Hf & Hfr) & Hls).
      exists w', b', b1. do 4 (split; [done|]). intros l Hl. by rewrite (Hfr l Hl), Hls. }
  exists (set_world w' s), b, b'. cbn [call]. rewrite Hx, Hd. split; [done|]. split; [by eapply map_of|]. cbn [set_world s_world].
  split; [exact (opened_map _ _ _ _ (wo_view _ _ _ _ _ _ W') Hb Hf)|]. intros l Hl. rewrite !is_free_b. by apply Hfr.
Qed.

(** The side sectors of a deleted relative file stay allocated in the image, and
    so does the info block of a GEOS file without VLIR records. *)
Lemma delete_lost t a s h i f x l :
  reached t a s -> held a h = Some (i, f) -> writer_on a i = false -> removable (a_kind f) = true -> s_handles s !! h = Some x ->
  (forall ls, file_occupied (w_dev (s_world s)) x = Ok ls -> In l ls) -> ~ saved_by_delete (w_dev (s_world s)) x l ->
  exists s' b', call s (ODelete h) = (s', ADone) /\ current_map (open_world t (w_dev (s_world s'))) = Ok b' /\ bam_sector t l /\ ~ is_free b' l.
Proof.
  intros Hr Hh Hw Hrm Hx Hl Hns. destruct (delete_saved t a s h i f x Hr Hh Hw Hrm Hx) as (s' & b & b' & Hc & Hb & Hb' & Hfr).
  destruct (delete_outcome t a s h i f Hr Hh Hw Hrm) as (s1 & a1 & x1 & ls & b1 & b2 & _ & _ & Hx1 & Ho & _ & _ & Hb1 & _ & Hown & _).
  assert (x1 = x) as -> by congruence. assert (b1 = b) as -> by congruence.
  destruct (Hown l (Hl ls Ho)) as [Hs Hnf]. exists s', b'. do 3 (split; [done|]). rewrite (Hfr l Hs). tauto.
Qed.
Lemma relative_lost t a s h i f r l :
  reached t a s -> held a h = Some (i, f) -> writer_on a i = false -> removable (a_kind f) = true ->
  s_handles s !! h = Some (FRelative r) -> In l (rf_side_sectors r) -> ~ In l (rf_data_sectors r) ->
  exists s' b', call s (ODelete h) = (s', ADone) /\ current_map (open_world t (w_dev (s_world s'))) = Ok b' /\ bam_sector t l /\ ~ is_free b' l.
Proof.
  intros Hr Hh Hw Hrm Hx Hl Hns. apply (delete_lost t a s h i f _ l Hr Hh Hw Hrm Hx); [|done].
  intros ls [= <-]. apply occupied_in. apply in_or_app. by right.
Qed.
Lemma info_lost t a s h i f g l ls :
  reached t a s -> held a h = Some (i, f) -> writer_on a i = false -> removable (a_kind f) = true ->
  s_handles s !! h = Some (FGEOSSequential g) \/ s_handles s !! h = Some (FGEOSVLIR g) -> has_record g = false ->
  entry_info_location (gf_entry g) = Ok (Some l) -> chain_locations (w_dev (s_world s)) (de_first (gf_entry g)) = Ok ls -> ~ In l ls ->
  exists s' b', call s (ODelete h) = (s', ADone) /\ current_map (open_world t (w_dev (s_world s'))) = Ok b' /\ bam_sector t l /\ ~ is_free b' l.
Proof.
  intros Hr Hh Hw Hrm Hx Hnr Hl Hch Hns.
  assert (forall ls', geos_occupied (w_dev (s_world s)) g = Ok ls' -> In l ls') as Ho.
  { intros ls'. unfold geos_occupied. rewrite Hch, Hl. cbn [rbind]. destruct (match gf_vlir g with Some _ => _ | None => _ end) as [rs| | |]; try discriminate.
    cbn [rbind]. intros [= <-]. apply occupied_in. apply in_or_app. right. by left. }
  assert (~ exists ls', (if has_record g then geos_occupied (w_dev (s_world s)) g else chain_locations (w_dev (s_world s)) (de_first (gf_entry g))) = Ok ls' /\ In l ls') as Hsv.
  { rewrite Hnr, Hch. by intros (ls' & [= <-] & H). }
  destruct Hx as [Hx|Hx]; by apply (delete_lost t a s h i f _ l Hr Hh Hw Hrm Hx).
Qed.
