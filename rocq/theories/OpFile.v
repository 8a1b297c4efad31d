(** The operations on files: opening, reading, writing, flushing, deleting,
    renaming and creating. *)
From Verif Require Import Base ListFacts Layout Block Bam Format Chain GeosTypes Petscii DirEntry Header World Directory Writer
  Rel GeosFile File Spec SpecCodec SpecChain SpecBam GeomFacts FlatProofs DevFacts CodecProofs EntryProofs HeaderProofs ChainProofs
  BamProofs AllocProofs BamState Evolve Holds SpecKinds View Dirs Ops Count OpWrite.
Ltac Zify.zify_post_hook ::= Z.div_mod_to_equations.

(** A handle of the file in slot [i]: its entry may be out of date. *)
Record handle_ok (m : mdisk) (c i : nat) (x : file) : Prop := {
  hk_file : exists f e ex, slot_at m i = Some f /\ x = FLinear c e /\ de_pos e = Some (slot_pos m i)
    /\ de_first e = hd (0, 0) (mf_chain f) /\ length (de_name e) <= 16
    /\ de_extra e = XLinear ex /\ length ex = 9 /\ mf_special f = None
}.

(** Handles of the same relative or GEOS file: they may differ in the allocation
    map and in the rest of the entry. *)
Definition like (x y : file) : Prop :=
  match x, y with
  | FRelative f, FRelative g =>
      de_first (rf_entry f) = de_first (rf_entry g) /\ rf_record_size f = rf_record_size g /\ rf_data_sectors f = rf_data_sectors g
      /\ rf_side_sectors f = rf_side_sectors g /\ rf_records f = rf_records g
  | FGEOSSequential f, FGEOSSequential g | FGEOSVLIR f, FGEOSVLIR g =>
      gf_vlir f = gf_vlir g /\ de_first (gf_entry f) = de_first (gf_entry g) /\ de_extra (gf_entry f) = de_extra (gf_entry g)
  | _, _ => False
  end.
Lemma like_occupied d x y : like x y -> file_occupied d x = file_occupied d y.
Proof.
  destruct x as [? ?|f|f|f], y as [? ?|g|g|g]; try done; cbn [like file_occupied].
  - unfold rel_occupied. by intros (_ & _ & -> & -> & _).
  - unfold geos_occupied, entry_info_location. by intros (-> & -> & ->).
  - unfold geos_occupied, entry_info_location. by intros (-> & -> & ->).
Qed.
Lemma like_reads d x y k : like x y -> reads_as d x k -> reads_as d y k.
Proof.
  intros H. assert (file_record_count x = file_record_count y /\ (forall i, file_record d x i = file_record d y i)
    /\ file_reader x = file_reader y /\ file_writer d x = file_writer d y /\ (linked d x <-> linked d y)) as (E1 & E2 & E3 & E4 & E5).
  { destruct x as [? ?|f|f|f], y as [? ?|g|g|g]; try done; cbn [like file_record_count file_record file_reader file_writer linked] in *.
    - destruct H as (H0 & H1 & H2 & H3 & H4). split; [done|]. split; [intros i; unfold rel_record, record_position; by rewrite H1, H2, H4|].
      split; [done|]. split; [done|]. by rewrite H0, H2.
    - destruct H as (H1 & H2 & H3). unfold geos_record_count, geos_record, record_start, geos_linear_reader, geos_writer. by rewrite H1, H2.
    - destruct H as (H1 & H2 & H3). unfold geos_record_count, geos_record, record_start, geos_linear_reader, geos_writer. by rewrite H1, H2. }
  destruct k as [|tidy rs|data]; [done|..]; cbn [reads_as]; unfold read_through; rewrite E1, E3, E4; intros (R1 & R2 & R3 & R4);
    (split; [done|]; split; [intros i; rewrite <- E2; apply R2|]); [by rewrite <- E5|done].
Qed.

(** A file opens alike from entries that agree on the fields of the file. *)
Lemma file_at_like d c c' e e' x :
  de_scheme e <> SLinear -> de_scheme e' = de_scheme e -> de_first e' = de_first e -> de_extra e' = de_extra e ->
  file_at d c e = Ok x -> exists y, file_at d c' e' = Ok y /\ like x y.
Proof.
  intros Hs Es Hf Hx. unfold file_at. rewrite Es. destruct (de_scheme e); [done|..].
  - unfold rel_new. rewrite Hx. intros H.
    destruct (match de_extra e with XRelative _ _ _ => _ | _ => _ end) as [[rs fs]| | |]; try discriminate. cbn [rbind] in *.
    destruct (chain_walk d fs) as [ss r]. destruct (side_loop ss r) as [[[a1 a2] a3]| | |]; try discriminate. cbn [rbind] in *.
    destruct (_ <? _); [discriminate|]. destruct (negb _); [discriminate|].
    destruct (match last a3 with Some _ => _ | None => _ end) as [il| | |]; try discriminate. cbn [rbind] in *.
    destruct (rs =? 0); [discriminate|]. destruct (negb _); [discriminate|]. cbn [rbind] in *. apply Ok_inj in H as <-. eexists. split; done.
  - unfold geos_new, entry_is_vlir. rewrite Hx, Hf. intros H. destruct (de_extra e) eqn:Ex; try discriminate.
    destruct structure; try discriminate; cbn [rbind] in *.
    + apply Ok_inj in H as <-. eexists. split; [done|]. cbn [like gf_entry gf_vlir]. by rewrite Ex.
    + destruct (sector d (de_first e)); try discriminate. cbn [rbind] in *. apply Ok_inj in H as <-. eexists. split; [done|].
      cbn [like gf_entry gf_vlir]. by rewrite Ex.
  - unfold geos_new, entry_is_vlir. rewrite Hx, Hf. intros H. destruct (de_extra e) eqn:Ex; try discriminate.
    destruct structure; try discriminate; cbn [rbind] in *.
    + apply Ok_inj in H as <-. eexists. split; [done|]. cbn [like gf_entry gf_vlir]. by rewrite Ex.
    + destruct (sector d (de_first e)); try discriminate. cbn [rbind] in *. apply Ok_inj in H as <-. eexists. split; [done|].
      cbn [like gf_entry gf_vlir]. by rewrite Ex.
Qed.

(** A file that is not linear opens from its entry, and the handle knows its
    sectors and its records. *)
Lemma contents_opens_as t d f c e y :
  dev_shape t d -> contents t d f -> mf_special f = Some y ->
  de_scheme e = sp_scheme y -> de_first e = sp_first y -> de_extra e = sp_extra y ->
  exists x, file_at d c e = Ok x /\ file_occupied d x = Ok (mf_chain f) /\ reads_as d x (sp_kind y).
Proof.
  intros Hd Hc Hk H1 H2 H3. unfold contents in Hc. rewrite Hk in Hc. destruct Hc as (Hs & _ & Hc).
  destruct (Hc d Hd eq_refl (fun _ _ => eq_refl)) as (x0 & E0 & Ho & Hr).
  destruct (file_at_like d 0 c (special_entry y) e x0) as (x & Ex & Hl); [done..|].
  exists x. split; [done|]. split; [by rewrite <- (like_occupied _ x0)|by eapply like_reads].
Qed.
Lemma contents_opens t d m i f c y :
  dev_shape t d -> contents t d f -> mf_special f = Some y ->
  exists x, file_at d c (entry_at m i f) = Ok x /\ file_occupied d x = Ok (mf_chain f) /\ reads_as d x (sp_kind y).
Proof.
  intros Hd Hc Hk. apply (contents_opens_as t d f c _ y Hd Hc Hk); cbn [entry_at de_scheme de_first de_extra].
  - unfold mf_scheme. by rewrite Hk.
  - unfold mf_first. by rewrite Hk.
  - unfold mf_extras. by rewrite Hk.
Qed.

Section op.
  Context (t : disk_type).

  Lemma consistent_shape b : bam_consistent t b -> bam_shape t b.
  Proof. intros H. apply H. Qed.

  Lemma flush_cell_raw w m c b i :
    view t (w_dev w) m -> names_ok m -> w_cells w !! c = Some b -> bam_consistent t b -> b_format b = m_format t m ->
    exists d', flush_cell c w = (set_dev d' w, Ok tt) /\ view t d' m /\ moved t i w m (set_dev d' w) m
      /\ disk_bam t d' = Ok b.
  Proof.
    intros V Hn Hcell Hc Hf. pose proof (consistent_shape b Hc) as Hsh.
    destruct (bam_flush_reload t (w_dev w) b (v_shape _ _ _ V) (v_writable _ _ _ V) Hsh) as (d' & Hfl & Hrd & _).
    pose proof (bam_flush_steps t (fun d => view t d m) (w_dev w) b (view_bam_closed t m) (v_shape _ _ _ V)
      (v_writable _ _ _ V) Hsh V) as Hev. rewrite Hfl in Hev. cbn [fst] in Hev.
    pose proof (evolves_end _ _ _ Hev) as V'. cbn beta in V'.
    exists d'. split; [|split; [done|split]].
    - unfold flush_cell, sbind, asks, cell. rewrite Hcell. by apply on_dev_run.
    - split; [|apply frame_refl|done]. cbn [set_dev w_dev]. eapply evolves_impl; [|exact Hev].
      intros d Vd. eapply safe_intro; [exact Vd|done|apply frame_refl].
    - unfold disk_bam. rewrite (view_format t d' m V'). by rewrite <- Hf.
  Qed.

  Lemma flush_cell_view w m c b ex i :
    wok t w m c b ex -> names_ok m ->
    exists w', flush_cell c w = (w', Ok tt) /\ wok t w' m c b ex /\ moved t i w m w' m
      /\ disk_bam t (w_dev w') = Ok b.
  Proof.
    intros W Hn. pose proof (wo_alloc _ _ _ _ _ _ W) as [Hc Hf _].
    destruct (flush_cell_raw w m c b i (wo_view _ _ _ _ _ _ W) Hn (wo_cell _ _ _ _ _ _ W) Hc Hf) as (d' & Hr & V' & M & D).
    exists (set_dev d' w). split; [done|]. split; [|done]. eapply wok_dev; [done|done|done|apply W].
  Qed.

  Lemma dev_flush_view w m c b ex : wok t w m c b ex -> on_dev dev_flush w = (w, Ok tt).
  Proof.
    intros W. unfold on_dev, zoom, dev_flush, asks, check_writability.
    rewrite (v_writable _ _ _ (wo_view _ _ _ _ _ _ W)). by destruct w.
  Qed.

  Lemma flush_view w m c b i k f pend :
    wok t w m c b [] -> names_ok m -> writer_ok m c i k f pend ->
    exists w' k', writer_flush (w, k) = ((w', k'), Ok tt)
      /\ wok t w' (set_slot i (Some (settled f pend)) m) c b []
      /\ moved t i w m w' (set_slot i (Some (settled f pend)) m)
      /\ writer_ok (set_slot i (Some (settled f pend)) m) c i k' (settled f pend) []
      /\ cw_dirty k' = false
      /\ if cw_dirty k then disk_bam t (w_dev w') = Ok b else w' = w /\ k' = k.
  Proof.
    intros W Hn K. unfold writer_flush. rewrite (sbind_ok the_writer _ (w, k) (w, k) k eq_refl).
    destruct (cw_dirty k) eqn:Hd.
    - destruct (write_current_view t _ _ _ _ _ _ _ _ W Hn K) as (w1 & Hrun1 & W1 & M1 & K1 & D1 & _).
      rewrite (sbind_ok _ _ _ _ _ Hrun1).
      destruct (flush_cell_view w1 _ c b [] i W1 (mv_names _ _ _ _ _ _ M1)) as (w2 & Hrun2 & W2 & M2 & D2).
      rewrite (wk_cell _ _ _ _ _ _ K).
      rewrite (sbind_ok _ _ _ _ _ (on_world_run _ _ k _ _ Hrun2)).
      rewrite (sbind_ok _ _ _ _ _ (on_world_run _ _ k _ _ (dev_flush_view _ _ _ _ _ W2))).
      exists w2, (set_dirty false k). split; [done|]. split; [done|]. split; [by eapply moved_trans|].
      split; [|done]. destruct K1. split; done.
    - pose proof (wk_dirty _ _ _ _ _ _ K Hd) as ->. pose proof (wk_slot _ _ _ _ _ _ K) as Hi.
      assert (settled f [] = f) as E by (unfold settled, set_chain; rewrite app_nil_r; by destruct f).
      assert (set_slot i (Some f) m = m) as Hsame.
      { unfold set_slot. rewrite list_insert_id by (by apply slot_at_Some). by destruct m. }
      rewrite E, Hsame. exists w, k. split; [done|]. split; [done|]. split; [|done]. apply moved_refl; [apply W|done].
  Qed.

  Lemma write_view buf w m c b i k f pend :
    wok t w m c b [] -> names_ok m -> sizes_ok m -> writer_ok m c i k f pend ->
    exists w' k' b' f' pend' r,
      writer_write buf (w, k) = ((w', k'), match r with Ok _ => Ok (length buf) | Err e => Err e | Panic => Panic | NoFuel => NoFuel end)
      /\ wok t w' (set_slot i (Some f') m) c b' [] /\ moved t i w m w' (set_slot i (Some f') m)
      /\ sizes_ok (set_slot i (Some f') m)
      /\ writer_ok (set_slot i (Some f') m) c i k' f' pend' /\ cw_dirty k' = true
      /\ disk_bam t (w_dev w') = disk_bam t (w_dev w)
      /\ (mf_chain f' = mf_chain f -> b' = b)
      /\ wrote t m f f' pend pend' (mf_data f ++ pend ++ buf) r.
  Proof.
    intros W Hn Hs K.
    destruct (write_loop_view t (length buf) buf w m c b i (set_dirty true k) f pend) as
      (w' & k' & b' & f' & pend' & r & Hrun & Hrest); try done.
    { destruct K. by split. }
    exists w', k', b', f', pend', r. split; [|exact Hrest].
    unfold writer_write. rewrite (sbind_ok (on_writer (set_dirty true)) _ (w, k) (w, set_dirty true k) tt eq_refl).
    unfold sbind. rewrite Hrun. by destruct r.
  Qed.

  Lemma open_view w m c b i f :
    wok t w m c b [] -> names_ok m -> slot_at m i = Some f -> mf_special f = None ->
    exists x, open_file w (mf_name f) = Ok x /\ handle_ok m c i x.
  Proof.
    intros W Hn Hi Hk. unfold open_file.
    rewrite (find_view t (w_dev w) m w i f (wo_view _ _ _ _ _ _ W) Hn eq_refl (wo_fmt _ _ _ _ _ _ W) (wo_header _ _ _ _ _ _ W) Hi).
    cbn [rbind]. unfold open_file_from_entry, w_get_bam. rewrite (wo_bam _ _ _ _ _ _ W). cbn [rbind entry_at de_scheme].
    unfold mf_scheme. rewrite Hk.
    eexists. split; [reflexivity|].
    destruct (v_files _ _ _ (wo_view _ _ _ _ _ _ W) i f) as ((Hok & _) & _); [by apply slot_at_Some|].
    split. exists f, (entry_at m i f), (mf_extra f). split; [done|]. split; [done|]. split; [done|].
    split; [|split; [apply Hok|split]].
    - cbn [entry_at de_first]. unfold mf_first. by rewrite Hk.
    - cbn [entry_at de_extra]. unfold mf_extras. by rewrite Hk.
    - split; [|done]. pose proof (eo_extra _ Hok) as He. cbn [mf_entry de_extra de_scheme] in He. unfold mf_extras, mf_scheme in He.
      rewrite Hk in He. by destruct He.
  Qed.

  (** A relative or a GEOS file opens, and the handle knows its sectors. *)
  Lemma open_special w m c b i f y :
    wok t w m c b [] -> names_ok m -> slot_at m i = Some f -> mf_special f = Some y ->
    exists x, open_file w (mf_name f) = Ok x /\ file_at (w_dev w) c (entry_at m i f) = Ok x
      /\ file_occupied (w_dev w) x = Ok (mf_chain f) /\ reads_as (w_dev w) x (sp_kind y).
  Proof.
    intros W Hn Hi Hk. unfold open_file.
    rewrite (find_view t (w_dev w) m w i f (wo_view _ _ _ _ _ _ W) Hn eq_refl (wo_fmt _ _ _ _ _ _ W) (wo_header _ _ _ _ _ _ W) Hi).
    cbn [rbind]. unfold open_file_from_entry, w_get_bam. rewrite (wo_bam _ _ _ _ _ _ W). cbn [rbind].
    destruct (v_files _ _ _ (wo_view _ _ _ _ _ _ W) i f) as (_ & _ & Hc); [by apply slot_at_Some|].
    destruct (contents_opens t _ m i f c y (v_shape _ _ _ (wo_view _ _ _ _ _ _ W)) Hc Hk) as (x & Hx & Ho & Hr).
    exists x. split; [exact Hx|done].
  Qed.

  Lemma handle_read w m c b i x f :
    wok t w m c b [] -> handle_ok m c i x -> slot_at m i = Some f ->
    file_record (w_dev w) x 0 = Ok (mf_data f).
  Proof.
    intros W [(f' & e & ex & Hi & -> & Hp & Hfi & _ & _ & _ & Hk)] Hi'. rewrite Hi in Hi'. injection Hi' as ->.
    cbn [file_record Nat.eqb]. rewrite Hfi. eapply view_file_read; [apply W|by apply slot_at_Some|done].
  Qed.

  Lemma writer_view w m c b i x f :
    wok t w m c b [] -> handle_ok m c i x -> slot_at m i = Some f ->
    exists k, file_writer (w_dev w) x = Ok k /\ writer_ok m c i k f [] /\ cw_dirty k = true.
  Proof.
    intros W [(f' & e & ex & Hi & -> & Hp & Hfi & _ & _ & _ & Hk)] Hi'. rewrite Hi in Hi'. injection Hi' as ->.
    pose proof (wo_view _ _ _ _ _ _ W) as V. pose proof Hi as Hi'. apply slot_at_Some in Hi'.
    pose proof (view_file_sound _ _ _ V i f Hi' Hk) as Hs.
    destruct (v_files _ _ _ V i f Hi') as (_ & _ & Hh0). pose proof (contents_plain _ _ _ Hh0 Hk) as Hh.
    destruct (holds_tail t _ _ _ (v_shape _ _ _ V) Hh) as (l & bk & Hla & _ & Hsec & Hlb & H0 & H1 & H2).
    pose proof (holds_length _ _ _ Hh) as [[Hl1 Hl2] Hl3].
    destruct (find_tail_sound t (w_dev w) _ _ (length (d_blocks (w_dev w)) + 1) (v_shape _ _ _ V) Hs)
      as (l' & bk' & Hla' & Hsec' & Hft).
    { pose proof (sound_length _ _ _ _ (v_shape _ _ _ V) Hs) as Hsl. pose proof (ds_count _ _ (v_shape _ _ _ V)). lia. }
    rewrite Hla in Hla'. injection Hla' as <-. rewrite Hsec in Hsec'. apply Ok_inj in Hsec' as <-.
    cbn [file_writer]. unfold writer_new, find_tail. rewrite Hfi, Hft. cbn [rbind].
    eexists. split; [reflexivity|]. split; [|done].
    split; cbn [cw_bam cw_entry cw_loc cw_block cw_dirty]; rewrite ?app_nil_r; done.
  Qed.

  (** *** Deleting *)

  Lemma free_list ls : forall w c b,
    w_cells w !! c = Some b -> bam_consistent t b -> Forall (bam_sector t) ls ->
    exists b', for_each (fun l => update_cell c (fun b => bam_free b l)) ls w = (set_cell c b' w, Ok tt)
      /\ bam_consistent t b' /\ b_format b' = b_format b
      /\ forall l, bam_sector t l -> freeb b' l = true <-> freeb b l = true \/ l ∈ ls.
  Proof.
    induction ls as [|l ls IH]; intros w c b Hc Hb Hls.
    - exists b. split; [|split; [done|split; [done|]]].
      + unfold for_each, ret. f_equal. unfold set_cell. rewrite list_insert_id by done. by destruct w.
      + intros l _. rewrite elem_of_nil. tauto.
    - inversion_clear Hls as [|? ? Hl Hls']. destruct (release_spec t b l Hb Hl) as (b1 & Hr & Hb1 & Hf1 & Hfr1).
      cbn [for_each]. rewrite (sbind_ok _ _ _ _ _ (update_cell_run w c b _ b1 Hc Hr)).
      destruct (IH (set_cell c b1 w) c b1) as (b' & Hrun & Hb' & Hf' & Hfr').
      { cbn [set_cell w_cells]. apply list_lookup_insert. by eapply lookup_lt_Some. }
      { done. } { done. }
      exists b'. split; [|split; [done|split; [congruence|]]].
      + rewrite Hrun. unfold set_cell. cbn [w_type w_dev w_header w_fmt w_bam w_cells]. by rewrite list_insert_insert.
      + intros l' Hl'. rewrite (Hfr' l' Hl'), (Hfr1 l' Hl'), orb_true_iff, bool_decide_eq_true, elem_of_cons. tauto.
  Qed.

  Lemma delete_view w m c b i x f :
    wok t w m c b [] -> names_ok m -> handle_ok m c i x -> slot_at m i = Some f ->
    exists w' b', file_delete x w = (w', Ok tt)
      /\ wok t w' (set_slot i None m) c b' [] /\ moved t i w m w' (set_slot i None m)
      /\ disk_bam t (w_dev w') = Ok b'.
  Proof.
    intros W Hn [(f' & e & ex & Hi & -> & Hp & Hfi & Hnm & Hex & Hlx & Hk)] Hi'. rewrite Hi in Hi'. injection Hi' as ->.
    pose proof (wo_view _ _ _ _ _ _ W) as V. pose proof (slot_at_lt _ _ _ Hi) as Hilt.
    pose proof Hi as Hi'. apply slot_at_Some in Hi'.
    destruct (v_files _ _ _ V i f Hi') as (_ & Hdl & _).
    cbn [file_delete]. unfold linear_delete.
    destruct (free_list (mf_chain f) w c b) as (b' & Hrun & Hb' & Hf' & Hfr).
    { apply W. } { apply (wo_alloc _ _ _ _ _ _ W). }
    { eapply Forall_impl; [exact Hdl|]. by intros l [? _]. }
    pose proof (bo_fmt _ _ _ _ (wo_alloc _ _ _ _ _ _ W)) as Hfmt.
    set (w1 := set_cell c b' w) in *.
    destruct (flush_cell_raw w1 m c b' i V Hn) as (d2 & Hrun2 & V2 & M2 & D2).
    { cbn [w1 set_cell w_cells]. apply list_lookup_insert. eapply lookup_lt_Some, W. }
    { done. } { congruence. }
    assert (remove_chain c (de_first e) w = (set_dev d2 w1, Ok tt)) as Hrm.
    { unfold remove_chain. unfold asks. unfold sbind at 1. rewrite Hfi.
      rewrite (locations_sound t _ _ _ (v_shape _ _ _ V) (view_file_sound _ _ _ V i f Hi' Hk)).
      rewrite (sbind_ok _ _ _ _ _ Hrun). done. }
    rewrite (sbind_ok _ _ _ _ _ Hrm).
    destruct (entry_delete_view t d2 m i e ex V2 Hilt Hp Hnm Hex Hlx) as (bk & Hwr & Hlb & V3).
    exists (set_dev (upd d2 (slot_loc m i) bk) w1), b'. split; [|split; [|split]].
    - change (set_dev (upd d2 (slot_loc m i) bk) w1) with (set_dev (upd d2 (slot_loc m i) bk) (set_dev d2 w1)).
      by apply on_dev_run.
    - split; try apply W; try done.
      + cbn [w1 set_dev set_cell w_cells]. apply list_lookup_insert. eapply lookup_lt_Some, W.
      + split; [done|rewrite Hf'; exact Hfmt|]. intros l Hl. rewrite (Hfr l Hl). rewrite (bo_free _ _ _ _ (wo_alloc _ _ _ _ _ _ W) l Hl).
        rewrite (used_set_in m i (Some f)) by (done || apply V). cbn [chain_of]. rewrite elem_of_nil.
        assert (l ∈ mf_chain f -> l ∈ used m /\ ~ sys t l).
        { intros Hlf. split; [apply used_in; right; eauto|]. rewrite Forall_forall in Hdl. by apply Hdl. }
        destruct (decide (l ∈ mf_chain f)); tauto.
    - eapply moved_trans; [|eapply moved_trans; [exact M2|]].
      + by apply moved_same.
      + eapply moved_upd; [exact V2|done|done|exact V3| |apply frame_set_slot].
        apply names_ok_set; [done|done|]. done.
    - cbn [set_dev w_dev]. rewrite disk_bam_plain; [done|apply V2|].
      apply (view_used_plain _ _ _ V), used_in. left. apply slot_loc_elem. by rewrite <- (v_slots _ _ _ V).
  Qed.

  (** *** Renaming *)

  Definition renamed (name : list nat) (f : mfile) : mfile :=
    mk_mfile (mf_attr f) name (mf_extra f) (mf_size f) (mf_chain f) (mf_data f) (mf_special f).

  Lemma find_ok w m c b i f :
    wok t w m c b [] -> names_ok m -> slot_at m i = Some f ->
    w_find w (mf_name f) = Ok (entry_at m i f).
  Proof.
    intros W Hn Hi. eapply find_view; try done; apply W.
  Qed.
  Lemma find_none w m c b name :
    wok t w m c b [] -> (forall i f, slot_at m i = Some f -> mf_name f <> name) -> w_find w name = Err ENotFound.
  Proof. intros W Hno. eapply find_view_none; try done; apply W. Qed.

  Lemma available_taken w m c b i f :
    wok t w m c b [] -> names_ok m -> slot_at m i = Some f ->
    check_filename_availability w (mf_name f) = Err EFileExists.
  Proof. intros W Hn Hi. unfold check_filename_availability. by rewrite (find_ok w m c b i f). Qed.
  Lemma available_free w m c b name :
    wok t w m c b [] -> (forall i f, slot_at m i = Some f -> mf_name f <> name) ->
    check_filename_availability w name = Ok tt.
  Proof. intros W Hno. unfold check_filename_availability. by rewrite (find_none w m c b name). Qed.

  Lemma valid_name name : length name <= 16 -> check_filename_validity name = Ok tt.
  Proof. intros H. unfold check_filename_validity, ENTRY_FILENAME_LENGTH. destruct (Nat.ltb_spec 16 (length name)); [lia|done]. Qed.
  Lemma invalid_name name : 16 < length name -> check_filename_validity name = Err EFilenameTooLong.
  Proof. intros H. unfold check_filename_validity, ENTRY_FILENAME_LENGTH. destruct (Nat.ltb_spec 16 (length name)); [done|lia]. Qed.

  Lemma rename_view w m c b i f name :
    wok t w m c b [] -> names_ok m -> slot_at m i = Some f ->
    length name <= 16 -> last name <> Some PADDING_BYTE ->
    (forall i f, slot_at m i = Some f -> mf_name f <> name) ->
    exists w', w_rename (mf_name f) name w = (w', Ok tt)
      /\ wok t w' (set_slot i (Some (renamed name f)) m) c b []
      /\ moved t i w m w' (set_slot i (Some (renamed name f)) m)
      /\ disk_bam t (w_dev w') = disk_bam t (w_dev w).
  Proof.
    intros W Hn Hi Hlen Hend Hno. pose proof (wo_view _ _ _ _ _ _ W) as V. pose proof (slot_at_lt _ _ _ Hi) as Hilt.
    pose proof Hi as Hi'. apply slot_at_Some in Hi'. destruct (v_files _ _ _ V i f Hi') as (Hok & Hc & Hh).
    unfold w_rename, asks, lift. unfold sbind at 1. rewrite (find_ok w m c b i f W Hn Hi).
    rewrite (valid_name name Hlen). unfold sbind at 1. unfold sbind at 1. rewrite (available_free w m c b name W Hno).
    set (e := set_name name (entry_at m i f)).
    destruct (entry_write_view t (w_dev w) m i e (renamed name f) V Hilt) as (b' & Hwr & Hlb & V').
    - done.
    - done.
    - destruct Hok as [Hok Hsc]. split; [|done]. destruct Hok. split; done.
    - done.
    - done.
    - right. by exists f.
    - rewrite (used_same_chain m i f (renamed name f)) by done. apply V.
    - exists (set_dev (upd (w_dev w) (slot_loc m i) b') w). split; [by apply on_dev_run|]. split; [|split].
      + eapply wok_dev; [done|done|done|]. eapply bam_ok_used; [apply W|done|].
        intros l. by rewrite (used_same_chain m i f (renamed name f)).
      + eapply moved_upd; try done; [|apply frame_set_slot].
        apply names_ok_set; [done|done|]. intros g [= <-] j x Hj Hx. by eapply Hno.
      + simpl. apply disk_bam_plain; [apply V|]. apply (view_used_plain _ _ _ V), used_in. left.
        apply slot_loc_elem. by rewrite <- (v_slots _ _ _ V).
  Qed.

  Lemma rename_no_file w m c b name new :
    wok t w m c b [] -> (forall i f, slot_at m i = Some f -> mf_name f <> name) ->
    w_rename name new w = (w, Err ENotFound).
  Proof. intros W Hno. unfold w_rename, asks, sbind. by rewrite (find_none w m c b name W Hno). Qed.
  Lemma rename_too_long w m c b i f new :
    wok t w m c b [] -> names_ok m -> slot_at m i = Some f -> 16 < length new ->
    w_rename (mf_name f) new w = (w, Err EFilenameTooLong).
  Proof.
    intros W Hn Hi Hl. unfold w_rename, asks, sbind, lift. rewrite (find_ok w m c b i f W Hn Hi). by rewrite invalid_name.
  Qed.
  Lemma rename_taken w m c b i f j g :
    wok t w m c b [] -> names_ok m -> slot_at m i = Some f -> slot_at m j = Some g ->
    w_rename (mf_name f) (mf_name g) w = (w, Err EFileExists).
  Proof.
    intros W Hn Hi Hj. unfold w_rename, asks, sbind, lift. rewrite (find_ok w m c b i f W Hn Hi).
    rewrite valid_name; [|destruct (v_files _ _ _ (wo_view _ _ _ _ _ _ W) j g) as ((Hok & _) & _);
      [by apply slot_at_Some|apply Hok]].
    by rewrite (available_taken w m c b j g).
  Qed.
End op.
