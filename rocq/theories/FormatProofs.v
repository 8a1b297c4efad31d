(** Formatting a disk, and opening one. *)
From Verif Require Import Base ListFacts Layout Block Bam Format Chain GeosTypes Petscii DirEntry Header World Directory Writer
  Rel File Spec SpecCodec SpecChain SpecBam GeomFacts FlatProofs DevFacts CodecProofs EntryProofs HeaderProofs ChainProofs
  BamProofs AllocProofs BamState Evolve Holds View Dirs Ops Count OpWrite OpFile OpCreate.
Ltac Zify.zify_post_hook ::= Z.div_mod_to_equations.

(** The cell of the disk exists. *)
Definition cell_there (w : world) : Prop := forall c, w_bam w = Some c -> c < length (w_cells w).

Definition sysb (t : disk_type) (l : location) : bool :=
  ((fst l =? dir_track t) && (snd l <? sys_sectors t)) || reservedb t (fst l).
Lemma sysb_spec t l : sysb t l = true <-> sys t l.
Proof.
  unfold sysb, sys. rewrite orb_true_iff, andb_true_iff, Nat.eqb_eq, Nat.ltb_lt, reservedb_spec. done.
Qed.

Section fmt.
  Context (t : disk_type).

  (** *** Initialising *)

  Lemma read_other_format d f f' b :
    bam_sections f = bam_sections f' -> bam_read d f = Ok b -> bam_read d f' = Ok (bam_set_format f' b) /\ bam_set_format f (bam_set_format f' b) = b.
  Proof.
    intros Hs. unfold bam_read. rewrite Hs. destruct (bam_read_sections d (bam_sections f')) as [es| | |]; try done.
    cbn [rbind]. by intros [= <-].
  Qed.

  Lemma initialize_view w m b :
    w_type w = t -> view t (w_dev w) m -> cell_there w -> disk_bam t (w_dev w) = Ok b -> bam_ok t b m [] ->
    exists c, wok t (initialize w) m c b [] /\ w_dev (initialize w) = w_dev w
      /\ (forall c', w_bam w = Some c' -> c = c')
      /\ (w_bam w = None -> c = length (w_cells w))
      /\ cell_there (initialize w).
  Proof.
    intros Ht V Hc Hb Ho. unfold initialize, native. rewrite Ht.
    change (header_fmt (native_format t)) with (hf t). rewrite (v_header _ _ _ V). unfold disk_bam in Hb. rewrite (view_format _ _ _ V) in Hb.
    destruct (read_other_format _ (m_format t m) (native_format t) b eq_refl Hb) as [-> Hbb]. cbn [res_ok].
    assert (match h_geos (md_header m) with Some _ => set_geos true (native_format t) | None => native_format t end = m_format t m) as ->.
    { unfold m_format, is_geos. destruct (h_geos (md_header m)); [done|]. by destruct t. }
    rewrite Hbb.
    unfold set_bam. cbn [w_bam set_header]. destruct (w_bam w) as [c|] eqn:Ec.
    - exists c. specialize (Hc c Ec). split; [|split; [done|split; [|split; [done|]]]].
      + split; try done. cbn. by apply list_lookup_insert.
      + by intros c' [= <-].
      + intros c'. cbn. rewrite Ec. intros [= <-]. by rewrite insert_length.
    - exists (length (w_cells w)). split; [|split; [done|split; [done|split; [done|]]]].
      + split; try done. cbn. rewrite lookup_app_r by lia. by rewrite Nat.sub_diag.
      + intros c'. cbn. intros [= <-]. rewrite app_length. simpl. lia.
  Qed.

  (** *** Zeroing *)

  Lemma zero_loop d ls :
    dev_shape t d -> d_writable d = true -> Forall (fun l => valid_loc (d_geom d) l = true) ls ->
    exists d', for_each zero_sector ls d = (d', Ok tt) /\ dev_shape t d' /\ d_writable d' = true
      /\ d_geom d' = d_geom d /\ d_etable d' = d_etable d
      /\ forall l, sector d' l = if decide (l ∈ ls) then Ok (repeat 0 256) else sector d l.
  Proof.
    revert d. induction ls as [|l ls IH]; intros d Hd Hw Hv.
    - exists d. split; [done|]. split; [done|]. split; [done|]. split; [done|]. split; [done|].
      intros l. rewrite decide_False; [done|]. apply not_elem_of_nil.
    - inversion_clear Hv as [|? ? Hl Hls]. destruct (sector_valid t d l Hd Hl) as (b & _ & Hs & Hlb).
      cbn [for_each]. unfold zero_sector at 1.
      rewrite (sbind_ok _ _ _ _ _ (sector_mut_upd d l (fun b => repeat 0 (length b)) b Hw Hs)). cbn beta. rewrite Hlb.
      destruct (IH (upd d l (repeat 0 256))) as (d' & Hrun & Hd' & Hw' & Hg' & He' & Hs').
      { by apply upd_shape. } { done. } { done. }
      exists d'. split; [done|]. split; [done|]. split; [done|]. split; [done|]. split; [done|].
      intros l'. rewrite Hs'. rewrite (sector_upd t) by done.
      repeat case_decide; try done; exfalso; rewrite elem_of_cons in *; naive_solver.
  Qed.

  Lemma zero_locations_all g :
    In g (allowed_geometries t) -> zero_locations (native_format t) g = all_sectors t (g_tracks g).
  Proof.
    intros Hg. unfold zero_locations, all_sectors, range_incl.
    replace (first_track (native_format t)) with 1 by (by destruct t).
    replace (S (g_tracks g) - 1) with (g_tracks g) by lia.
    f_equal. apply map_ext_in. intros tr Htr. apply in_seq in Htr. f_equal. f_equal.
    assert (forallb (fun g => forallb (fun tr => sectors (tracks (native_format t) !!! tr) =? spec_sectors t tr)
            (seq 1 (g_tracks g))) (allowed_geometries t) = true) as H by (destruct t; vm_compute; reflexivity).
    rewrite forallb_forall in H. specialize (H g Hg). rewrite forallb_forall in H. apply Nat.eqb_eq, H, in_seq. lia.
  Qed.

  (** *** The fresh BAM *)

  Lemma allocate_list_spec ls : forall b,
    bam_consistent t b -> Forall (bam_sector t) ls ->
    exists b', allocate_list b ls = Ok b' /\ bam_consistent t b' /\ b_format b' = b_format b
      /\ forall l, bam_sector t l -> freeb b' l = freeb b l && negb (bool_decide (l ∈ ls)).
  Proof.
    induction ls as [|l ls IH]; intros b Hb Hls.
    - exists b. split; [done|]. split; [done|]. split; [done|]. intros l _.
      by rewrite bool_decide_eq_false_2, andb_true_r by apply not_elem_of_nil.
    - inversion_clear Hls as [|? ? Hl Hls']. destruct (allocate_spec t b l Hb Hl) as (b1 & Ha & Hb1 & Hf1 & Hfr).
      cbn [allocate_list]. rewrite Ha. cbn [rbind].
      destruct (IH b1 Hb1 Hls') as (b' & -> & Hb' & Hf' & Hfr'). exists b'.
      split; [done|]. split; [done|]. split; [congruence|]. intros l' Hl'. rewrite (Hfr' l' Hl'), (Hfr l' Hl').
      rewrite <- andb_assoc. f_equal. rewrite <- negb_orb. f_equal. rewrite <- bool_decide_or.
      apply bool_decide_ext. rewrite elem_of_cons. tauto.
  Qed.

  Lemma system_locations_spec l :
    l ∈ system_locations (native_format t) <-> bam_sector t l /\ (sys t l \/ l = first_dir t).
  Proof.
    assert (forall l, l ∈ system_locations (native_format t) -> bam_sector t l) as Hin.
    { assert (forallb (fun l => bool_decide (l ∈ all_sectors t (spec_tracks t))) (system_locations (native_format t)) = true) as H
        by (destruct t; vm_compute; reflexivity).
      rewrite forallb_forall in H. intros l' Hl'. apply elem_of_list_In, H, bool_decide_eq_true in Hl'. by apply in_sectors. }
    assert (forall l, bam_sector t l -> l ∈ system_locations (native_format t) <-> (sys t l \/ l = first_dir t)) as Hiff.
    { assert (forallb (fun l => Bool.eqb (existsb (fun l' => (fst l =? fst l') && (snd l =? snd l')) (system_locations (native_format t)))
          (sysb t l || ((fst l =? fst (first_dir t)) && (snd l =? snd (first_dir t))))) (all_sectors t (spec_tracks t)) = true) as H
        by (destruct t; vm_compute; reflexivity).
      rewrite forallb_forall in H. intros l' Hl'. apply in_sectors, elem_of_list_In, H, eqb_prop in Hl'.
      apply eq_bool_prop_intro in Hl' || idtac.
      assert (forall a b : location, ((fst a =? fst b) && (snd a =? snd b)) = true <-> a = b) as Heq.
      { intros [a1 a2] [b1 b2]. rewrite andb_true_iff, !Nat.eqb_eq. simpl. split; [by intros [-> ->]|by intros [= -> ->]]. }
      rewrite <- sysb_spec, <- (Heq l' (first_dir t)), <- orb_true_iff. rewrite <- Hl'. rewrite existsb_exists.
      setoid_rewrite Heq. rewrite elem_of_list_In. split; [intros Hx; by exists l'|by intros (? & Hx & ->)]. }
    split; [intros Hl; split; [by apply Hin|apply Hiff; auto]|]. intros [Hb Hs]. by apply Hiff.
  Qed.

  (** *** The empty disk *)

  Definition empty_disk (h : header) : mdisk := mk_mdisk h [first_dir t] (repeat None 8).

  Lemma first_dir_loc : dir_loc t (first_dir t).
  Proof.
    split; [|split; [done|]].
    - destruct t; vm_compute; lia.
    - unfold sys, reserved, first_dir. simpl. intros [[_ H]|[-> H]]; [lia|done].
  Qed.

  Lemma empty_slots h i : i < 8 -> md_slots (empty_disk h) !! i = Some None.
  Proof. intros Hi. cbn [empty_disk md_slots]. by apply lookup_repeat. Qed.
  Lemma empty_slot_at h i : slot_at (empty_disk h) i = None.
  Proof.
    unfold slot_at. destruct (md_slots (empty_disk h) !! i) as [o|] eqn:E; [|done].
    cbn [empty_disk md_slots] in E. apply elem_of_list_lookup_2, elem_of_list_In, repeat_spec in E. by subst.
  Qed.
  Lemma empty_names h : names_ok (empty_disk h).
  Proof. intros i j f g Hi. by rewrite empty_slot_at in Hi. Qed.
  Lemma empty_sizes h : sizes_ok (empty_disk h).
  Proof. intros i f Hi. by rewrite empty_slot_at in Hi. Qed.
  Lemma empty_used h : h_geos h = None -> used (empty_disk h) = [first_dir t].
  Proof. intros H. unfold used, md_secs, border. cbn [empty_disk md_header md_dir md_slots]. by rewrite H. Qed.
  Lemma empty_format h : h_geos h = None -> m_format t (empty_disk h) = native_format t.
  Proof. intros H. unfold m_format, is_geos. cbn [empty_disk md_header]. rewrite H. by destruct t. Qed.

  Lemma view_empty d h b :
    dev_shape t d -> d_writable d = true -> header_read d (hf t) = Ok h -> h_geos h = None ->
    sector d (first_dir t) = Ok b -> b !!! 0 = 0 -> b !!! 1 = 255 ->
    (forall k, k < 8 -> is_scratched (attr_from_byte (b !!! (32 * k + 2))) = true) ->
    view t d (empty_disk h).
  Proof.
    intros Hd Hw Hh Hg Hs H0 H1 Hk.
    assert (border (empty_disk h) = []) as Hbd by (unfold border; cbn [empty_disk md_header]; by rewrite Hg).
    assert (md_secs (empty_disk h) = [first_dir t]) as Hsecs by (unfold md_secs; by rewrite Hbd).
    split; rewrite ?Hbd, ?Hsecs; try done.
    - rewrite empty_used by done. apply NoDup_singleton.
    - constructor; [apply first_dir_loc|constructor].
    - intros i l Hi. destruct i as [|i]; [|done]. injection Hi as <-. exists b. done.
    - intros i o Hi. assert (i < 8) as Hi8.
      { apply lookup_lt_Some in Hi. cbn [empty_disk md_slots] in Hi. by rewrite repeat_length in Hi. }
      rewrite empty_slots in Hi by done. injection Hi as <-. exists b.
      unfold slot_loc, slot_off, slot_is. rewrite Hsecs. rewrite (Nat.div_small i 8), (Nat.mod_small i 8) by done.
      split; [done|]. by apply Hk.
    - intros i f Hi. exfalso. pose proof (empty_slot_at h i) as He. unfold slot_at in He. by rewrite Hi in He.
  Qed.

  (** The header made by formatting. *)
  Definition fresh_header (name : list nat) (id : nat * nat) : header :=
    mk_header (first_dir t) (hf_default_disk_format_type (hf t)) (name ++ repeat 160 (16 - length name)) id
      (hf_default_directory_dos_version (hf t)) (hf_default_directory_format_type (hf t)) None.

  Lemma format_view w name id :
    w_type w = t -> dev_shape t (w_dev w) -> d_writable (w_dev w) = true -> cell_there w -> length name <= 16 ->
    exists w' c b, write_format name id w = (w', Ok tt)
      /\ wok t w' (empty_disk (fresh_header name id)) c b []
      /\ disk_bam t (w_dev w') = Ok b
      /\ d_geom (w_dev w') = d_geom (w_dev w)
      /\ (forall c', w_bam w = Some c' -> c = c') /\ cell_there w'.
  Proof.
    intros Ht Hd Hw Hcell Hlen. unfold write_format.
    rewrite (sbind_ok (gets native) _ w w (native_format t)). 2: { unfold gets, native. by rewrite Ht. }
    rewrite (sbind_ok (gets (fun w => d_geom (w_dev w))) _ w w (d_geom (w_dev w)) eq_refl).
    (* zeros *)
    rewrite (zero_locations_all _ (ds_geom _ _ Hd)).
    destruct (zero_loop (w_dev w) (all_sectors t (g_tracks (d_geom (w_dev w)))) Hd Hw) as (d1 & Hrun1 & Hd1 & Hw1 & Hg1 & _ & Hs1).
    { apply Forall_forall. intros l Hl. apply (valid_loc_on_disk t); [apply Hd|]. by apply in_all_sectors, elem_of_list_In. }
    assert (forall l, valid_loc (d_geom (w_dev w)) l = true -> sector d1 l = Ok (repeat 0 256)) as Hz.
    { intros l Hl. rewrite Hs1, decide_True; [done|].
      apply elem_of_list_In, in_all_sectors, (valid_loc_on_disk t); [apply Hd|done]. }
    rewrite (sbind_ok _ _ _ _ _ (on_dev_run _ _ _ _ Hrun1)). set (w1 := set_dev d1 w).
    (* the directory *)
    rewrite (native_first_dir t).
    assert (valid_loc (d_geom (w_dev w)) (first_dir t) = true) as Hvf by (eapply bam_sector_valid; [done|apply first_dir_loc]).
    rewrite (sbind_ok _ _ _ _ _ (on_dev_mut w1 (first_dir t) (splice 0 [0; 255]) (repeat 0 256) Hw1 (Hz _ Hvf))).
    set (bd := splice 0 [0; 255] (repeat 0 256)).
    set (d2 := upd d1 (first_dir t) bd). change (upd (w_dev w1) (first_dir t) bd) with d2. set (w2 := set_dev d2 w1).
    assert (dev_shape t d2) as Hd2 by (by apply upd_shape).
    (* the header *)
    set (h0 := header_new (header_fmt (native_format t)) (native_format t) name id).
    destruct (header_write_ok t d2 h0 Hd2 Hw1 Hlen) as (block & block' & Hsb & _ & Hwr & Hlb & _ & Hrd).
    assert (hf_location (hf t) <> first_dir t) as Hne.
    { rewrite header_loc_cases. unfold first_dir. destruct t; done. }
    assert (block = repeat 0 256) as ->.
    { apply Ok_inj. rewrite <- Hsb. unfold d2. rewrite (sector_upd_other t); [|done| |by rewrite Hg1].
      - apply Hz. by apply header_location_valid, ds_geom.
      - intros E. by apply Hne. }
    change (header_write h0 (header_fmt (native_format t))) with (header_write h0 (hf t)).
    rewrite (sbind_ok _ _ _ _ _ (on_dev_run _ w2 _ _ Hwr)).
    set (d3 := upd d2 (hf_location (hf t)) block') in *. set (w3 := set_dev d3 w2).
    assert (header_read d3 (hf t) = Ok (fresh_header name id)) as Hrd3.
    { rewrite Hrd. unfold fresh_header. cbn [h0 header_new h_first_directory]. rewrite (native_first_dir t). done. }
    clear Hrd. assert (dev_shape t d3) as Hd3 by (by apply upd_shape).
    rewrite (sbind_ok _ _ w3 (set_header (Some h0) w3) tt eq_refl). set (w4 := set_header (Some h0) w3).
    (* the BAM *)
    destruct (bam_new_consistent t) as [Hbc Hbf].
    destruct (allocate_list_spec (system_locations (native_format t)) (bam_new (native_format t)) Hbc) as (b & Hal & Hb & Hf & Hfr).
    { apply Forall_forall. intros l Hl. by apply system_locations_spec in Hl as [? _]. }
    rewrite Hal. rewrite (sbind_ok (lift (Ok b)) _ w4 w4 b eq_refl).
    change (b_format (bam_new (native_format t))) with (native_format t) in Hf.
    assert (bam_ok t b (empty_disk (fresh_header name id)) []) as Hbo.
    { split; [done|by rewrite (empty_format (fresh_header name id) eq_refl)|]. intros l Hl. rewrite (Hfr l Hl), (Hbf l Hl). cbn [andb].
      rewrite negb_true_iff, bool_decide_eq_false, system_locations_spec, (empty_used (fresh_header name id) eq_refl), elem_of_list_singleton, elem_of_nil.
      tauto. }
    assert (view t d3 (empty_disk (fresh_header name id))) as V3.
    { apply (view_empty _ _ bd); try done.
      - unfold d3. rewrite (sector_upd_other t); [|done|done|by apply header_location_valid, ds_geom].
        unfold d2. apply (sector_upd_same t); [done|by rewrite Hg1].
      - intros k Hk. do 8 (destruct k as [|k]; [done|]). lia. }
    pose proof (bam_flush_steps t (fun d => view t d (empty_disk (fresh_header name id))) d3 b
      (view_bam_closed t _) Hd3 Hw1 (consistent_shape t b Hb) V3) as Hev.
    destruct (bam_flush_reload t d3 b Hd3 Hw1 (consistent_shape t b Hb)) as (d5 & Hfl & Hrb & _ & _ & _ & _ & Hsf & _).
    rewrite Hfl in Hev. pose proof (evolves_end _ _ _ Hev) as V5. cbn [fst] in V5.
    rewrite (sbind_ok _ _ _ _ _ (on_dev_run _ w4 _ _ Hfl)). set (w5 := set_dev d5 w4).
    rewrite (sbind_ok _ _ w5 (set_bam (Some b) w5) tt eq_refl). set (w6 := set_bam (Some b) w5).
    assert (w_dev w6 = d5) as Hw6.
    { unfold w6, set_bam. by destruct (w_bam w5). }
    rewrite (sbind_ok _ _ w6 w6 tt).
    2: { unfold on_dev, zoom, dev_flush, asks, check_writability. rewrite Hw6, (v_writable _ _ _ V5).
         f_equal. unfold set_dev. rewrite <- Hw6. by destruct w6. }
    destruct (initialize_view w6 (empty_disk (fresh_header name id)) b) as (c & W & Hdv & Hc1 & Hc2 & Hc3).
    { unfold w6, set_bam. by destruct (w_bam w5). }
    { by rewrite Hw6. }
    { unfold w6, set_bam, cell_there. destruct (w_bam w5) as [c|] eqn:E.
      - intros c'. cbn. intros Hc'. rewrite insert_length. apply Hcell. done.
      - intros c'. cbn. intros [= <-]. rewrite app_length. simpl. lia. }
    { rewrite Hw6. unfold disk_bam. rewrite (view_format _ _ _ V5), (empty_format (fresh_header name id) eq_refl). by rewrite <- Hf. }
    { done. }
    exists (initialize w6), c, b. split; [done|]. split; [done|]. split; [|split; [|split; [|done]]].
    - rewrite Hdv, Hw6. unfold disk_bam. rewrite (view_format _ _ _ V5), (empty_format (fresh_header name id) eq_refl). by rewrite <- Hf.
    - rewrite Hdv, Hw6. destruct Hsf as (_ & Hsf & _). rewrite Hsf. unfold d3, d2. cbn [upd d_geom]. done.
    - intros c' Hc'. apply Hc1. unfold w6, set_bam. change (w_bam w5) with (w_bam w). by rewrite Hc'.
  Qed.
End fmt.
