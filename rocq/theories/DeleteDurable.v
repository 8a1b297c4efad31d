(** What a successful delete leaves in the allocation map of the image. *)
From Verif Require Import Base ListFacts Layout Block Bam Format Petscii GeosTypes DirEntry Header World Chain Directory Writer Rel GeosFile
  File Spec SpecCodec SpecChain SpecBam SpecFiles SpecGeos GeomFacts DevFacts BitFacts CodecProofs EntryProofs BamProofs ChainProofs AllocProofs AllocAny
  Evolve View Dirs SpecValidate Opening Session SpecDisk RelProofs SectorProofs AnyDir GeosProofs Robust RobustOps.

(** The sectors that hold the header and the allocation map. *)
Definition header_or_map (t : disk_type) (l : location) : Prop :=
  In l match t with D64 => [(18, 0)] | D71 => [(18, 0); (53, 0)] | D81 => [(40, 0); (40, 1); (40, 2)] end.

Lemma map_part t l : bam_loc (bam_sections (native_format t)) l -> header_or_map t l.
Proof. rewrite bam_locs. unfold header_or_map. destruct t; cbn [In]; tauto. Qed.
Lemma header_part t : header_or_map t (hf_location (hf t)).
Proof. rewrite header_loc_cases. unfold header_or_map. destruct t; cbn; tauto. Qed.

Lemma sector_bits t tr : 1 <= tr <= spec_tracks t -> spec_sectors t tr <= 8 * bitmap_size t.
Proof.
  intros H. assert (forallb (fun tr => spec_sectors t tr <=? 8 * bitmap_size t) (seq 1 (spec_tracks t)) = true) as E by (destruct t; reflexivity).
  rewrite forallb_forall in E. apply Nat.leb_le, E, in_seq. lia.
Qed.

(** The map of an image that holds bytes. *)
Lemma read_shape t d b :
  dev_shape t d -> holds_bytes d -> bam_read d (native_format t) = Ok b -> bam_shape t b.
Proof.
  intros Hd Hb Hr. destruct (bam_read_any t d false Hd) as (b' & Hr' & Hf & Hl & Hv). rewrite set_geos_false in Hr', Hf.
  rewrite Hr in Hr'. apply Ok_inj in Hr'. subst b'. split; [exists false; by rewrite set_geos_false|done|done|].
  unfold bam_read in Hr. destruct (bam_read_sections d (bam_sections (native_format t))) as [es| | |] eqn:E; [|done..]. apply Ok_inj in Hr. subst b.
  cbn [b_entries]. clear Hf Hl Hv.
  assert (forall s, In s (bam_sections (native_format t)) -> bs_bitmap_size s = bitmap_size t) as Hsz.
  { destruct t; cbn; intros s H; decompose [or] H; try done; subst; done. }
  pose proof (sections_ok t) as Hok. revert es E Hsz Hok. generalize (bam_sections (native_format t)).
  induction l as [|s ss IH]; intros es; cbn [bam_read_sections]; [by intros [= <-]|].
  destruct (bam_read_section d s) as [es1| | |] eqn:E1; [|done..]. cbn [rbind].
  destruct (bam_read_sections d ss) as [es2| | |]; [|done..]. intros [= <-] Hsz [Hs Hss]%Forall_cons. apply Forall_app. split.
  2: { apply IH; [done| |done]. intros s' Hs'. apply Hsz. by right. }
  unfold bam_read_section in E1. destruct (sector d (bs_free_location s)) as [fb| | |] eqn:Ef; [|done..]. cbn [rbind] in E1.
  assert (Forall is_byte fb) as Hfb by (rewrite <- (block_at_ok _ _ _ Ef); by apply block_at_bytes).
  assert (exists bb, es1 = map (fun i => entry_from_bytes (fb !!! (bs_free_offset s + i * bs_free_stride s))
             (slice (bs_bitmap_offset s + i * bs_bitmap_stride s) (bs_bitmap_size s) bb)) (seq 0 (bs_tracks s)) /\ Forall is_byte bb) as (bb & -> & Hbb).
  { destruct (decide _).
    - apply Ok_inj in E1. by exists fb.
    - destruct (sector d (bs_bitmap_location s)) as [bb| | |] eqn:Eb; [|done..]. apply Ok_inj in E1. exists bb. split; [done|].
      rewrite <- (block_at_ok _ _ _ Eb). by apply block_at_bytes. }
  apply Forall_forall. intros e He%elem_of_list_In. apply in_map_iff in He as (i & <- & _). cbn [entry_from_bytes e_map e_free].
  split; [|by apply bytes_lookup_total]. rewrite <- (Hsz s) by (by left).
  assert (Forall is_byte (slice (bs_bitmap_offset s + i * bs_bitmap_stride s) (bs_bitmap_size s) bb)) as Hsl by (by apply Forall_take, Forall_drop).
  eapply N.lt_le_trans; [by apply map_from_bytes_lt|]. apply N.pow_le_mono_r; [done|]. unfold slice. rewrite take_length. lia.
Qed.

Lemma release_shape t b l b' : bam_shape t b -> bam_sector t l -> bam_free b l = Ok b' ->
  bam_shape t b' /\ (forall l', 1 <= fst l' <= spec_tracks t -> is_free b' l' <-> is_free b l' \/ l' = l).
Proof.
  intros Hb [H1 H2] E. assert (bam_frame t b) as Hf by (split; apply Hb).
  destruct (free_any t b l Hf H1) as (b2 & E2 & Hf' & _ & Hfree).
  { pose proof (spec_sectors_bounds t (fst l) H1). lia. }
  rewrite E in E2. apply Ok_inj in E2. subst b2. split; [|done]. split; try apply Hf'.
  unfold bam_free, bam_update, check_validity in E. rewrite (bs_valid _ _ Hb) in E. cbn [rbind] in E.
  rewrite (entry_any t b (fst l) Hf H1) in E. cbn [rbind] in E. unfold entry_release in E.
  destruct (Nat.ltb_spec (snd l) 64); [|done]. cbn [rbind] in E. apply Ok_inj in E. subst b'. cbn [b_entries].
  apply Forall_insert; [apply Hb|]. cbn [update_free_sectors e_map e_free].
  assert (e_map (track_entry b (fst l)) < 2 ^ (8 * N.of_nat (bitmap_size t)))%N as Hm.
  { pose proof (bs_maps _ _ Hb) as HM. rewrite Forall_forall in HM. apply HM. unfold track_entry.
    apply elem_of_list_lookup_2 with (fst l - 1). apply list_lookup_lookup_total_lt. rewrite (bs_length _ _ Hb). lia. }
  split.
  - apply lt_pow2_bits. intros i Hi. rewrite testbit_set, (testbit_lt _ _ _ Hm Hi). cbn [orb]. apply N.eqb_neq.
    pose proof (sector_bits t (fst l) H1). lia.
  - rewrite count_bits_spec. eapply Nat.le_lt_trans; [apply bits_from_le|]. apply Nat.ltb_lt. reflexivity.
Qed.

Section durable.
  Context (t : disk_type) (d0 : dev) (c : nat).

  (** [F] is free in memory and [G] is free in the image. *)
  Record progress (F G : location -> Prop) (w : world) : Prop := {
    pr_shape : dev_shape t (w_dev w);
    pr_geom : d_geom (w_dev w) = d_geom d0;
    pr_write : d_writable (w_dev w) = true;
    pr_cell : exists b, w_cells w !! c = Some b /\ bam_shape t b /\ forall l, F l -> 1 <= fst l <= spec_tracks t /\ is_free b l;
    pr_disk : exists b, bam_read (w_dev w) (native_format t) = Ok b /\ forall l, G l -> is_free b l;
    pr_other : forall l, ~ header_or_map t l -> sector (w_dev w) l = sector d0 l;
    pr_header : header_read (w_dev w) (hf t) = header_read d0 (hf t)
  }.

  Lemma progress_less (F F' G G' : location -> Prop) w :
    progress F G w -> (forall l, F' l -> F l) -> (forall l, G' l -> G l) -> progress F' G' w.
  Proof.
    intros [H1 H2 H3 (b & H4 & H5 & H6) (b' & H7 & H8) H9 H10] HF HG. split; try done.
    - exists b. split; [done|]. split; [done|]. intros l Hl. by apply H6, HF.
    - exists b'. split; [done|]. intros l Hl. by apply H8, HG.
  Qed.

  Lemma progress_release F G w w' l u :
    progress F G w -> on_disk t (g_tracks (d_geom d0)) l ->
    update_cell c (fun b => bam_free b l) w = (w', Ok u) -> progress (fun x => F x \/ x = l) G w'.
  Proof.
    intros [H1 H2 H3 (b & H4 & H5 & H6) H7 H8 H9] Hl. unfold update_cell, sbind, asks, lift, cell. rewrite H4.
    destruct (bam_free b l) as [b'| | |] eqn:E; [|done..]. intros [= <- _].
    assert (bam_sector t l) as Hbs.
    { destruct Hl as [Hl1 Hl2]. split; [|done]. split; [lia|]. unfold bam_free, bam_update, check_validity in E. rewrite (bs_valid _ _ H5) in E.
      cbn [rbind] in E. unfold bam_entry_at, check_validity in E. rewrite (bs_valid _ _ H5) in E. cbn [rbind] in E.
      destruct (fst l) as [|i]; [done|]. destruct (b_entries b !! i) eqn:Ei; [|done]. apply lookup_lt_Some in Ei. rewrite (bs_length _ _ H5) in Ei. lia. }
    destruct (release_shape t b l b' H5 Hbs E) as [S1 S2]. split; try done.
    exists b'. cbn [set_cell w_cells]. split; [apply list_lookup_insert; by eapply lookup_lt_Some|]. split; [done|].
    intros x [Hx| ->].
    - destruct (H6 x Hx) as [A B]. split; [done|]. apply S2; [done|by left].
    - split; [apply Hbs|]. apply S2; [apply Hbs|by right].
  Qed.

  Lemma progress_each ls : forall F G w w' u,
    progress F G w -> Forall (on_disk t (g_tracks (d_geom d0))) ls ->
    for_each (fun l => update_cell c (fun b => bam_free b l)) ls w = (w', Ok u) -> progress (fun x => F x \/ In x ls) G w'.
  Proof.
    induction ls as [|l ls IH]; intros F G w w' u Hp Hl; cbn [for_each].
    - intros [= <- _]. eapply progress_less; [done| |done]. by intros x [?|[]].
    - apply Forall_cons in Hl as [Hl Hls]. unfold sbind. destruct (update_cell c (fun b => bam_free b l) w) as [w1 [[]| | |]] eqn:E; [|done..].
      intros E2. eapply progress_less; [eapply IH; [|done|exact E2]|..].
      + by eapply progress_release.
      + intros x [?|[<-|?]]; tauto.
      + done.
  Qed.

  Lemma progress_flush F G w w' u : progress F G w -> flush_cell c w = (w', Ok u) -> progress F F w'.
  Proof.
    intros [H1 H2 H3 (b & H4 & H5 & H6) H7 H8 H9]. destruct (bam_flush_reload t (w_dev w) b H1 H3 H5) as (d' & Hfl & Hrd & _ & Hby & Hse & Hsh & Hfr & _).
    unfold flush_cell, sbind, asks, cell. rewrite H4. unfold on_dev, zoom. rewrite Hfl. intros [= <- _].
    destruct Hfr as (Hfr1 & Hfr2 & _). split; cbn [set_dev w_dev w_cells]; try done.
    - congruence.
    - congruence.
    - exists b. done.
    - destruct (bs_fmt _ _ H5) as [ge Hge]. rewrite Hge in Hrd. unfold bam_read in Hrd |- *.
      change (bam_sections (set_geos ge (native_format t))) with (bam_sections (native_format t)) in Hrd.
      destruct (bam_read_sections d' (bam_sections (native_format t))) as [es| | |]; [|done..]. cbn [rbind] in Hrd |- *. apply Ok_inj in Hrd. subst b.
      eexists. split; [done|]. intros l Hl. apply (H6 l Hl).
    - intros l Hl. rewrite Hse; [by apply H8|]. intros Hb. by apply Hl, map_part.
    - rewrite <- H9. apply header_ext; [done|done|]. intros i Hi. by apply Hby.
  Qed.

  Lemma progress_remove F G w w' u s :
    progress F G w -> remove_chain c s w = (w', Ok u) ->
    exists ls, sound_chain (w_dev w) s ls /\ progress (fun x => F x \/ In x ls) (fun x => F x \/ In x ls) w'.
  Proof.
    intros Hp. unfold remove_chain. unfold sbind at 1, asks at 1. destruct (chain_locations (w_dev w) s) as [ls| | |] eqn:E; [|done..].
    pose proof (pr_shape _ _ _ Hp) as Hd. apply (locations_iff t) in E; [|done]. unfold sbind at 1.
    destruct (for_each _ ls w) as [w1 [[]| | |]] eqn:E1; [|done..]. intros E2. exists ls. split; [done|].
    eapply progress_flush; [|exact E2]. eapply progress_each; [exact Hp| |exact E1].
    pose proof (sound_valid t _ _ _ Hd E) as Hv. eapply Forall_impl; [exact Hv|]. intros l Hl. rewrite <- (pr_geom _ _ _ Hp).
    apply (valid_loc_on_disk t); [apply Hd|done].
  Qed.

  (** A chain away from the map is still the same chain. *)
  Lemma progress_chain F G w s ls :
    progress F G w -> sound_chain d0 s ls -> (forall l, In l ls -> ~ header_or_map t l) -> sound_chain (w_dev w) s ls.
  Proof.
    intros Hp (A & B & C & k & e & D & E) Hn. pose proof (pr_other _ _ _ Hp) as Ho.
    split; [done|]. split; [done|]. split.
    - intros i l l' Hl Hl'. destruct (C i l l' Hl Hl') as (b & Hb & Hr). exists b. split; [|done].
      rewrite Ho; [done|]. apply Hn, elem_of_list_In. by eapply elem_of_list_lookup_2.
    - exists k, e. split; [done|]. destruct E as (b & Hb & Hr). exists b. split; [|done].
      rewrite Ho; [done|]. apply Hn, elem_of_list_In. by apply last_Some_elem_of.
  Qed.

  Definition record_sector (ps : list location) (x : location) : Prop :=
    exists p ls, In p ps /\ sound_chain d0 p ls /\ (forall l, In l ls -> ~ header_or_map t l) /\ In x ls.

  Lemma progress_records ps : forall (F G : location -> Prop) w w' u,
    progress F G w -> (forall l, G l -> F l) -> for_each (fun l => remove_chain c l) ps w = (w', Ok u) ->
    progress (fun x => F x \/ record_sector ps x) (fun x => G x \/ record_sector ps x \/ (ps <> [] /\ F x)) w'.
  Proof.
    induction ps as [|p ps IH]; intros F G w w' u Hp HG; cbn [for_each].
    - intros [= <- _]. eapply progress_less; [done|..].
      + intros x [?|(p & ls & [] & _)]; done.
      + intros x [?|[(p & ls & [] & _)|[? _]]]; done.
    - unfold sbind. destruct (remove_chain c p w) as [w1 [[]| | |]] eqn:E; [|done..]. intros E2.
      destruct (progress_remove _ _ _ _ _ _ Hp E) as (ls & Hls & Hp1).
      assert (forall x, record_sector (p :: ps) x -> In x ls \/ record_sector ps x) as Hrec.
      { intros x (q & qs & [<-|Hq] & Hqs & Hn & Hx); [|right; by exists q, qs]. left.
        pose proof (progress_chain _ _ _ _ _ Hp Hqs Hn) as Hqs'. by rewrite (sound_unique t _ _ _ _ (pr_shape _ _ _ Hp) Hls Hqs'). }
      eapply progress_less; [eapply IH; [exact Hp1|done|exact E2]|..]; cbn beta.
      + intros x [?|Hx%Hrec]; tauto.
      + intros x [Hx|[Hx%Hrec|[_ Hx]]]; [left; left; by apply HG|tauto|tauto].
  Qed.

  (** Marking the entry. *)
  Lemma progress_entry F G w w' u e p :
    progress F G w -> de_pos e = Some p -> ~ header_or_map t (p_loc p) -> entry_fits e ->
    on_dev (positioned_write e) w = (w', Ok u) ->
    dev_shape t (w_dev w') /\ header_read (w_dev w') (hf t) = header_read d0 (hf t)
    /\ exists b, bam_read (w_dev w') (native_format t) = Ok b /\ forall l, G l -> is_free b l.
  Proof.
    intros Hp He Hn Hfit E. pose proof (pr_shape _ _ _ Hp) as Hd.
    destruct (dev_positioned t (d_geom (w_dev w)) e Hfit (w_dev w) Hd eq_refl) as (Hd' & _ & _).
    unfold on_dev, zoom in E. destruct (positioned_write e (w_dev w)) as [d' r] eqn:Ew. cbn [fst] in Hd'. injection E as <- ->. cbn [set_dev w_dev].
    assert (forall l, l <> p_loc p -> sector d' l = sector (w_dev w) l) as Hs.
    { unfold positioned_write in Ew. rewrite He in Ew. destruct (check_writability (w_dev w)); [|by injection Ew as <- _..]. cbn [rbind] in Ew.
      destruct (sector (w_dev w) (p_loc p)) as [b| | |] eqn:Eb; [|by injection Ew as <- _..]. cbn [rbind] in Ew.
      match type of Ew with (match ?x with _ => _ end) = _ => destruct x as [y| | |]; [|by injection Ew as <- _..] end.
      rewrite (sector_mut_upd (w_dev w) (p_loc p) _ b (pr_write _ _ _ Hp) Eb) in Ew. injection Ew as <-.
      intros l Hl. apply (sector_upd_other t); [done|congruence|]. by eapply sector_Ok_valid. }
    assert (forall l, header_or_map t l -> sector d' l = sector (w_dev w) l) as Hs' by (intros l Hl; apply Hs; congruence).
    split; [done|]. split.
    - rewrite <- (pr_header _ _ _ Hp). apply header_read_sector, Hs', header_part.
    - destruct (pr_disk _ _ _ Hp) as (b & Hb & Hf). exists b. split; [|done]. rewrite <- Hb. apply bam_read_sector. intros l Hl. by apply Hs', map_part.
  Qed.
End durable.

Lemma start_progress t d c :
  dev_shape t d -> holds_bytes d -> d_writable d = true -> w_bam (open_world t d) = Some c ->
  progress t d c (fun _ => False) (fun _ => False) (open_world t d).
Proof.
  intros Hd Hb Hw Hc. destruct (open_cases t d Hd) as (_ & Hdev & [(_ & _ & _ & H)|(h & b & _ & Hrd & H & Hop)]); [congruence|].
  split; rewrite ?Hdev; try done.
  - destruct (op_bam _ _ _ _ _ Hop) as (c' & Hc' & Hcell). replace c with c' by congruence. eexists. split; [exact Hcell|]. split; [|done].
    destruct (read_shape t d b Hd Hb Hrd) as [_ H2 H3 H4]. split; cbn; [by eexists|done|done|done].
  - by exists b.
Qed.

Lemma reopened_map t d d' b :
  dev_shape t d -> dev_shape t d' -> w_bam (open_world t d) <> None -> header_read d' (hf t) = header_read d (hf t) ->
  bam_read d' (native_format t) = Ok b ->
  exists b', current_map (open_world t d') = Ok b' /\ forall l, is_free b' l <-> is_free b l.
Proof.
  intros Hd Hd' Hn Hh Hb.
  destruct (open_cases t d Hd) as (_ & _ & [(_ & _ & _ & H)|(h & b0 & Hh0 & _)]); [congruence|].
  destruct (open_cases t d' Hd') as (_ & _ & [(Hno & _)|(h' & b' & _ & Hrd & H & Hop)]); [by rewrite Hh, Hh0 in Hno; destruct (Hno h)|].
  rewrite Hb in Hrd. apply Ok_inj in Hrd. subst b'. destruct (op_bam _ _ _ _ _ Hop) as (c & Hc & Hcell).
  eexists. split; [unfold current_map, w_get_bam; rewrite Hc; cbn [rbind]; unfold cell; rewrite Hcell; reflexivity|]. done.
Qed.

Lemma vlir_entry t d e l j b : dev_shape t d -> stored d e l j b -> de_scheme e = SGEOSVLIR -> entry_is_vlir e = Ok true.
Proof.
  intros Hd (Hs & Hj & border & e0 & Hp & -> & _) Hsc. unfold dirent_parse in Hp. destruct (negb _); [done|]. apply Ok_inj in Hp. subst e0.
  cbn [set_border de_scheme] in Hsc. unfold entry_is_vlir. cbn [set_border de_extra]. rewrite Hsc. cbn [extra_from_bytes].
  unfold entry_scheme in Hsc. destruct (decide _); [done|]. destruct (is_entry_geos _); [|done].
  destruct (is_entry_vlir _) eqn:Ev; [|done]. unfold is_entry_vlir in Ev. apply Nat.eqb_eq in Ev.
  unfold EXTRA_SIZE. rewrite lookup_total_slice by lia. rewrite Ev. done.
Qed.
Lemma chain_head_link d s ls b : sound_chain d s ls -> sector d s = Ok b -> pair_at b 0 <> (0, 0).
Proof.
  intros (_ & Hh & Hp & l & e & Hl & He) Hb H0. unfold pair_at in H0. change (2 * 0) with 0 in H0. cbn [Nat.add] in H0. injection H0 as E0 E1.
  destruct ls as [|x [|y ls]]; [done|..]; injection Hh as ->.
  - injection Hl as ->. destruct He as (b' & Hb' & _ & H1 & Hne). rewrite Hb in Hb'. apply Ok_inj in Hb'. subst. done.
  - destruct (Hp 0 s y eq_refl eq_refl) as (b' & Hb' & H0 & _ & Hne). rewrite Hb in Hb'. apply Ok_inj in Hb'. subst. congruence.
Qed.
Lemma slots_in_records b p :
  length b = 256 -> pair_at b 0 <> (0, 0) -> In p (index_slots b) -> present p = true -> In p (somes (index_records (pairs b))).
Proof.
  intros Hl H0 Hp Hpr. rewrite index_records_map, index_pairs by done. cbn [until_end]. rewrite bool_decide_false by done.
  change (until_end (map (pair_at b) (seq 1 127))) with (index_slots b). cbn [map].
  assert (In p (somes (map slot_start (index_slots b)))) as H.
  { induction (index_slots b) as [|q qs IH]; [done|]. cbn [map]. destruct Hp as [->|Hp].
    - unfold slot_start at 1. rewrite Hpr. by left.
    - destruct (slot_start q); cbn [somes]; [right|]; by apply IH. }
  destruct (slot_start (pair_at b 0)); cbn [somes]; [by right|done].
Qed.

(** The sectors of a file that its deletion frees in the image. *)
Theorem delete_durable t d name f w' :
  dev_shape t d -> holds_bytes d -> d_writable d = true ->
  open_file (open_world t d) name = Ok f -> file_delete f (open_world t d) = (w', Ok tt) ->
  (forall p, de_pos (file_entry f) = Some p -> ~ header_or_map t (p_loc p)) ->
  (forall info s ft y mo da ho mi, de_extra (file_entry f) = XGEOS info s ft y mo da ho mi -> info = (0, 0) \/ bam_sector t info) ->
  exists b, current_map (open_world t (w_dev w')) = Ok b
    /\ (forall ls l, sound_chain d (de_first (file_entry f)) ls -> In l ls -> is_free b l)
    /\ (de_scheme (file_entry f) = SGEOSVLIR ->
        forall index, sector d (de_first (file_entry f)) = Ok index ->
          (forall p ls l, In p (index_slots index) -> present p = true -> sound_chain d p ls ->
             (forall l', In l' ls -> ~ header_or_map t l') -> In l ls -> is_free b l)
          /\ (forall info s ft y mo da ho mi, de_extra (file_entry f) = XGEOS info s ft y mo da ho mi -> info <> (0, 0) ->
                (exists p, In p (index_slots index) /\ present p = true) -> is_free b info)).
Proof.
  intros Hd Hby Hw Ho Hdel Hpos Hi. destruct (open_parts t d name f Hd Ho) as (c & l & j & sb & Hc & Hst & Hf).
  pose proof (start_progress t d c Hd Hby Hw Hc) as P0. pose proof (deleted_fits _ (stored_fits _ _ _ _ _ _ Hd Hst)) as He.
  destruct (open_cases t d Hd) as (_ & Hdev & _).
  destruct He as [(pl & off & Hp & Hoff) He2].
  assert (entry_fits (deleted_entry (file_entry f))) as Hfit by (split; [by exists pl, off|done]).
  specialize (Hpos _ Hp). cbn [p_loc] in Hpos.
  assert (forall F G w, progress t d c F G w -> on_dev (positioned_write (deleted_entry (file_entry f))) w = (w', Ok tt) ->
    exists b, current_map (open_world t (w_dev w')) = Ok b /\ forall l, G l -> is_free b l) as Hend.
  { intros F G w P E. destruct (progress_entry t d c F G w w' tt _ _ P Hp Hpos Hfit E) as (A & B & b & C & D).
    destruct (reopened_map t d (w_dev w') b Hd A) as (b' & E1 & E2); [congruence|done|done|]. exists b'. split; [done|]. intros x Hx. by apply E2, D. }
  assert (forall s ls ls', sound_chain (w_dev (open_world t d)) s ls -> sound_chain d s ls' -> ls' = ls) as Huniq.
  { intros s ls ls' H1 H2. rewrite Hdev in H1. by apply (sound_unique t d s). }
  destruct (stored_extra t d _ l j sb Hd Hst) as [_ HG].
  assert (forall r, gf_bam r = c -> gf_entry r = file_entry f -> geos_delete r (open_world t d) = (w', Ok tt) ->
    (exists info s ft y mo da ho mi, de_extra (file_entry f) = XGEOS info s ft y mo da ho mi) ->
    exists b, current_map (open_world t (w_dev w')) = Ok b
    /\ (forall ls l, sound_chain d (de_first (file_entry f)) ls -> In l ls -> is_free b l)
    /\ (exists ls, sound_chain d (de_first (file_entry f)) ls)
    /\ (forall rs, gf_vlir r = Some rs ->
          (forall x, record_sector t d (somes rs) x -> is_free b x)
          /\ (forall info s ft y mo da ho mi, de_extra (file_entry f) = XGEOS info s ft y mo da ho mi -> info <> (0, 0) ->
                somes rs <> [] -> is_free b info))) as Hgeos.
  { clear Hdel Hf. intros r Hr1 Hr2 Hdel (info & s & ft & y & mo & da & ho & mi & Hx). unfold geos_delete in Hdel. rewrite Hr1, Hr2 in Hdel.
    unfold sbind at 1 in Hdel. destruct (remove_chain c (de_first (file_entry f)) (open_world t d)) as [w1 [[]| | |]] eqn:E1; [|done..].
    destruct (progress_remove t d c _ _ _ _ _ _ P0 E1) as (ls & Hls & P1).
    unfold entry_info_location in Hdel. rewrite Hx in Hdel. unfold sbind at 1, lift at 1 in Hdel.
    set (il := if _ && _ then None else Some info) in Hdel.
    assert (il = if bool_decide (info = (0, 0)) then None else Some info) as Hil.
    { unfold il. destruct info as [it is]. cbn [fst snd]. destruct (Nat.eqb_spec it 0), (Nat.eqb_spec is 0); cbn [andb]; case_bool_decide as E; try done; try congruence; exfalso; apply E; congruence. }
    clearbody il. unfold sbind at 1 in Hdel.
    match type of Hdel with (match ?m with _ => _ end) = _ => destruct m as [w2 [[]| | |]] eqn:E2; [|done..] end.
    assert (progress t d c (fun x => (False \/ In x ls) \/ (il = Some x)) (fun x => False \/ In x ls) w2) as P2.
    { destruct il as [i'|].
      - eapply progress_less; [eapply progress_release; [exact P1| |exact E2]|..].
        + destruct (Hi _ _ _ _ _ _ _ _ Hx) as [->|[Hb1 Hb2]]; [by rewrite bool_decide_true in Hil|]. case_bool_decide; [done|].
          injection Hil as ->. apply (valid_loc_on_disk t); [apply Hd|]. by apply (bam_sector_valid t).
        + intros x [?|[= ->]]; tauto.
        + done.
      - injection E2 as <-. eapply progress_less; [exact P1| |done]. intros x [?|?]; [done|done]. }
    unfold sbind at 1 in Hdel. match type of Hdel with (match ?m with _ => _ end) = _ => destruct m as [w3 [[]| | |]] eqn:E3; [|done..] end.
    destruct (gf_vlir r) as [rs|].
    - pose proof (progress_records t d c _ _ _ _ _ _ P2 ltac:(tauto) E3) as P3. destruct (Hend _ _ _ P3 Hdel) as (b & Hb1 & Hb2).
      exists b. split; [done|]. split.
      + intros ls' x Hls' Hx'. apply Hb2. left. right. by rewrite <- (Huniq _ _ _ Hls Hls').
      + split; [exists ls; by rewrite Hdev in Hls|]. intros rs' [= <-]. split.
        * intros x Hx'. apply Hb2. tauto.
        * intros info' ? ? ? ? ? ? ? Hx' Hne Hrs. rewrite Hx in Hx'. injection Hx' as <-. apply Hb2. right. right. split; [done|].
          right. by rewrite Hil, bool_decide_false.
    - injection E3 as <-. destruct (Hend _ _ _ P2 Hdel) as (b & Hb1 & Hb2). exists b. split; [done|]. split; [|split; [exists ls; by rewrite Hdev in Hls|done]].
      intros ls' x Hls' Hx'. apply Hb2. right. by rewrite <- (Huniq _ _ _ Hls Hls'). }
  destruct f as [c' e|r|r|r]; cbn [file_entry file_delete] in *.
  - destruct Hf as [-> Hs]. unfold linear_delete in Hdel. unfold sbind at 1 in Hdel.
    destruct (remove_chain c (de_first e) (open_world t d)) as [w1 [[]| | |]] eqn:E1; [|done..].
    destruct (progress_remove t d c _ _ _ _ _ _ P0 E1) as (ls & Hls & P1). destruct (Hend _ _ _ P1 Hdel) as (b & Hb1 & Hb2).
    exists b. split; [done|]. split; [|congruence]. intros ls' x Hls' Hx. apply Hb2. right. by rewrite <- (Huniq _ _ _ Hls Hls').
  - destruct Hf as [Hr Hs]. destruct (rel_new_parts t d c _ r Hd Hr) as (H1 & _ & H3). unfold rel_delete in Hdel. rewrite H1 in Hdel. unfold sbind at 1 in Hdel.
    destruct (remove_chain c (de_first (rf_entry r)) (open_world t d)) as [w1 [[]| | |]] eqn:E1; [|done..].
    destruct (progress_remove t d c _ _ _ _ _ _ P0 E1) as (ls & Hls & P1). unfold sbind at 1 in Hdel.
    match type of Hdel with (match ?m with _ => _ end) = _ => destruct m as [w2 [[]| | |]] eqn:E2; [|done..] end.
    pose proof (progress_each t d c _ _ _ _ _ _ P1 H3 E2) as P2. destruct (Hend _ _ _ P2 Hdel) as (b & Hb1 & Hb2).
    exists b. split; [done|]. split; [|congruence]. intros ls' x Hls' Hx. apply Hb2. right. by rewrite <- (Huniq _ _ _ Hls Hls').
  - destruct Hf as [Hr Hs]. destruct (Hgeos r) as (b & Hb1 & Hb2 & _); [by eapply geos_new_bam|done|done|apply HG; by left|].
    exists b. split; [done|]. split; [done|congruence].
  - destruct Hf as [Hr Hs]. destruct (Hgeos r) as (b & Hb1 & Hb2 & (cls & Hcls) & Hb3); [by eapply geos_new_bam|done|done|apply HG; by right|].
    exists b. split; [done|]. split; [done|]. intros _ index Hix.
    unfold geos_new in Hr. rewrite (vlir_entry t d _ l j sb Hd Hst Hs) in Hr. cbn [rbind] in Hr.
    rewrite Hix in Hr. cbn [rbind] in Hr. apply Ok_inj in Hr. assert (gf_vlir r = Some (index_records (pairs index))) as Hv by (by rewrite <- Hr).
    destruct (Hb3 _ Hv) as [H1 H2].
    assert (forall p, In p (index_slots index) -> present p = true -> In p (somes (index_records (pairs index)))) as Hin.
    { intros p. apply slots_in_records; [by eapply sector_Ok_length|by eapply chain_head_link]. }
    split.
    + intros p ls x Hp1 Hp2 Hls Hn Hx. apply H1. exists p, ls. split; [by apply Hin|done].
    + intros info s ft y mo da ho mi Hx Hne (p & Hp1 & Hp2). eapply H2; [done|done|]. specialize (Hin p Hp1 Hp2). by destruct (somes _).
Qed.
