(** Creating and deleting files on damaged images: when that can panic. *)
From Verif Require Import Base ListFacts Layout Block Bam Format Petscii GeosTypes DirEntry Header World Chain Directory Writer Rel GeosFile
  File Validate Spec SpecCodec SpecChain SpecBam SpecFiles GeomFacts DevFacts CodecProofs EntryProofs BamProofs ChainProofs AllocProofs AllocAny
  View Dirs SpecValidate Opening Session SpecDisk RelProofs SectorProofs AnyDir Robust DemoImages.

(** A disk with a map of the right size, whatever the image holds. *)
Record world_ok (t : disk_type) (g : geometry) (c : nat) (w : world) : Prop := {
  ok_shape : dev_shape t (w_dev w);
  ok_geom : d_geom (w_dev w) = g;
  ok_cell : exists b, w_cells w !! c = Some b /\ bam_frame t b;
  ok_open : w_bam w = Some c /\ exists ge, w_fmt w = Some (set_geos ge (native_format t))
}.

Lemma open_ok t d c : dev_shape t d -> w_bam (open_world t d) = Some c -> world_ok t (d_geom d) c (open_world t d).
Proof.
  intros Hd Hc. destruct (open_cases t d Hd) as (_ & Hdev & [(_ & _ & _ & H)|(h & b & _ & Hb & H & Hop)]); [congruence|].
  split; [by rewrite Hdev|by rewrite Hdev| |].
  - destruct (op_bam _ _ _ _ _ Hop) as (c' & Hc' & Hcell). replace c with c' by congruence. eexists. split; [exact Hcell|]. split.
    + by eexists.
    + unfold bam_read in Hb. destruct (bam_read_sections d _); [|done..]. apply Ok_inj in Hb. by subst b.
    + apply (op_entries _ _ _ _ _ Hop).
  - split; [done|]. eexists. apply (op_fmt _ _ _ _ _ Hop).
Qed.

(** [m] ends with a value in [Q] or an error, and keeps the disk in order. *)
Definition result_in {A} (Q : A -> Prop) (r : res A) : Prop := match r with Ok a => Q a | Err _ => True | _ => False end.
Definition calm (t : disk_type) (g : geometry) (c : nat) {A} (m : st world A) (Q : A -> Prop) : Prop :=
  forall w, world_ok t g c w -> world_ok t g c (fst (m w)) /\ result_in Q (snd (m w)).
Definition calm_dev (t : disk_type) (g : geometry) {A} (m : st dev A) (Q : A -> Prop) : Prop :=
  forall d, dev_shape t d -> d_geom d = g -> dev_shape t (fst (m d)) /\ d_geom (fst (m d)) = g /\ result_in Q (snd (m d)).

Section calm.
  Context (t : disk_type) (g : geometry) (c : nat).
  Notation calm := (calm t g c).

  Lemma calm_bind {A B} (m : st world A) (f : A -> st world B) Q R :
    calm m Q -> (forall a, Q a -> calm (f a) R) -> calm (sbind m f) R.
  Proof.
    intros Hm Hf w Hw. destruct (Hm w Hw) as [H1 H2]. unfold sbind. destruct (m w) as [w' [a| | |]]; cbn [fst snd result_in] in *; try done.
    by apply Hf.
  Qed.
  Lemma calm_ret {A} (a : A) (Q : A -> Prop) : Q a -> calm (ret a) Q. Proof. by intros H w. Qed.
  Lemma calm_fail {A} e Q : calm (fail (A := A) e) Q. Proof. by intros w. Qed.
  Lemma calm_lift {A} (r : res A) (Q : A -> Prop) : result_in Q r -> calm (lift r) Q. Proof. by intros H w. Qed.
  Lemma calm_asks {A} (f : world -> res A) Q : (forall w, world_ok t g c w -> result_in Q (f w)) -> calm (asks f) Q.
  Proof. intros H w Hw. split; [done|by apply H]. Qed.
  Lemma calm_for {X} (body : X -> st world unit) xs :
    (forall x, In x xs -> calm (body x) (fun _ => True)) -> calm (for_each body xs) (fun _ => True).
  Proof.
    induction xs as [|x xs IH]; intros H; [by apply calm_ret|]. cbn [for_each]. eapply calm_bind; [by apply H; left|].
    intros _ _. apply IH. intros y Hy. apply H. by right.
  Qed.
  Lemma calm_on_dev {A} (m : st dev A) Q : calm_dev t g m Q -> calm (on_dev m) Q.
  Proof.
    intros H w [H1 H2 H3 H4]. unfold on_dev, zoom. destruct (H (w_dev w) H1 H2) as (A1 & A2 & A3). destruct (m (w_dev w)) as [d r]. cbn [fst snd] in *.
    split; [|done]. by split.
  Qed.
  Lemma calm_update f :
    (forall b, bam_frame t b -> exists b', f b = Ok b' /\ bam_frame t b') -> calm (update_cell c f) (fun _ => True).
  Proof.
    intros H w [H1 H2 (b & Hb & Hf) H4]. destruct (H b Hf) as (b' & E & Hf'). unfold update_cell, sbind, asks, lift, cell. rewrite Hb, E.
    cbn [modify fst snd]. split; [|done]. split; [done|done| |done]. exists b'. split; [|done]. cbn [w_cells set_cell].
    apply list_lookup_insert. by eapply lookup_lt_Some.
  Qed.

  Lemma dev_sector_mut l f : (forall b, length b = 256 -> length (f b) = 256) -> calm_dev t g (sector_mut l f) (fun _ => True).
  Proof.
    intros Hf d Hd Hg. destruct (d_writable d) eqn:Hw; [|rewrite sector_mut_ro by done; done].
    destruct (sector_cases t d l Hd) as [(b & Hb & Hl & _)|[_ Hv]].
    - rewrite (sector_mut_upd d l f b Hw Hb). cbn [fst snd]. split; [apply upd_shape; [done|by apply Hf]|done].
    - rewrite (sector_mut_invalid t) by done. done.
  Qed.
  Lemma dev_bind {A B} (m : st dev A) (f : A -> st dev B) Q R :
    calm_dev t g m Q -> (forall a, Q a -> calm_dev t g (f a) R) -> calm_dev t g (sbind m f) R.
  Proof.
    intros Hm Hf d Hd Hg. destruct (Hm d Hd Hg) as (H1 & H2 & H3). unfold sbind. destruct (m d) as [d' [a| | |]]; cbn [fst snd result_in] in *; try done.
    by apply Hf.
  Qed.
  Lemma dev_asks {A} (f : dev -> res A) Q : (forall d, dev_shape t d -> d_geom d = g -> result_in Q (f d)) -> calm_dev t g (asks f) Q.
  Proof. intros H d Hd Hg. split; [done|]. split; [done|by apply H]. Qed.
  Lemma dev_ret {A} (a : A) (Q : A -> Prop) : Q a -> calm_dev t g (ret a) Q. Proof. by intros H d. Qed.
  Lemma dev_sector l : calm_dev t g (asks (fun d => sector d l)) (fun b => length b = 256).
  Proof. apply dev_asks. intros d Hd _. destruct (sector_cases t d l Hd) as [(b & -> & Hl & _)|[-> _]]; done. Qed.

  Lemma dev_flush b : bam_frame t b -> calm_dev t g (bam_flush b) (fun _ => True).
  Proof.
    intros Hb. unfold bam_flush, check_validity. rewrite (bf_valid _ _ Hb). eapply dev_bind with (Q := fun _ => True); [by intros d|]. intros _ _.
    destruct (bf_fmt _ _ Hb) as [ge ->]. change (bam_sections (set_geos ge (native_format t))) with (bam_sections (native_format t)).
    pose proof (sections_tracks t) as Htr. pose proof (bf_length _ _ Hb) as Hlen. rewrite <- Htr in Hlen.
    pose proof (sections_ok t) as Hok.
    assert (forall ss prev, Forall (section_ok t) ss -> prev + bam_tracks ss <= length (b_entries b) ->
              calm_dev t g (bam_write_sections ss prev (b_entries b)) (fun _ => True)) as H; [|apply H; [done|lia]].
    clear. induction ss as [|s ss IH]; intros prev Hok Hle; cbn [bam_write_sections]; [by apply dev_ret|].
    apply Forall_cons in Hok as [Hs Hok]. change (bam_tracks (s :: ss)) with (bs_tracks s + bam_tracks ss) in Hle.
    eapply dev_bind with (Q := fun _ => True); [|intros _ _; apply IH; [done|lia]]. unfold bam_write_section.
    eapply dev_bind; [apply dev_sector|]. intros block Hbl. cbn beta in Hbl. destruct (Nat.ltb_spec (length (b_entries b)) (prev + bs_tracks s)); [lia|].
    assert (forall x, length x = 256 -> length (render_bitmaps s prev (b_entries b) x) = 256) as Hrb.
    { intros x Hx. unfold render_bitmaps. destruct (fold_splice (fun i => bitmap_bytes (bs_bitmap_size s) (e_map (b_entries b !!! (prev + i))))
        (bs_bitmap_offset s) (bs_bitmap_stride s) (bs_bitmap_size s) (bs_tracks s) x) as (E & _); try apply Hs; try lia.
      - intros i. generalize (e_map (b_entries b !!! (prev + i))). clear. induction (bs_bitmap_size s) as [|n IH]; intros m; cbn [bitmap_bytes length]; [done|by rewrite IH].
      - rewrite Hx. apply Hs. }
    assert (forall x, length x = 256 -> length (render_counts s prev (b_entries b) x) = 256) as Hrc.
    { intros x Hx. unfold render_counts. destruct (fold_splice (fun i => [e_free (b_entries b !!! (prev + i))])
        (bs_free_offset s) (bs_free_stride s) 1 (bs_tracks s) x) as (E & _); try apply Hs; try lia; [done|]. rewrite Hx. apply Hs. }
    eapply dev_bind with (Q := fun b => length b = 256).
    - destruct (decide _); [apply dev_ret; by apply Hrb|]. eapply dev_bind; [apply dev_sector_mut|intros _ _; apply dev_sector].
      intros _ _. by apply Hrb.
    - intros x Hx. cbn beta in Hx. apply dev_sector_mut. intros _ _. by apply Hrc.
  Qed.
  Lemma calm_flush : calm (flush_cell c) (fun _ => True).
  Proof.
    eapply calm_bind with (Q := bam_frame t).
    - apply calm_asks. intros w [_ _ (b & Hb & Hf) _]. unfold cell. by rewrite Hb.
    - intros b Hb. by apply calm_on_dev, dev_flush.
  Qed.

  (** Entries that can be written back. *)
  Definition extra_fits (x : extra) : Prop :=
    match x with XLinear u => length u = 9 | XRelative _ _ u => length u = 6 | XGEOS _ _ _ _ _ _ _ _ => True end.
  Definition entry_fits (e : dirent) : Prop :=
    (exists l off, de_pos e = Some (mk_position l off 32) /\ off + 32 <= 256) /\ length (de_name e) <= 16 /\ extra_fits (de_extra e).
  Lemma extra_fits_bytes x bytes : extra_fits x -> length bytes = 9 -> exists y, extra_to_bytes x bytes = Ok y /\ length y = 9.
  Proof.
    intros Hx Hb. destruct x as [u|side len u|]; cbn [extra_fits extra_to_bytes] in *.
    - rewrite Hx. by exists u.
    - rewrite Hx. cbn [Nat.eqb]. eexists. split; [done|]. rewrite !length_splice; rewrite ?length_splice; cbn [length]; lia.
    - by eexists.
  Qed.
  Lemma dev_positioned e : entry_fits e -> calm_dev t g (positioned_write e) (fun _ => True).
  Proof.
    intros ((l & off & Hp & Ho) & Hn & Hx) d Hd Hg. unfold positioned_write. rewrite Hp. unfold check_writability.
    destruct (d_writable d) eqn:Hw; cbn [rbind]; [|done]. cbn [p_loc p_off p_size].
    destruct (sector_cases t d l Hd) as [(b & Hb & Hl & _)|[-> _]]; [|done]. rewrite Hb. cbn [rbind].
    destruct (Nat.ltb_spec (length b) (off + 32)); [lia|].
    assert (length (slice off 32 b) = 32) as Hs by (rewrite length_slice; lia).
    assert (length (slice 21 9 (slice off 32 b)) = 9) as Hs9 by (rewrite length_slice; lia).
    destruct (padded_roundtrip' _ Hn) as (name & Hname & Hln & _).
    destruct (extra_fits_bytes _ _ Hx Hs9) as (y & Hy & Hly).
    rewrite (dirent_to_bytes_eq e (slice off 32 b) name y Hs Hname Hln Hy Hly).
    apply dev_sector_mut; [|done|done]. intros b' Hb'. rewrite length_splice; [done|]. unfold entry_bytes. rewrite !app_length, Hln, Hly. cbn [length]. lia.
  Qed.
End calm.

(** ** Deleting *)

Lemma stored_fits t d e l j b : dev_shape t d -> stored d e l j b -> entry_fits e.
Proof.
  intros Hd (Hs & Hj & border & e0 & Hp & -> & _). pose proof (sector_Ok_length t d l b Hd Hs) as Hl. unfold dirent_parse in Hp.
  assert (length (slice (32 * j) 32 b) = 32) as H32 by (rewrite length_slice; lia).
  destruct (negb _); [done|]. apply Ok_inj in Hp. subst e0. split; [|split]; cbn [set_border de_pos de_name de_extra].
  - exists l, (32 * j). split; [done|lia].
  - pose proof (padded_value (slice 5 16 (slice (32 * j) 32 b)) PADDING_BYTE) as E%(f_equal length).
    rewrite app_length, repeat_length, length_slice in E by lia. change ENTRY_FILENAME_OFFSET with 5. change ENTRY_FILENAME_LENGTH with 16. lia.
  - change ENTRY_EXTRA_OFFSET with 21. change EXTRA_SIZE with 9. assert (length (slice 21 9 (slice (32 * j) 32 b)) = 9) as H9 by (rewrite length_slice; lia).
    revert H9. generalize (slice 21 9 (slice (32 * j) 32 b)). intros x Hx. destruct (entry_scheme _ _); cbn [extra_from_bytes extra_fits]; try done.
    by rewrite length_slice, ?Hx by lia.
Qed.
Lemma deleted_fits e : entry_fits e -> entry_fits (deleted_entry e). Proof. done. Qed.

Definition covered (t : disk_type) (l : location) : Prop := 1 <= fst l <= spec_tracks t /\ snd l < 64.
Lemma on_disk_covered t l : on_disk t (spec_tracks t) l -> covered t l.
Proof. intros [H1 H2]. split; [done|]. pose proof (spec_sectors_bounds t (fst l) H1). lia. Qed.

Section deleting.
  Context (t : disk_type) (g : geometry) (c : nat) (Hg : g_tracks g = spec_tracks t).

  Lemma calm_release l : covered t l -> calm t g c (update_cell c (fun b => bam_free b l)) (fun _ => True).
  Proof.
    intros [H1 H2]. apply calm_update. intros b Hb. destruct (free_any t b l Hb H1 H2) as (b' & H & Hf & _). by exists b'.
  Qed.
  Lemma calm_remove s : calm t g c (remove_chain c s) (fun _ => True).
  Proof.
    unfold remove_chain. eapply calm_bind with (Q := Forall (covered t)).
    - apply calm_asks. intros w [Hd Hge _ _]. unfold chain_locations.
      destruct (chain_traversal t (w_dev w) s Hd) as (ss & r & Ew & _ & _ & Hon & _). rewrite Ew. rewrite Hge, Hg in Hon.
      destruct (walk_end_ended t _ _ _ _ Hd Ew) as [[->|[x ->]] _]; [|done]. cbn [rbind result_in].
      eapply Forall_impl; [exact Hon|]. apply on_disk_covered.
    - intros ls Hls. eapply calm_bind with (Q := fun _ => True).
      + apply calm_for. intros l Hl%elem_of_list_In. rewrite Forall_forall in Hls. by apply calm_release, Hls.
      + intros _ _. apply calm_flush.
  Qed.
  Lemma calm_entry e : entry_fits e -> calm t g c (on_dev (positioned_write (deleted_entry e))) (fun _ => True).
  Proof. intros H. by apply calm_on_dev, dev_positioned, deleted_fits. Qed.

  Lemma calm_linear e : entry_fits e -> calm t g c (linear_delete c e) (fun _ => True).
  Proof. intros H. eapply calm_bind; [apply calm_remove|]. intros _ _. by apply calm_entry. Qed.
  Lemma calm_rel f : rf_bam f = c -> entry_fits (rf_entry f) -> Forall (covered t) (rf_side_sectors f) -> calm t g c (rel_delete f) (fun _ => True).
  Proof.
    intros Hc He Hs. unfold rel_delete. rewrite Hc. eapply calm_bind; [apply calm_remove|]. intros _ _.
    eapply calm_bind; [|intros _ _; by apply calm_entry]. apply calm_for. intros l Hl%elem_of_list_In. rewrite Forall_forall in Hs. by apply calm_release, Hs.
  Qed.
  Lemma calm_geos f info s ft y mo da ho mi :
    gf_bam f = c -> entry_fits (gf_entry f) -> de_extra (gf_entry f) = XGEOS info s ft y mo da ho mi ->
    info = (0, 0) \/ covered t info -> calm t g c (geos_delete f) (fun _ => True).
  Proof.
    intros Hc He Hx Hi. unfold geos_delete. rewrite Hc. eapply calm_bind; [apply calm_remove|]. intros _ _.
    eapply calm_bind with (Q := fun il => match il with Some l => covered t l | None => True end).
    { apply calm_lift. unfold entry_info_location. rewrite Hx. cbn [result_in]. destruct Hi as [->|Hi]; [done|]. by destruct (_ && _). }
    intros il Hil. eapply calm_bind with (Q := fun _ => True).
    { destruct il; [by apply calm_release|by apply calm_ret]. }
    intros _ _. eapply calm_bind with (Q := fun _ => True); [|intros _ _; by apply calm_entry].
    destruct (gf_vlir f) as [vs|]; [|by apply calm_ret]. apply calm_for. intros x _. apply calm_remove.
  Qed.
End deleting.

Lemma side_loop_sides ss r sides lists datas :
  side_loop ss r = Ok (sides, lists, datas) -> sides = map cs_location ss /\ r = Ok tt.
Proof.
  revert sides lists datas. induction ss as [|s ss IH]; intros sides lists datas; cbn [side_loop].
  - destruct r as [[]| | |]; [|done..]. by intros [= <- _ _].
  - destruct (_ <? _); [done|]. destruct (link_new _); [|done..]. cbn [rbind]. destruct (_ || _); [done|].
    destruct (side_loop ss r) as [[[sa sb] sd]| | |]; [|done..]. cbn [rbind]. intros [= <- _ _]. destruct (IH sa sb sd eq_refl) as [-> ->]. done.
Qed.
Lemma rel_new_parts t d c e f :
  dev_shape t d -> rel_new d c e = Ok f ->
  rf_bam f = c /\ rf_entry f = e /\ Forall (on_disk t (g_tracks (d_geom d))) (rf_side_sectors f).
Proof.
  intros Hd. unfold rel_new. destruct (de_extra e) as [|side len u|]; [done| |done]. cbn [rbind].
  destruct (chain_traversal t d side Hd) as (ss & r & -> & _ & _ & Hon & _).
  destruct (side_loop ss r) as [[[sides lists] datas]| | |] eqn:E; [|done..]. cbn [rbind].
  destruct (side_loop_sides _ _ _ _ _ E) as [-> _]. intros H.
  destruct (_ <? _); [done|]. destruct (negb _); [done|].
  match type of H with (let? _ := ?x in _) = _ => destruct x as [n| | |] end; [|done..]. cbn [rbind] in H. repeat (case_match; try done).
  apply Ok_inj in H. by subst f.
Qed.

Lemma open_parts t d name f :
  dev_shape t d -> open_file (open_world t d) name = Ok f ->
  exists c l j b, w_bam (open_world t d) = Some c /\ stored d (file_entry f) l j b
    /\ match f with
       | FLinear c' _ => c' = c /\ de_scheme (file_entry f) = SLinear
       | FRelative r => rel_new d c (file_entry f) = Ok r /\ de_scheme (file_entry f) = SRelative
       | FGEOSSequential r => geos_new d c (file_entry f) = Ok r /\ de_scheme (file_entry f) = SGEOSSequential
       | FGEOSVLIR r => geos_new d c (file_entry f) = Ok r /\ de_scheme (file_entry f) = SGEOSVLIR
       end.
Proof.
  intros Hd Ho. destruct (open_cases t d Hd) as (_ & Hdev & _).
  assert (dev_shape t (w_dev (open_world t d))) as Hd' by by rewrite Hdev.
  unfold open_file in Ho. destruct (w_find (open_world t d) name) as [e| | |] eqn:Ef; [|done..]. cbn [rbind] in Ho.
  destruct (find_stored t _ name e Hd' Ef) as (_ & _ & l & j & b & Hst). rewrite Hdev in Hst.
  unfold open_file_from_entry, w_get_bam in Ho. rewrite Hdev in Ho. destruct (w_bam (open_world t d)) as [c|]; [|done]. cbn [rbind] in Ho.
  exists c, l, j, b. split; [done|]. destruct (de_scheme e) eqn:Es.
  - apply Ok_inj in Ho. by subst f.
  - destruct (rel_new d c e) as [r| | |] eqn:Er; [|done..]. apply Ok_inj in Ho. subst f. cbn [file_entry].
    destruct (rel_new_parts t d c e r Hd Er) as (_ & -> & _). done.
  - destruct (geos_new d c e) as [r| | |] eqn:Er; [|done..]. apply Ok_inj in Ho. subst f. cbn [file_entry].
    assert (gf_entry r = e) as ->; [|done]. unfold geos_new in Er. destruct (entry_is_vlir e) as [[]| | |]; [|..]; try done; cbn [rbind] in Er.
    + destruct (sector d (de_first e)); [|done..]. apply Ok_inj in Er. by subst r.
    + apply Ok_inj in Er. by subst r.
  - destruct (geos_new d c e) as [r| | |] eqn:Er; [|done..]. apply Ok_inj in Ho. subst f. cbn [file_entry].
    assert (gf_entry r = e) as ->; [|done]. unfold geos_new in Er. destruct (entry_is_vlir e) as [[]| | |]; [|..]; try done; cbn [rbind] in Er.
    + destruct (sector d (de_first e)); [|done..]. apply Ok_inj in Er. by subst r.
    + apply Ok_inj in Er. by subst r.
Qed.
Lemma geos_new_bam d c e r : geos_new d c e = Ok r -> gf_bam r = c.
Proof.
  unfold geos_new. destruct (entry_is_vlir e) as [[]| | |]; [|..]; try done; cbn [rbind].
  - destruct (sector d (de_first e)); [|done..]. intros H%Ok_inj. by subst r.
  - intros H%Ok_inj. by subst r.
Qed.

Theorem delete_graceful t d name f :
  dev_shape t d -> g_tracks (d_geom d) = spec_tracks t -> open_file (open_world t d) name = Ok f ->
  (forall info s ft y mo da ho mi, de_extra (file_entry f) = XGEOS info s ft y mo da ho mi -> info = (0, 0) \/ covered t info) ->
  graceful (snd (file_delete f (open_world t d))).
Proof.
  intros Hd Hg Ho Hi. destruct (open_parts t d name f Hd Ho) as (c & l & j & b & Hc & Hst & Hf).
  pose proof (open_ok t d c Hd Hc) as W. pose proof (stored_fits _ _ _ _ _ _ Hd Hst) as He.
  destruct (stored_extra t d _ l j b Hd Hst) as [_ HG].
  assert (calm t (d_geom d) c (file_delete f) (fun _ => True)) as H; [|by destruct (H _ W) as [_ H2]; destruct (snd (file_delete f _))].
  destruct f as [c' e|r|r|r]; cbn [file_delete file_entry] in *.
  - destruct Hf as [-> _]. by apply calm_linear.
  - destruct Hf as [Hr _]. destruct (rel_new_parts t d c _ r Hd Hr) as (H1 & _ & H3). apply calm_rel; try done.
    eapply Forall_impl; [exact H3|]. rewrite Hg. apply on_disk_covered.
  - destruct Hf as [Hr Hs]. destruct HG as (info & s & ft & y & mo & da & ho & mi & Hx); [by left|].
    eapply calm_geos; try done; [by eapply geos_new_bam|by eapply Hi].
  - destruct Hf as [Hr Hs]. destruct HG as (info & s & ft & y & mo & da & ho & mi & Hx); [by right|].
    eapply calm_geos; try done; [by eapply geos_new_bam|by eapply Hi].
Qed.

(** On an image with more tracks than the map has: a file whose chain stays on
    the tracks of the map. *)
Theorem delete_linear_graceful t d name c e ls :
  dev_shape t d -> open_file (open_world t d) name = Ok (FLinear c e) ->
  sound_chain d (de_first e) ls -> (forall l, In l ls -> fst l <= spec_tracks t) ->
  graceful (snd (file_delete (FLinear c e) (open_world t d))).
Proof.
  intros Hd Ho Hls Hin. destruct (open_parts t d name _ Hd Ho) as (c' & l & j & b & Hc & Hst & -> & _). cbn [file_entry] in *.
  pose proof (open_ok t d c' Hd Hc) as W. pose proof (stored_fits _ _ _ _ _ _ Hd Hst) as He.
  cbn [file_delete]. unfold linear_delete, remove_chain.
  assert (Forall (covered t) ls) as Hcov.
  { pose proof (sound_valid t d _ _ Hd Hls) as Hv. rewrite Forall_forall in Hv |- *. intros x Hx. specialize (Hv x Hx).
    apply on_disk_covered. apply (valid_loc_on_disk t) in Hv as [H1 H2]; [|apply Hd]. split; [|done]. split; [lia|].
    apply Hin. by apply elem_of_list_In. }
  assert (chain_locations (w_dev (open_world t d)) (de_first e) = Ok ls) as El.
  { destruct (open_cases t d Hd) as (_ & -> & _). by apply (locations_sound t). }
  assert (calm t (d_geom d) c' (do_ (do_ (for_each (fun l => update_cell c' (fun b => bam_free b l)) ls) in flush_cell c') in
            on_dev (positioned_write (deleted_entry e))) (fun _ => True)) as H.
  { eapply calm_bind with (Q := fun _ => True); [|intros _ _; by apply calm_entry]. eapply calm_bind with (Q := fun _ => True); [|intros _ _; apply calm_flush].
    apply calm_for. intros x Hx%elem_of_list_In. rewrite Forall_forall in Hcov. by apply calm_release, Hcov. }
  destruct (H _ W) as [_ H2]. unfold sbind at 1 2, asks. rewrite El. unfold sbind at 1 in H2. by destruct (_ : res unit).
Qed.

(** ** Creating *)

(** The directory chain stays on the tracks of the map, and every sector of it
    holds whole slots. *)
Definition whole_directory (t : disk_type) (d : dev) : Prop :=
  forall l b, In l (map cs_location (fst (chain_walk d (first_dir t)))) -> sector d l = Ok b ->
    fst l <= spec_tracks t /\ (b !!! 0 = 0 -> (b !!! 1 + 1) mod 32 = 0).

Lemma parse_fits bytes l off :
  length bytes = 32 -> off + 32 <= 256 ->
  exists e, dirent_parse bytes (Some (mk_position l off 32)) = Ok e /\ de_pos e = Some (mk_position l off 32).
Proof. intros H Ho. unfold dirent_parse. rewrite H. cbn [Nat.eqb negb]. eexists. split; [reflexivity|done]. Qed.
Definition has_slot (e : dirent) : Prop := exists l off, de_pos e = Some (mk_position l off 32) /\ off + 32 <= 256.

Lemma slot_in_chunks l data fuel k off :
  length data <= 256 -> length data mod 32 = 0 -> (32 * k < length data -> off = 32 * k) ->
  exists r, free_slot_in_chunks l off (chunks_fuel fuel 32 (drop (32 * k) data)) = Ok r /\ (forall e, r = Some e -> has_slot e).
Proof.
  intros Hl Hm. revert k off. induction fuel as [|fuel IH]; intros k off Ho; [by exists None|].
  cbn [chunks_fuel]. destruct (drop (32 * k) data) as [|x rest] eqn:E; [by exists None|]. rewrite <- E.
  assert (32 * k < length data) as Hk.
  { assert (length (drop (32 * k) data) = length (x :: rest)) as H by (by rewrite E). rewrite drop_length in H. cbn in H. lia. }
  rewrite Ho by done. rewrite drop_drop. replace (32 * k + 32) with (32 * S k) by lia.
  cbn [free_slot_in_chunks]. change ENTRY_SIZE with 32.
  assert (length (take 32 (drop (32 * k) data)) = 32) as H32 by (rewrite take_length, drop_length; lia).
  destruct (parse_fits (take 32 (drop (32 * k) data)) l (32 * k) H32) as (e & -> & Hp); [lia|]. cbn [rbind].
  destruct (is_scratched (de_attr e)); [|apply IH; lia].
  exists (Some e). split; [done|]. intros e' [= <-]. exists l, (32 * k). split; [done|lia].
Qed.

Lemma slot_in_sectors ss r last :
  Forall (fun s => length (cs_data s) <= 256 /\ length (cs_data s) mod 32 = 0) ss -> ended r ->
  match free_slot_in_sectors last ss r with
  | Ok (inl e) => has_slot e
  | Ok (inr l) => r = Ok tt /\ List.last (map cs_location ss) last = l
  | Err _ => True
  | _ => False
  end.
Proof.
  intros H Hr. revert last. induction H as [|s ss [Hl Hm] _ IH]; intros last; cbn [free_slot_in_sectors].
  - destruct r as [[]| | |]; [done|done|by destruct Hr as [?|[]]|by destruct Hr as [?|[]]].
  - destruct (slot_in_chunks (cs_location s) (cs_data s) (length (cs_data s)) 0 0 Hl Hm) as (o & E & Ho); [lia|].
    rewrite Nat.mul_0_r, drop_0 in E. unfold chunks. change ENTRY_SIZE with 32. rewrite E. cbn [rbind].
    destruct o as [e|]; [by apply Ho|]. specialize (IH (cs_location s)). destruct (free_slot_in_sectors (cs_location s) ss r) as [[]| | |]; try done.
    destruct IH as [-> <-]. split; [done|]. cbn [map List.last]. destruct (map cs_location ss) as [|y ys] eqn:Ey; [done|].
    change (List.last (y :: ys) last = List.last (y :: ys) (cs_location s)).
    generalize (cs_location s). clear. revert y. induction ys as [|z zs IH]; intros y x; [done|]. apply (IH z x).
Qed.

Section creating.
  Context (t : disk_type) (g : geometry) (c : nat).

  Lemma calm_next_free w :
    world_ok t g c w -> whole_directory t (w_dev w) ->
    world_ok t g c (fst (next_free_directory_entry w)) /\ result_in has_slot (snd (next_free_directory_entry w)).
  Proof.
    intros W Hdir. pose proof (ok_open _ _ _ _ W) as (Hbam & ge & Hfmt). pose proof (ok_shape _ _ _ _ W) as Hd.
    set (P := fun x : world * res dirent => world_ok t g c (fst x) /\ result_in has_slot (snd x)). change (P (next_free_directory_entry w)).
    unfold next_free_directory_entry. unfold sbind at 1, asks at 1. unfold w_disk_format. rewrite Hfmt.
    change (first_directory_location (set_geos ge (native_format t))) with (first_directory_location (native_format t)).
    rewrite native_first_dir. unfold sbind at 1, asks at 1.
    destruct (chain_traversal t (w_dev w) (first_dir t) Hd) as (ss & r & Ew & _ & _ & Hon & _ & Hh & Hss & Hend).
    unfold whole_directory in Hdir. rewrite Ew in Hdir |- *. cbn [fst] in Hdir.
    assert (ended r) as Hr by (by eapply walk_end_ended).
    pose proof (slot_in_sectors ss r (first_dir t)) as Hslot.
    assert (Forall (fun s => length (cs_data s) <= 256 /\ length (cs_data s) mod 32 = 0) ss) as Hfull.
    { rewrite Forall_forall in Hss |- *. intros s Hs. destruct (Hss s Hs) as (b & Hb & ->). pose proof (sector_Ok_length t _ _ _ Hd Hb) as Hl.
      destruct (Hdir (cs_location s) b) as [_ H0]; [by apply in_map, elem_of_list_In|done|].
      unfold used_part. destruct (Nat.eqb_spec (b !!! 0) 0) as [E|E]; [|by rewrite Hl]. specialize (H0 E). rewrite take_length, Hl.
      split; [lia|]. destruct (Nat.le_gt_cases (b !!! 1 + 1) 256) as [?|?]; [by rewrite Nat.min_l|]. by rewrite Nat.min_r by lia. }
    specialize (Hslot Hfull Hr). destruct (free_slot_in_sectors (first_dir t) ss r) as [[e|last]| | |]; try done.
    destruct Hslot as [-> Hlast].
    assert (bam_sector t last) as Hbs.
    { destruct Hend as [(_ & l & e & Hl & _)|[[? _]|[[? _]|[? _]]]]; [|done..].
      assert (In l (map cs_location ss)) as Hin by (by apply elem_of_list_In, last_Some_elem_of).
      assert (last = l) as ->.
      { rewrite <- Hlast. destruct (last_Some (map cs_location ss) l) as [H _]. destruct (H Hl) as [ls' ->]. by rewrite List.last_last. }
      rewrite Forall_forall in Hon. specialize (Hon l). rewrite elem_of_list_In in Hon. specialize (Hon Hin).
      apply in_map_iff in Hin as (s & Hsl & Hs). rewrite Forall_forall in Hss. destruct (Hss s) as (b & Hb & _); [by apply elem_of_list_In|].
      rewrite Hsl in Hb. destruct (Hdir l b) as [Hle _]; [rewrite <- Hsl; by apply in_map|done|].
      destruct Hon as [H1 H2]. split; [lia|done]. }
    match goal with |- P (?m w) => enough (calm t g c m has_slot) as Hm by (by apply Hm) end.
    clear - Hbs. eapply calm_bind with (Q := fun x => x = c).
    { apply calm_asks. intros w [_ _ _ [H _]]. unfold w_get_bam. by rewrite H. }
    intros x ->. eapply calm_bind with (Q := bam_sector t).
    { apply calm_asks. intros w [_ _ (b & Hb & Hf) _]. unfold cell. rewrite Hb. cbn [rbind]. pose proof (next_any t b last Hf Hbs) as H.
      destruct (bam_next_free_block b (Some last)); cbn in *; try done. apply H. }
    intros new Hnew. eapply calm_bind with (Q := fun _ => True).
    { apply calm_on_dev, dev_sector_mut. intros b Hb. unfold fresh_directory_sector. rewrite app_length, repeat_length, Hb. done. }
    intros _ _. eapply calm_bind with (Q := fun b => length b = 256).
    { apply calm_asks. intros w [Hd _ _ _]. destruct (sector_cases t (w_dev w) new Hd) as [(b & -> & Hl & _)|[-> _]]; done. }
    intros block Hb. cbn beta in Hb. eapply calm_bind with (Q := has_slot).
    { apply calm_lift. assert (length (slice 0 ENTRY_SIZE block) = 32) as Hs by (rewrite length_slice; [done|rewrite Hb; vm_compute; lia]).
      destruct (parse_fits _ new 0 Hs) as (e & He & Hp); [lia|]. change ENTRY_SIZE with 32 in *. rewrite He. exists new, 0. split; [done|lia]. }
    intros e He. eapply calm_bind with (Q := fun _ => True).
    { apply calm_update. intros b Hf. destruct (on_disk_covered t new Hnew) as [H1 H2]. destruct (allocate_any t b new Hf H1 H2) as (b' & E & Hf' & _).
      by exists b'. }
    intros _ _. eapply calm_bind with (Q := fun _ => True); [|intros _ _; by apply calm_ret].
    apply calm_on_dev, dev_sector_mut. intros b Hl. unfold write_loc. rewrite length_splice; [done|cbn [length]; lia].
  Qed.

  Lemma calm_create w name ft :
    world_ok t g c w -> whole_directory t (w_dev w) -> result_in (fun _ => True) (snd (create_file name ft w)).
  Proof.
    intros W Hdir. unfold create_file. unfold sbind at 1, lift at 1. unfold check_filename_validity.
    destruct (ENTRY_FILENAME_LENGTH <? length name) eqn:El; [done|]. apply Nat.ltb_ge in El. change ENTRY_FILENAME_LENGTH with 16 in El.
    unfold sbind at 1, asks at 1. unfold check_filename_availability.
    destruct (find_cases t w name (ok_shape _ _ _ _ W)) as [[_ [e ->]]|[_ (k & -> & _)]]; [done|]. destruct k; try done.
    destruct (calm_next_free w W Hdir) as [W1 R1]. unfold sbind at 1. destruct (next_free_directory_entry w) as [w1 [e| | |]]; cbn [fst snd result_in] in *; try done.
    clear W Hdir. match goal with |- result_in ?Q (snd (?m w1)) => enough (calm t g c m Q) as Hm by (by apply Hm) end.
    clear W1. eapply calm_bind with (Q := fun x => x = c).
    { apply calm_asks. intros w2 [_ _ _ [H _]]. unfold w_get_bam. by rewrite H. }
    intros x ->. eapply calm_bind with (Q := bam_sector t).
    { apply calm_asks. intros w2 [_ _ (b & Hb & Hf) _]. unfold cell. rewrite Hb. cbn [rbind]. pose proof (new_any t b Hf) as H.
      destruct (bam_next_free_block b None); cbn in *; try done. apply H. }
    intros first Hfirst. destruct (on_disk_covered t first Hfirst) as [H1 H2]. eapply calm_bind with (Q := fun _ => True).
    { apply calm_update. intros b Hf. destruct (allocate_any t b first Hf H1 H2) as (b' & E & Hf' & _). by exists b'. }
    intros _ _. eapply calm_bind with (Q := fun _ => True).
    { apply calm_on_dev, dev_sector_mut. intros b Hl. rewrite length_splice; [done|cbn [length]; lia]. }
    intros _ _. cbn zeta. eapply calm_bind with (Q := fun _ => True); [|intros _ _; by apply calm_ret].
    set (e' := set_size 1 _). assert (entry_fits e') as He' by (split; [exact R1|split; [exact El|done]]).
    intros w2 W2. destruct (calm_on_dev t g c _ _ (dev_positioned t g e' He') w2 W2) as [W3 R3].
    destruct (on_dev (positioned_write e') w2) as [w3 [[]|k| |]]; cbn [fst snd] in *; try done.
    assert (calm t g c (do_ (update_cell c (fun b => bam_free b first)) in (fail k : st world unit)) (fun _ => True)) as Hm; [|by apply Hm].
    eapply calm_bind with (Q := fun _ => True); [|intros _ _; apply calm_fail]. by apply calm_release.
  Qed.
End creating.

Theorem slot_graceful t d :
  dev_shape t d -> whole_directory t d -> graceful (snd (next_free_directory_entry (open_world t d))).
Proof.
  intros Hd Hdir. destruct (open_cases t d Hd) as (_ & Hdev & [(_ & _ & Hf & _)|(h & b & _ & _ & Hb & _)]).
  { unfold next_free_directory_entry, sbind at 1, asks at 1, w_disk_format. by rewrite Hf. }
  pose proof (open_ok t d 0 Hd Hb) as W. destruct (calm_next_free t _ 0 _ W) as [_ H]; [by rewrite Hdev|].
  by destruct (snd (next_free_directory_entry (open_world t d))).
Qed.
Theorem create_graceful t d name ft :
  dev_shape t d -> whole_directory t d -> graceful (snd (create_file name ft (open_world t d))).
Proof.
  intros Hd Hdir. destruct (open_cases t d Hd) as (_ & Hdev & [(_ & Hh & Hf & _)|(h & b & _ & _ & Hb & _)]).
  { unfold create_file, sbind at 1, lift at 1. destruct (check_filename_validity name) eqn:E; try done; unfold check_filename_validity in E; destruct (_ <? _) in E; try done.
    unfold sbind at 1, asks at 1, check_filename_availability, w_find, w_iter, w_disk_format. rewrite Hf. done. }
  pose proof (open_ok t d 0 Hd Hb) as W. pose proof (calm_create t _ 0 _ name ft W) as H. rewrite Hdev in H. specialize (H Hdir).
  by destruct (snd (create_file name ft (open_world t d))).
Qed.

Lemma map_of_image t d b : dev_shape t d -> current_map (open_world t d) = Ok b -> bam_frame t b.
Proof.
  intros Hd H. unfold current_map, w_get_bam in H. destruct (w_bam (open_world t d)) as [c|] eqn:E; [|done]. cbn [rbind] in H.
  destruct (ok_cell _ _ _ _ (open_ok t d c Hd E)) as (b' & Hb & Hf). unfold cell in H. rewrite Hb in H. apply Ok_inj in H. by subst b'.
Qed.

Lemma geos_whole : whole_directory D64 geos_dev.
Proof.
  intros l b. assert (map cs_location (fst (chain_walk geos_dev (first_dir D64))) = [(18, 1)]) as -> by (vm_compute; reflexivity).
  assert (exists x, sector geos_dev (18, 1) = Ok x /\ x !!! 0 = 0 /\ x !!! 1 = 255) as (x & Hx & _ & H1).
  { eexists. split; [vm_compute; reflexivity|]. split; reflexivity. }
  intros [<-|[]] Hb. rewrite Hx in Hb. apply Ok_inj in Hb. subst x. split; [apply Nat.leb_le; reflexivity|]. intros _. by rewrite H1.
Qed.
