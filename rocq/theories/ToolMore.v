(** Proofs about the commands of cdisk that are not about files. *)
From Verif Require Import Base ListFacts Layout Image Block Bam Format Petscii GeosTypes DirEntry Header World Chain Directory Writer Rel GeosFile
  File Validate Spec SpecCodec SpecChain SpecBam SpecFiles SpecValidate SpecKinds Session SpecDisk Cdisk SpecTool GeomFacts DevFacts BitFacts CodecProofs CodecMore BamProofs HeaderProofs
  AllocProofs AllocAny BamState FlatProofs Evolve EntryProofs View Opening DeleteDurable SpecGeos GeosProofs RobustOps Refine Tables Trace ToolProofs.

(** ** Editing the allocation map *)

Lemma edit_one t b tr s (alloc : bool) :
  bam_shape t b -> 1 <= tr <= spec_tracks t -> s < 8 * bitmap_size t ->
  exists b', bam_update b (tr, s) (if alloc then entry_allocate else entry_release) = Ok b' /\ bam_shape t b' /\ b_format b' = b_format b
    /\ e_free (track_entry b' tr) = free_bits (e_map (track_entry b' tr))
    /\ (forall tr', 1 <= tr' -> tr' <> tr -> track_entry b' tr' = track_entry b tr')
    /\ (forall i, N.testbit (e_map (track_entry b' tr)) i = if (i =? N.of_nat s)%N then negb alloc else N.testbit (e_map (track_entry b tr)) i).
Proof.
  intros Hb Htr Hs. assert (bam_frame t b) as Hf by (split; apply Hb).
  assert (s < 64) as Hs64 by (destruct t; cbn in Hs; lia).
  assert (e_map (track_entry b tr) < 2 ^ (8 * N.of_nat (bitmap_size t)))%N as Hm.
  { pose proof (bs_maps _ _ Hb) as HM. rewrite Forall_forall in HM. apply HM. unfold track_entry.
    apply elem_of_list_lookup_2 with (tr - 1). apply list_lookup_lookup_total_lt. rewrite (bs_length _ _ Hb). lia. }
  assert (e_map (track_entry b tr) < 2 ^ 64)%N as Hm64.
  { eapply N.lt_le_trans; [exact Hm|]. apply N.pow_le_mono_r; [done|]. destruct t; cbn; lia. }
  assert (exists e', (if alloc then entry_allocate else entry_release) (track_entry b tr) s = Ok e'
    /\ e_free e' = popcount (e_map e')
    /\ forall i, N.testbit (e_map e') i = if (i =? N.of_nat s)%N then negb alloc else N.testbit (e_map (track_entry b tr)) i) as (e' & He' & Hc & Hi).
  { destruct alloc.
    - destruct (entry_allocate_ok (track_entry b tr) s Hs64) as [e' He']. exists e'. split; [done|].
      destruct (entry_allocate_spec _ _ _ Hm64 He') as (_ & Hi & Hc & _). split; [done|]. intros i. rewrite Hi. destruct (i =? N.of_nat s)%N; cbn; by rewrite ?andb_false_r, ?andb_true_r.
    - destruct (entry_release_ok (track_entry b tr) s Hs64) as [e' He']. exists e'. split; [done|].
      destruct (entry_release_spec _ _ _ Hm64 He') as (_ & Hi & Hc & _). split; [done|]. intros i. rewrite Hi. destruct (i =? N.of_nat s)%N; cbn; by rewrite ?orb_false_r, ?orb_true_r. }
  unfold bam_update, check_validity. rewrite (bs_valid _ _ Hb). cbn [rbind fst snd]. rewrite (entry_any t b tr Hf Htr). cbn [rbind]. rewrite He'. cbn [rbind].
  eexists. split; [done|].
  assert (tr <= length (b_entries b)) as Hlen by (rewrite (bs_length _ _ Hb); lia).
  rewrite <- (bs_valid _ _ Hb).
  assert (forall tr', 1 <= tr' -> track_entry (mk_bam (b_format b) (<[tr - 1 := e']> (b_entries b)) (b_invalidated b)) tr' = if decide (tr' = tr) then e' else track_entry b tr') as Ht.
  { intros tr' Htr'. apply track_entry_insert; lia. }
  split; [|split; [done|split]].
  - split; try apply Hb; cbn [b_entries].
    + rewrite insert_length. apply Hb.
    + apply Forall_insert; [apply Hb|]. split.
      * apply lt_pow2_bits. intros i Hib. rewrite Hi, (testbit_lt _ _ _ Hm Hib). destruct (N.eqb_spec i (N.of_nat s)); [lia|done].
      * rewrite Hc. eapply Nat.le_lt_trans; [apply bits_from_le|]. apply Nat.ltb_lt. reflexivity.
  - rewrite Ht, decide_True by lia. rewrite Hc. exact (popcount_free_bits (e_map e')).
  - split.
    + intros tr' H1 H2. by rewrite Ht, decide_False.
    + intros i. by rewrite Ht, decide_True by lia.
Qed.

Lemma edit_many t tr alloc ss : forall b,
  bam_shape t b -> 1 <= tr <= spec_tracks t -> Forall (fun s => s < 8 * bitmap_size t) ss ->
  exists b', edit_sector_list alloc tr b ss = Ok b' /\ bam_shape t b' /\ b_format b' = b_format b
    /\ (ss <> [] \/ e_free (track_entry b tr) = free_bits (e_map (track_entry b tr)) -> e_free (track_entry b' tr) = free_bits (e_map (track_entry b' tr)))
    /\ (forall tr', 1 <= tr' -> tr' <> tr -> track_entry b' tr' = track_entry b tr')
    /\ (forall s, is_free b' (tr, s) <-> if bool_decide (s ∈ ss) then alloc = false else is_free b (tr, s)).
Proof.
  induction ss as [|s ss IH]; intros b Hb Htr Hss.
  - exists b. split; [done|]. split; [done|]. split; [done|]. split; [by intros [?|?]|]. split; [done|]. intros s. rewrite bool_decide_false by apply not_elem_of_nil. done.
  - apply Forall_cons in Hss as [Hs Hss]. cbn [edit_sector_list].
    destruct (edit_one t b tr s alloc Hb Htr Hs) as (b1 & -> & Hb1 & Hf1 & Hc1 & Ho1 & Hi1). cbn [rbind].
    destruct (IH b1 Hb1 Htr Hss) as (b2 & H2 & Hb2 & Hf2 & Hc2 & Ho2 & Hi2). exists b2. split; [done|]. split; [done|]. split; [congruence|].
    split; [intros _; apply Hc2; by right|]. split; [intros tr' H1' H2'; rewrite Ho2, Ho1; done|].
    intros x. rewrite Hi2. unfold is_free. cbn [fst snd]. rewrite Hi1.
    destruct (decide (x ∈ ss)) as [Hx|Hx].
    + rewrite !bool_decide_true; [done|by apply elem_of_cons; right|done].
    + rewrite (bool_decide_false (x ∈ ss)) by done. destruct (N.eqb_spec (N.of_nat x) (N.of_nat s)) as [E|E].
      * rewrite bool_decide_true; [by destruct alloc|]. apply elem_of_cons. left. lia.
      * rewrite bool_decide_false; [done|]. rewrite elem_of_cons. intros [->|?]; done.
Qed.

Definition edited (f : disk_format) (sector : option nat) (ts : list nat) (l : location) : Prop :=
  fst l ∈ ts /\ snd l ∈ edit_sectors f sector (fst l).
#[global] Instance edited_dec f sector ts l : Decision (edited f sector ts l).
Proof. unfold edited. apply _. Qed.

Lemma edit_all t f sector alloc ts : forall b,
  bam_shape t b -> Forall (fun tr => 1 <= tr <= spec_tracks t /\ Forall (fun s => s < 8 * bitmap_size t) (edit_sectors f sector tr)) ts ->
  exists b', edit_track_list f sector alloc b ts = Ok b' /\ bam_shape t b' /\ b_format b' = b_format b
    /\ (forall tr, 1 <= tr -> (tr ∈ ts /\ edit_sectors f sector tr <> []) \/ e_free (track_entry b tr) = free_bits (e_map (track_entry b tr)) ->
          e_free (track_entry b' tr) = free_bits (e_map (track_entry b' tr)))
    /\ (forall tr, 1 <= tr -> tr ∉ ts -> track_entry b' tr = track_entry b tr)
    /\ (forall l, 1 <= fst l -> is_free b' l <-> if bool_decide (edited f sector ts l) then alloc = false else is_free b l).
Proof.
  induction ts as [|tr ts IH]; intros b Hb Hts.
  - exists b. split; [done|]. split; [done|]. split; [done|]. split; [intros tr _ [[H _]|?]; [by apply elem_of_nil in H|done]|]. split; [done|].
    intros l _. rewrite bool_decide_false; [done|]. intros [H _]. by apply elem_of_nil in H.
  - apply Forall_cons in Hts as [[Htr Hss] Hts]. cbn [edit_track_list].
    assert (bam_frame t b) as Hf by (split; apply Hb). rewrite (entry_any t b tr Hf Htr). cbn [rbind].
    destruct (edit_many t tr alloc _ b Hb Htr Hss) as (b1 & -> & Hb1 & Hf1 & Hc1 & Ho1 & Hi1). cbn [rbind].
    destruct (IH b1 Hb1 Hts) as (b2 & H2 & Hb2 & Hf2 & Hc2 & Ho2 & Hi2). exists b2. split; [done|]. split; [done|]. split; [congruence|]. split; [|split].
    + intros x Hx Hor. apply Hc2; [done|]. destruct (decide (x = tr)) as [->|Hne].
      * right. apply Hc1. destruct Hor as [[_ ?]|?]; [by left|by right].
      * rewrite Ho1 by done. destruct Hor as [[Hin ?]|?]; [|by right]. left. split; [|done]. by apply elem_of_cons in Hin as [->|?].
    + intros x Hx Hn. apply not_elem_of_cons in Hn as [Hn1 Hn2]. rewrite Ho2 by done. by apply Ho1.
    + intros [x s] Hx. cbn [fst] in Hx. rewrite Hi2 by done. unfold edited. cbn [fst snd].
      destruct (decide (s ∈ edit_sectors f sector x)) as [Hs|Hs].
      * destruct (decide (x ∈ ts)) as [Ht|Ht].
        -- rewrite !bool_decide_true; [done|split; [by apply elem_of_cons; right|done]|done].
        -- rewrite bool_decide_false by tauto. destruct (decide (x = tr)) as [->|Hne].
           ++ rewrite Hi1, !bool_decide_true; [done|split; [by apply elem_of_cons; left|done]|done].
           ++ rewrite bool_decide_false by (rewrite elem_of_cons; tauto). unfold is_free. cbn [fst]. by rewrite Ho1.
      * rewrite !bool_decide_false by tauto. destruct (decide (x = tr)) as [->|Hne].
        -- by rewrite Hi1, bool_decide_false.
        -- unfold is_free. cbn [fst]. by rewrite Ho1.
Qed.

(** The command on any image. *)
Lemma bam_edit_any t d b track sector alloc :
  dev_shape t d -> holds_bytes d -> d_writable d = true -> current_map (open_world t d) = Ok b ->
  (forall tr, track = Some tr -> 1 <= tr <= spec_tracks t) -> (forall s, sector = Some s -> s < 8 * bitmap_size t) ->
  exists d' b', cmd_bam_edit t track sector alloc d = (d', Ok tt) /\ current_map (open_world t d') = Ok b' /\ bam_shape t b' /\ bam_shape t b
    /\ (forall tr, 1 <= tr <= spec_tracks t -> tr ∈ edit_tracks track \/ e_free (track_entry b tr) = free_bits (e_map (track_entry b tr)) ->
          e_free (track_entry b' tr) = free_bits (e_map (track_entry b' tr)))
    /\ (forall l, 1 <= fst l <= spec_tracks t -> is_free b' l <-> if bool_decide (edited (native_format t) sector (edit_tracks track) l) then alloc = false else is_free b l)
    /\ (forall l i, ~ bam_byte t l i -> image_byte d' l i = image_byte d l i)
    /\ dev_shape t d'.
Proof.
  intros Hd Hby Hw Hm Htr Hse.
  destruct (open_cases t d Hd) as (_ & Hdev & [(_ & _ & _ & H)|(h & b0 & Hh & Hrd & Hc & Hop)]); [unfold current_map, w_get_bam in Hm; by rewrite H in Hm|].
  set (g := bool_decide (is_Some (h_geos h))) in *. set (b1 := bam_set_format (set_geos g (native_format t)) b0) in *.
  rewrite (opened_map _ _ _ _ _ Hop) in Hm. apply Ok_inj in Hm. subst b.
  assert (bam_shape t b1) as Hb1.
  { destruct (read_shape t d b0 Hd Hby Hrd) as [_ H2 H3 H4]. split; cbn; [by eexists|done|done|done]. }
  assert (forall tr, 1 <= tr <= spec_tracks t -> edit_sectors (set_geos g (native_format t)) sector tr = edit_sectors (native_format t) sector tr
    /\ edit_sectors (native_format t) sector tr <> [] /\ Forall (fun s => s < 8 * bitmap_size t) (edit_sectors (native_format t) sector tr)) as Hes.
  { intros tr Hr. split; [done|]. destruct sector as [s|]; cbn [edit_sectors]; [split; [done|]; apply Forall_cons; split; [by apply Hse|done]|].
    rewrite (fmt_sectors t (native_format t) tr) by (done || (exists false; symmetry; apply set_geos_false)). pose proof (spec_sectors_bounds t tr Hr). split; [by destruct (spec_sectors t tr); [lia|]|].
    apply Forall_forall. intros s Hs. apply elem_of_seq in Hs. pose proof (sectors_fit t tr Hr). lia. }
  assert (forall tr, tr ∈ edit_tracks track -> 1 <= tr <= spec_tracks t) as Hin.
  { intros tr. destruct track as [x|]; cbn [edit_tracks].
    - intros ->%elem_of_list_singleton. by apply Htr.
    - unfold range_incl. rewrite elem_of_seq. destruct t; cbn; lia. }
  destruct (edit_all t (set_geos g (native_format t)) sector alloc (edit_tracks track) b1 Hb1) as (b2 & He & Hb2 & Hf2 & Hc2 & Ho2 & Hi2).
  { apply Forall_forall. intros tr Ht. specialize (Hin tr Ht). split; [done|]. destruct (Hes tr Hin) as (-> & _ & ?). done. }
  destruct (bam_flush_reload t d b2 Hd Hw Hb2) as (d' & Hfl & Hrd' & _ & Hbytes & _ & Hd' & Hfr & _).
  assert (header_read d' (hf t) = header_read d (hf t)) as Hh'.
  { apply header_ext; [done|done|]. intros i Hi. by apply Hbytes. }
  assert (current_map (open_world t d') = Ok b2) as Hm2.
  { destruct (open_cases t d' Hd') as (_ & _ & [(Hno & _)|(h' & b3 & Hh3 & Hrd3 & _ & Hop3)]); [by rewrite Hh', Hh in Hno; destruct (Hno h)|].
    rewrite (opened_map _ _ _ _ _ Hop3). f_equal. rewrite Hh', Hh in Hh3. apply Ok_inj in Hh3. subst h'. fold g.
    rewrite Hf2 in Hrd'. unfold b1 in Hrd'. cbn [bam_set_format b_format] in Hrd'. unfold bam_read in Hrd', Hrd3.
    change (bam_sections (set_geos g (native_format t))) with (bam_sections (native_format t)) in Hrd'.
    destruct (bam_read_sections d' (bam_sections (native_format t))); [|done..]. cbn [rbind] in *.
    apply Ok_inj in Hrd', Hrd3. subst b2 b3. done. }
  exists d', b2. split.
  { unfold cmd_bam_edit. rewrite tool_open_true by done. unfold sbind at 1, asks at 1. unfold w_disk_format. rewrite (op_fmt _ _ _ _ _ Hop).
    unfold sbind at 1, asks at 1. unfold w_get_bam. destruct (op_bam _ _ _ _ _ Hop) as (c & Hc' & Hcell). rewrite Hc'.
    unfold sbind at 1. unfold update_cell, sbind at 1, asks at 1. unfold cell. rewrite Hcell. unfold sbind at 1, lift at 1. rewrite He.
    unfold modify. unfold flush_cell, sbind at 1, asks at 1, cell. cbn [set_cell w_cells].
    rewrite list_lookup_insert by (by eapply lookup_lt_Some). unfold on_dev, zoom. cbn [set_cell w_dev]. rewrite Hdev, Hfl.
    f_equal. unfold saved. cbn [set_dev w_dev]. apply mode_same. destruct Hfr as (Hfr & _). congruence. }
  split; [done|]. split; [done|]. split; [done|]. split; [|split; [|done]].
  - intros tr Hr Hor. apply Hc2; [lia|]. destruct Hor as [Hor|?]; [left; split; [done|]|by right]. by destruct (Hes tr Hr) as (-> & ? & _).
  - intros l Hl. rewrite Hi2 by lia. rewrite (bool_decide_ext (edited (set_geos g (native_format t)) sector (edit_tracks track) l) (edited (native_format t) sector (edit_tracks track) l)); [done|].
    unfold edited. destruct (Hes (fst l) Hl) as (-> & _). done.
Qed.

(** Tracks that the map does not describe. *)
Lemma bam_edit_panic t d b tr sector alloc :
  dev_shape t d -> d_writable d = true -> current_map (open_world t d) = Ok b -> spec_tracks t < tr ->
  cmd_bam_edit t (Some tr) sector alloc d = (d, Panic).
Proof.
  intros Hd Hw Hm Htr.
  destruct (open_cases t d Hd) as (_ & Hdev & [(_ & _ & _ & H)|(h & b0 & Hh & Hrd & Hc & Hop)]); [unfold current_map, w_get_bam in Hm; by rewrite H in Hm|].
  rewrite (opened_map _ _ _ _ _ Hop) in Hm. apply Ok_inj in Hm.
  assert (saved (open_world t d) = d) as Hsv by (unfold saved; rewrite Hdev; by apply mode_same).
  unfold cmd_bam_edit. rewrite tool_open_true by done. unfold sbind at 1, asks at 1. unfold w_disk_format. rewrite (op_fmt _ _ _ _ _ Hop).
  unfold sbind at 1, asks at 1. unfold w_get_bam. destruct (op_bam _ _ _ _ _ Hop) as (c & Hc' & Hcell). rewrite Hc'.
  unfold sbind at 1. unfold update_cell, sbind at 1, asks at 1. unfold cell. rewrite Hcell. unfold sbind at 1, lift at 1.
  cbn [edit_tracks edit_track_list]. rewrite Hm. destruct (bam_read_any t d false Hd) as (b3 & Hrd3 & _ & Hlen & Hv). rewrite set_geos_false, Hrd in Hrd3. apply Ok_inj in Hrd3. subst b3 b.
  unfold bam_entry_at, check_validity. cbn [bam_set_format b_invalidated b_entries]. rewrite Hv. cbn [rbind].
  destruct tr as [|i]; [lia|]. rewrite lookup_ge_None_2 by lia. cbn [rbind]. by rewrite Hsv.
Qed.

Lemma edited_chosen t track sector l :
  (track = None -> t = D64) -> 1 <= fst l <= spec_tracks t ->
  edited (native_format t) sector (edit_tracks track) l <-> chosen t track sector l.
Proof.
  intros Hall Hl. unfold edited, chosen. enough ((fst l ∈ edit_tracks track <-> match track with Some tr => fst l = tr | None => 1 <= fst l <= spec_tracks t end)
    /\ (snd l ∈ edit_sectors (native_format t) sector (fst l) <-> match sector with Some s => snd l = s | None => snd l < spec_sectors t (fst l) end)) by tauto.
  split.
  - destruct track as [tr|]; cbn [edit_tracks]; [by rewrite elem_of_list_singleton|].
    unfold range_incl. rewrite elem_of_seq. rewrite (Hall eq_refl). cbn. lia.
  - destruct sector as [s|]; cbn [edit_sectors]; [by rewrite elem_of_list_singleton|].
    rewrite (fmt_sectors t (native_format t) (fst l)) by (done || (exists false; symmetry; apply set_geos_false)). rewrite elem_of_seq. lia.
Qed.

Lemma bam_edit_exact t d b track sector alloc :
  dev_shape t d -> holds_bytes d -> d_writable d = true -> current_map (open_world t d) = Ok b ->
  (track = None -> t = D64) -> (forall l, chosen t track sector l -> bam_sector t l) ->
  exists d' b', cmd_bam_edit t track sector alloc d = (d', Ok tt) /\ current_map (open_world t d') = Ok b'
    /\ (forall l, bam_sector t l -> chosen t track sector l -> is_free b' l <-> alloc = false)
    /\ (forall l, bam_sector t l -> ~ chosen t track sector l -> is_free b' l <-> is_free b l)
    /\ (bam_consistent t b -> bam_consistent t b')
    /\ (forall l i, ~ bam_byte t l i -> image_byte d' l i = image_byte d l i).
Proof.
  intros Hd Hby Hw Hm Hall Hch.
  assert (forall tr, track = Some tr -> 1 <= tr <= spec_tracks t) as Htr.
  { intros tr ->. destruct sector as [s|].
    - by destruct (Hch (tr, s)).
    - (* a track without sectors would be chosen vacuously *)
      destruct (decide (1 <= tr <= spec_tracks t)) as [|Hn]; [done|]. exfalso.
      assert (0 < spec_sectors t tr) as H0 by (destruct t; cbn; unfold zone; repeat case_match; lia).
      destruct (Hch (tr, 0)) as [H1 _]; [by split; cbn|]. by cbn in H1. }
  assert (forall s, sector = Some s -> s < 8 * bitmap_size t) as Hse.
  { intros s ->. set (tr := match track with Some tr => tr | None => 1 end).
    destruct (Hch (tr, s)) as [H1 H2].
    - split; [|done]. subst tr. destruct track; [done|]. cbn. destruct t; cbn; lia.
    - cbn in H1, H2. pose proof (sectors_fit t tr H1). lia. }
  destruct (bam_edit_any t d b track sector alloc Hd Hby Hw Hm Htr Hse) as (d' & b' & H1 & H2 & H3 & H3b & H4 & H5 & H6 & _).
  exists d', b'. split; [done|]. split; [done|].
  assert (forall l, 1 <= fst l <= spec_tracks t -> chosen t track sector l -> is_free b' l <-> alloc = false) as Ha.
  { intros l Hl Hc. rewrite H5, bool_decide_true; [done|by apply edited_chosen|done]. }
  assert (forall l, 1 <= fst l <= spec_tracks t -> ~ chosen t track sector l -> is_free b' l <-> is_free b l) as Hn.
  { intros l Hl Hc. rewrite H5, bool_decide_false; [done| |done]. by rewrite edited_chosen. }
  split; [intros l [Hl _]; by apply Ha|]. split; [intros l [Hl _]; by apply Hn|]. split; [|done].
  intros Hc. split; [done| |].
  - intros tr s Hr Hf. destruct (decide (edited (native_format t) sector (edit_tracks track) (tr, s))) as [He|He]; rewrite edited_chosen in He by done.
    + by destruct (Hch _ He).
    + apply Hn in Hf; [|done|done]. by apply (bc_bits _ _ Hc).
  - intros tr Hr. apply H4; [done|]. right. by apply (bc_counts _ _ Hc).
Qed.

Lemma bam_edit_all_tracks t d b alloc :
  t <> D64 -> dev_shape t d -> holds_bytes d -> d_writable d = true -> current_map (open_world t d) = Ok b ->
  exists d' b', cmd_bam_edit t None None alloc d = (d', Ok tt) /\ current_map (open_world t d') = Ok b'
    /\ forall l, bam_sector t l -> 35 < fst l -> is_free b' l <-> is_free b l.
Proof.
  intros Ht Hd Hby Hw Hm.
  destruct (bam_edit_any t d b None None alloc Hd Hby Hw Hm) as (d' & b' & H1 & H2 & _ & _ & _ & H5 & _); [done..|].
  exists d', b'. split; [done|]. split; [done|]. intros l [Hl _] Hgt. rewrite H5, bool_decide_false; [done| |done].
  intros [He _]. cbn [edit_tracks] in He. unfold range_incl in He. rewrite elem_of_seq in He. lia.
Qed.

Lemma bam_edit_beyond t d b tr s :
  dev_shape t d -> holds_bytes d -> d_writable d = true -> current_map (open_world t d) = Ok b ->
  1 <= tr <= spec_tracks t -> spec_sectors t tr <= s < 8 * bitmap_size t ->
  exists d' b', cmd_bam_edit t (Some tr) (Some s) false d = (d', Ok tt) /\ current_map (open_world t d') = Ok b'
    /\ is_free b' (tr, s) /\ ~ bam_sector t (tr, s) /\ ~ bam_consistent t b'
    /\ (e_free (track_entry b tr) = free_bits (e_map (track_entry b tr)) -> ~ is_free b (tr, s) -> e_free (track_entry b' tr) = S (e_free (track_entry b tr))).
Proof.
  intros Hd Hby Hw Hm Htr Hs.
  destruct (bam_edit_any t d b (Some tr) (Some s) false Hd Hby Hw Hm) as (d' & b' & H1 & H2 & H3 & H3b & H4 & H5 & _); [by intros ? [= <-]|intros ? [= <-]; lia|].
  exists d', b'. split; [done|]. split; [done|].
  assert (forall x, is_free b' (tr, x) <-> if bool_decide (x = s) then False \/ True else is_free b (tr, x)) as Hbits.
  { intros x. rewrite H5 by done. unfold edited. cbn [edit_tracks edit_sectors fst snd].
    destruct (decide (x = s)) as [->|Hne]; [rewrite !bool_decide_true; [tauto|done|by rewrite !elem_of_list_singleton]|].
    rewrite !bool_decide_false; [done|done|by rewrite !elem_of_list_singleton; intros [_ ?]]. }
  assert (is_free b' (tr, s)) as Hf by (rewrite Hbits, bool_decide_true; [by right|done]).
  split; [done|]. split; [intros [_ Hx]; cbn in Hx; lia|]. split.
  - intros Hc. pose proof (bc_bits _ _ Hc tr s Htr Hf). lia.
  - intros Hcount Hnf. rewrite H4; [|done|left; cbn; by rewrite elem_of_list_singleton]. rewrite Hcount. pose proof (popcount_free_bits (e_map (track_entry b' tr))) as P1. pose proof (popcount_free_bits (e_map (track_entry b tr))) as P2.
    rewrite <- P1, <- P2. clear P1 P2 Hcount H4. unfold popcount.
    assert (s < 64) as Hs64 by (destruct t; cbn in Hs; lia).
    replace 64 with (s + (1 + (63 - s))) by lia. rewrite !bits_from_split.
    assert (forall x, x <> s -> N.testbit (e_map (track_entry b' tr)) (N.of_nat x) = N.testbit (e_map (track_entry b tr)) (N.of_nat x)) as Hx.
    { intros x Hne. specialize (Hbits x). rewrite bool_decide_false in Hbits by done. unfold is_free in Hbits. cbn [fst snd] in Hbits.
      destruct (N.testbit _ _), (N.testbit _ _); intuition congruence. }
    rewrite (bits_from_ext (e_map (track_entry b' tr)) (e_map (track_entry b tr)) 0 s) by (intros; apply Hx; lia).
    rewrite (bits_from_ext (e_map (track_entry b' tr)) (e_map (track_entry b tr)) (0 + s + 1)) by (intros; apply Hx; lia).
    assert (bits_from (e_map (track_entry b' tr)) (0 + s) 1 = 1) as -> by (unfold bits_from; cbn; unfold is_free in Hf; cbn in Hf; by rewrite Hf).
    assert (bits_from (e_map (track_entry b tr)) (0 + s) 1 = 0) as ->.
    { unfold bits_from. cbn. unfold is_free in Hnf. cbn in Hnf. destruct (N.testbit _ _); [done|done]. }
    lia.
Qed.

(** ** New images *)

Lemma fill_copy x n fuel : forall size, 0 < n -> N.to_nat size < fuel ->
  copy_out (fill_read x) fuel size n = (repeat x (N.to_nat size), Ok tt).
Proof.
  induction fuel as [|fuel IH]; intros size Hn Hf; [lia|]. cbn [copy_out]. unfold fill_read at 1.
  set (m := Nat.min n (N.to_nat size)). destruct (N.to_nat size) as [|k] eqn:Ek.
  - replace m with 0 by lia. done.
  - destruct m as [|j] eqn:Em; [lia|]. cbn [repeat]. rewrite IH by lia.
    replace (N.to_nat (size - N.of_nat (S j))) with (k - j) by lia.
    f_equal. cbn [app]. f_equal. rewrite <- repeat_app. f_equal. lia.
Qed.

Lemma plain_size t : geometry_size (plain_geometry t) = match t with D64 => 174848 | D71 => 349696 | D81 => 819200 end%N.
Proof. destruct t; vm_compute; reflexivity. Qed.
Lemma plain_find t : find_by_size (geometry_size (plain_geometry t)) (allowed_geometries t) = Some (plain_geometry t).
Proof. destruct t; vm_compute; reflexivity. Qed.

Lemma repeat_blocks k n : concat (repeat (repeat 0 k) n) = repeat 0 (k * n).
Proof. induction n as [|n IH]; [by rewrite Nat.mul_0_r|]. cbn [repeat concat]. rewrite IH, <- repeat_app. f_equal. lia. Qed.

Lemma blank_flat t k : flatten k (blank_dev t true) = mk_flat_dev (blank_image k (geometry_size (plain_geometry t))) (plain_geometry t).
Proof.
  unfold flatten, blank_dev, blank_image. cbn [d_blocks d_etable d_geom].
  change zero_block with (repeat 0 256). rewrite repeat_blocks, app_nil_r, plain_size.
  assert (256 * sector_count (plain_geometry t) = N.to_nat match t with D64 => 174848 | D71 => 349696 | D81 => 819200 end) as H.
  { assert (N.of_nat (256 * sector_count (plain_geometry t)) = match t with D64 => 174848 | D71 => 349696 | D81 => 819200 end)%N as <-; [|by rewrite Nat2N.id].
    rewrite Nat2N.inj_mul. destruct t; vm_compute; reflexivity. }
  destruct t; unfold plain_geometry in *; rewrite H; done.
Qed.

Lemma create_image file n :
  0 < n ->
  exists bytes, cmd_create file n = (bytes, Ok tt) /\ Forall (eq 0) bytes
    /\ In (spec_tracks (new_type file), false, N.of_nat (length bytes)) (spec_images (new_type file))
    /\ disk_open (from_extension file) (mk_image ReadWriteMap bytes) = Ok (new_type file, flatten ReadWriteMap (blank_dev (new_type file) true)).
Proof.
  intros Hn. set (t := new_type file). set (size := geometry_size (plain_geometry t)).
  exists (repeat 0 (N.to_nat size)). split; [|split; [|split]].
  - unfold cmd_create. apply fill_copy; [done|]. unfold size, t, new_type. lia.
  - apply Forall_forall. intros x Hx. apply elem_of_list_In, repeat_spec in Hx. done.
  - rewrite repeat_length, N2Nat.id. unfold size. rewrite plain_size. destruct t; cbn; tauto.
  - rewrite blank_flat. change (mk_image ReadWriteMap (repeat 0 (N.to_nat size))) with (blank_image ReadWriteMap size).
    unfold disk_open. destruct (from_extension file) as [t'|] eqn:E.
    + assert (t = t') as <- by (unfold t, new_type; by rewrite E). unfold size. rewrite (blank_open t ReadWriteMap _ (plain_geometry t) (plain_find t)). reflexivity.
    + assert (t = D64) as Et by (unfold t, new_type; by rewrite E). unfold size. rewrite Et. rewrite (blank_open D64 ReadWriteMap _ (plain_geometry D64) (plain_find D64)). reflexivity.
Qed.

Definition no_dot (s : list N) : Prop := 46%N ∉ s.
Lemma split_last_dot_spec s : match split_last_dot s with
  | Some (a, b) => s = a ++ 46%N :: b /\ no_dot b
  | None => no_dot s
  end.
Proof.
  induction s as [|c s IH]; [apply not_elem_of_nil|]. cbn. destruct (split_last_dot s) as [[a b]|].
  - destruct IH as [-> Hb]. done.
  - destruct (N.eqb_spec c 46) as [->|Hc]; [done|]. unfold no_dot. apply not_elem_of_cons. done.
Qed.
Lemma split_last_dot_app a b : no_dot b -> split_last_dot (a ++ 46%N :: b) = Some (a, b).
Proof.
  intros Hb. induction a as [|c a IH]; cbn.
  - pose proof (split_last_dot_spec b) as H. destruct (split_last_dot b) as [[x y]|]; [|done].
    destruct H as [-> _]. exfalso. apply Hb. apply elem_of_app. right. by apply elem_of_cons; left.
  - by rewrite IH.
Qed.

Lemma extension_spec file t :
  from_extension file = Some t <->
  exists stem e, stem <> [] /\ file = stem ++ 46%N :: e /\ map ascii_lower e = extension_of t.
Proof.
  unfold from_extension, path_extension. split.
  - pose proof (split_last_dot_spec file) as H. destruct (split_last_dot file) as [[[|c a] b]|]; [done| |done].
    destruct H as [-> _]. intros E. exists (c :: a), b. split; [done|]. split; [done|].
    case_bool_decide; [by injection E as <-|]. case_bool_decide; [by injection E as <-|]. case_bool_decide; [by injection E as <-|done].
  - intros (stem & e & Hs & -> & He). rewrite split_last_dot_app.
    + destruct stem as [|c stem]; [done|]. rewrite He. destruct t; done.
    + intros Hd. assert (46%N ∈ map ascii_lower e) as Hd' by (change 46%N with (ascii_lower 46); by apply elem_of_list_fmap_1).
      rewrite He in Hd'. destruct t; cbn in Hd'; repeat (apply elem_of_cons in Hd' as [?|Hd']; [done|]); by apply elem_of_nil in Hd'.
Qed.

(** ** Copying GEOS files *)

Fixpoint collect (xs : list (res (list nat))) : list nat * res unit :=
  match xs with
  | [] => ([], NoFuel)
  | Ok [] :: _ => ([], Ok tt)
  | Ok bytes :: xs => let '(out, e) := collect xs in (bytes ++ out, e)
  | Err e :: _ => ([], Err e)
  | Panic :: _ => ([], Panic)
  | NoFuel :: _ => ([], NoFuel)
  end.
Lemma copy_collect d n fuel : forall r, copy_out (geos_read d) fuel r n = collect (geos_reads d r (repeat n fuel)).
Proof.
  induction fuel as [|fuel IH]; intros r; [done|]. cbn [copy_out repeat geos_reads].
  destruct (geos_read d r n) as [r' [[|x xs]| | |]]; cbn [collect]; try done. by rewrite IH.
Qed.

Definition copy_blocks (fuel : nat) (blocks : list (list nat)) (n : nat) : list nat * res unit :=
  collect (map Ok (block_reads blocks (repeat n fuel))).

Lemma block_read_split blocks : forall n, 0 < n ->
  let '(rest, out) := block_read blocks n in
  exists pre extra, concat blocks = pre ++ concat rest /\ out = pre ++ extra
    /\ (length (concat blocks) < n -> extra = [] /\ rest = [])
    /\ (n <= length (concat blocks) -> extra <> [] /\ length out = n).
Proof.
  induction blocks as [|b blocks IH]; intros n Hn; cbn [block_read].
  - exists [], []. split; [done|]. split; [done|]. split; [done|]. cbn. lia.
  - destruct (Nat.leb_spec n (length b)) as [Hle|Hlt].
    + exists [], (take n b). split; [done|]. split; [done|]. cbn [concat]. rewrite app_length. split; [lia|].
      intros _. rewrite take_length. split; [|lia]. destruct n, b; cbn in *; try lia; done.
    + specialize (IH (n - length b) ltac:(lia)). destruct (block_read blocks (n - length b)) as [rest out].
      destruct IH as (pre & extra & H1 & -> & H3 & H4). exists (b ++ pre), extra. cbn [concat]. rewrite H1 at 1.
      split; [by rewrite app_assoc|]. split; [by rewrite app_assoc|]. rewrite !app_length. rewrite app_length in H4. split.
      * intros Hs. apply H3. lia.
      * intros Hs. destruct H4 as [H4 H5]; [lia|]. split; [done|]. lia.
Qed.

Lemma block_read_long blocks : forall n x, In x blocks -> n <= length x -> In x (fst (block_read blocks n)).
Proof.
  induction blocks as [|b blocks IH]; intros n x Hx Hn; [done|]. cbn [block_read].
  destruct (Nat.leb_spec n (length b)) as [Hle|Hlt]; [done|]. destruct Hx as [->|Hx]; [lia|].
  specialize (IH (n - length b) x Hx ltac:(lia)). by destruct (block_read blocks (n - length b)).
Qed.

(** A block that is not shorter than the buffer is copied again and again. *)
Lemma copy_long fuel : forall blocks n x, 0 < n -> In x blocks -> n <= length x ->
  exists out, copy_blocks fuel blocks n = (out, NoFuel) /\ length out = fuel * n.
Proof.
  induction fuel as [|fuel IH]; intros blocks n x Hn Hx Hl; [by exists []|].
  unfold copy_blocks. cbn [repeat block_reads].
  pose proof (block_read_split blocks n Hn) as Hs. pose proof (block_read_long blocks n x Hx Hl) as Hx'.
  destruct (block_read blocks n) as [rest out]. cbn [fst] in Hx'. destruct Hs as (pre & extra & _ & _ & _ & H4).
  destruct H4 as [_ H4].
  { apply in_split in Hx as (l1 & l2 & ->). rewrite concat_app. cbn [concat]. rewrite !app_length. lia. }
  destruct (IH rest n x Hn Hx' Hl) as (out' & Hout & Hlen). unfold copy_blocks in Hout.
  cbn [map collect]. destruct out as [|o out]; [cbn in H4; lia|]. rewrite Hout. eexists. split; [done|]. rewrite app_length, H4. lia.
Qed.

(** A copy that ends is the stream, or longer. *)
Lemma copy_ends fuel : forall blocks n out, 0 < n -> copy_blocks fuel blocks n = (out, Ok tt) ->
  (length (concat blocks) < n -> out = concat blocks) /\ (n <= length (concat blocks) -> length (concat blocks) < length out).
Proof.
  induction fuel as [|fuel IH]; intros blocks n out Hn; unfold copy_blocks; cbn [repeat block_reads]; [done|].
  pose proof (block_read_split blocks n Hn) as Hs. destruct (block_read blocks n) as [rest o].
  destruct Hs as (pre & extra & H1 & H2 & H3 & H4). cbn [map collect]. intros Hc.
  assert (exists out', copy_blocks fuel rest n = (out', Ok tt) /\ out = o ++ out' \/ o = [] /\ out = []) as (out' & [[Hc' ->]|[Ho ->]]).
  { destruct o as [|x o]; [injection Hc as <-; exists []; by right|]. unfold copy_blocks.
    destruct (collect _) as [out' e]. injection Hc as <- ->. exists out'. by left. }
  - destruct (IH rest n out' Hn Hc') as [IH1 IH2]. split.
    + intros Hl. destruct (H3 Hl) as [-> ->]. rewrite H1, H2. cbn [concat]. rewrite !app_nil_r. rewrite IH1; [by rewrite app_nil_r|cbn; lia].
    + intros Hl. destruct (H4 Hl) as [He _]. rewrite H1, H2, !app_length.
      assert (length (concat rest) <= length out') as Hle by (destruct (Nat.le_gt_cases n (length (concat rest))) as [Hg|Hg]; [specialize (IH2 Hg); lia|by rewrite IH1]).
      destruct extra; [done|]. cbn [length]. lia.
  - split.
    + intros Hl. destruct (H3 Hl) as [-> ->]. rewrite Ho in H2. by rewrite H1.
    + intros Hl. destruct (H4 Hl) as [_ H5]. rewrite Ho in H5. cbn in H5. lia.
Qed.

Lemma copy_short fuel blocks n : length (concat blocks) < n -> copy_blocks (S (S fuel)) blocks n = (concat blocks, Ok tt).
Proof.
  intros Hl. unfold copy_blocks. cbn [repeat block_reads]. rewrite (block_read_all blocks n Hl). cbn [block_reads block_read map collect].
  destruct (concat blocks) as [|x xs]; [done|]. cbn. by rewrite app_nil_r.
Qed.

Lemma mode_pair w d p x : index_pair d p x -> index_pair (with_mode w d) p x.
Proof. intros [Hp|ls l e Hp Hs Hl Hla He]; [by constructor|]. by eapply ip_record. Qed.
Lemma mode_convert w d slot blocks : convert_blocks d slot blocks -> convert_blocks (with_mode w d) slot blocks.
Proof.
  intros [ib ls H1 H2 H3 H4|ib index pairs lss H1 H2 H3 H4 H5 H6].
  - by apply (cb_sequential (with_mode w d) slot ib ls).
  - apply (cb_vlir (with_mode w d) slot ib index pairs lss); try done. eapply Forall2_impl; [exact H5|]. intros. by apply mode_pair.
Qed.

Lemma geos_command t d name fuel n f l j b blocks :
  dev_shape t d -> holds_bytes d -> open_file (open_world t d) (from_str_lossy name) = Ok f ->
  de_scheme (file_entry f) = SGEOSSequential \/ de_scheme (file_entry f) = SGEOSVLIR ->
  stored d (file_entry f) l j b -> convert_blocks d (slice (32 * j) 32 b) blocks ->
  cmd_geosread t fuel name n d = (let '(out, e) := copy_blocks fuel blocks n in (Some out, e)).
Proof.
  intros Hd Hb Ho Hsc Hst Hc. unfold cmd_geosread. rewrite tool_open_false, mode_open_file by apply open_world_cells. rewrite Ho. cbn [rbind].
  destruct (open_parts t d _ f Hd Ho) as (c & l' & j' & b' & _ & _ & Hf).
  destruct (convert_stream t (with_mode false d) (file_entry f) l j b blocks) as (r & Hr & Hrs); [by destruct Hd; split|done|done|done|by apply mode_convert|].
  assert (match f with FGEOSVLIR g | FGEOSSequential g => geos_reader_new (gf_entry g) | _ => Panic end = Ok r) as ->.
  { destruct f as [c' e|g|g|g]; cbn [file_entry] in *; try done; destruct Hf as [_ Hf]; rewrite Hf in Hsc; by destruct Hsc. }
  change (w_dev (set_dev _ _)) with (with_mode false d). rewrite copy_collect, Hrs. done.
Qed.

Lemma geos_plain t d name fuel n f :
  open_file (open_world t d) (from_str_lossy name) = Ok f ->
  match f with FLinear _ _ | FRelative _ => True | _ => False end ->
  cmd_geosread t fuel name n d = (None, Panic).
Proof.
  intros Ho Hf. unfold cmd_geosread. rewrite tool_open_false, mode_open_file by apply open_world_cells. rewrite Ho. cbn [rbind]. by destruct f.
Qed.

(** ** Histories of commands *)

Lemma tool_existing t d dirs chains a : sound_image t d dirs chains a -> image_of t a d.
Proof.
  intros S. exists (start t d). split; [|split].
  - by apply (reached_open t a (start t d) d dirs chains a [] []).
  - destruct (si_fresh _ _ _ _ _ S) as (_ & _ & H1 & H2 & H3). unfold table. destruct a; cbn in *. by subst.
  - apply open_world_cells.
Qed.

Lemma tool_first t d name id :
  dev_shape t d -> d_writable d = true -> length (from_str_lossy name) <= 16 ->
  exists d', run_request t d (TFormat name id) = (d', RDone) /\ image_of t (formatted (from_str_lossy name) 0 0) d'.
Proof.
  intros Hd Hw Hn. set (nm := from_str_lossy name) in *. set (i := id_from_bytes (from_str_lossy id)).
  pose proof (history_answers t d nm i [] (formatted nm 0 0) [] Hd Hw Hn eq_refl) as Hans.
  pose proof (reached_by t (formatted nm 0 0) _ d nm i [] [] Hd Hw Hn eq_refl eq_refl) as Hr.
  cbn [run_request]. unfold cmd_format. rewrite tool_open_true by done. fold nm i.
  cbn [calls call start s_world fst snd] in Hans, Hr. destruct (write_format nm i (open_world t d)) as [w' r]. cbn [fst snd] in Hans, Hr.
  exists (saved w'). split.
  - unfold changes. cbn. destruct r as [[]| | |]; done.
  - exact (same_image t _ _ Hr eq_refl).
Qed.

Lemma tool_formatted t d a0 name id qs a rs :
  dev_shape t d -> d_writable d = true -> trun t a0 (TFormat name id :: qs) = Some (a, rs) ->
  exists d', run_requests t d (TFormat name id :: qs) = (d', rs) /\ image_of t a d'.
Proof.
  intros Hd Hw. cbn [trun tstep]. destruct (Nat.ltb_spec 16 (length (from_str_lossy name))) as [|Hn]; [done|].
  destruct (trun t _ qs) as [[a' rs']|] eqn:E; [|done]. intros [= <- <-].
  destruct (tool_first t d name id Hd Hw Hn) as (d1 & H1 & Hi). cbn [run_requests]. rewrite H1.
  destruct (tool_run t qs _ d1 a' rs' Hi E) as (d2 & -> & Hi2). by exists d2.
Qed.

Lemma read_reply t a d name n : image_of t a d -> 0 < n ->
  run_request t d (TRead name n) = (d, match slot_named a (from_str_lossy name) with
    | Some i => match as_slots a !! i with Some (Some f) => read_of f | _ => RBroken end
    | None => RError ENotFound
    end).
Proof.
  intros Hi Hn. assert (exists a' r, tstep t a (TRead name n) = Some (a', r) /\ r = match slot_named a (from_str_lossy name) with
    | Some i => match as_slots a !! i with Some (Some f) => read_of f | _ => RBroken end
    | None => RError ENotFound
    end) as (a' & r & Hs & <-).
  { cbn [tstep]. destruct (Nat.eqb_spec n 0); [lia|]. destruct (slot_named a (from_str_lossy name)) as [i|] eqn:E; [|by do 2 eexists].
    destruct (named_file a _ i E) as (f & Ef & _). rewrite Ef. by do 2 eexists. }
  destruct (tool_step t a d _ a' r Hi Hs) as (d' & H & _). cbn [run_request] in *. by injection H as <- <-.
Qed.

Lemma tool_wrote t a d source name ft a' :
  image_of t a d -> tstep t a (TWrite source name ft) = Some (a', RDone) ->
  exists d' i f, run_request t d (TWrite source name ft) = (d', RDone) /\ image_of t a' d'
    /\ slot_named a' (from_str_lossy name) = Some i /\ as_slots a' !! i = Some (Some f) /\ a_special f = false /\ a_data f = concat source
    /\ forall j g, as_slots a !! j = Some (Some g) -> as_slots a' !! j = Some (Some g) /\ slot_named a' (a_name g) = Some j.
Proof.
  intros Hi Hs. destruct (tool_step t a d _ a' RDone Hi Hs) as (d' & Hrun & Hi'). exists d'.
  destruct (image_session t a' d' Hi') as (Hr' & _).
  cbn [tstep] in Hs. destruct (16 <? _); [done|]. destruct (slot_named a _) eqn:En; [done|]. destruct (negb _); [done|].
  destruct (place t a) as [[i a1]|] eqn:Ep; [|done]. destruct (blocks_left t a =? 0); [by destruct (slot_unused a)|].
  destruct (Nat.leb_spec (length (concat source)) (254 * blocks_left t a)) as [Hl|]; [|done]. injection Hs as <-.
  assert (i < length (as_slots a1) /\ forall j f, as_slots a !! j = Some (Some f) -> as_slots a1 !! j = Some (Some f) /\ j <> i) as [Hlen Hold].
  { unfold place in Ep. destruct (slot_unused a) as [k|] eqn:Eu.
    - injection Ep as <- <-. apply slot_unused_some in Eu as [Ho _]. split; [by eapply lookup_lt_Some|].
      intros j f Hj. split; [done|]. intros ->. congruence.
    - destruct (_ <? dir_limit t); [|done]. injection Ep as <- <-. cbn [table as_slots]. split; [rewrite app_length; cbn; lia|].
      intros j f Hj. pose proof (lookup_lt_Some _ _ _ Hj). split; [by apply lookup_app_l_Some|lia]. }
  set (f := stored_file _ _ _ _) in *. exists i, f.
  assert (as_slots (with_file a1 i (Some f)) !! i = Some (Some f)) as Hf by by apply list_lookup_insert.
  split; [done|]. split; [done|]. split; [exact (slot_name_of t _ _ Hr' i f Hf)|]. split; [done|]. split; [done|]. split.
  - unfold f, stored_file. cbn [a_data]. by rewrite firstn_all2.
  - intros j g Hg. destruct (Hold j g Hg) as [Hj Hji].
    assert (as_slots (with_file a1 i (Some f)) !! j = Some (Some g)) as Hj' by (cbn; by rewrite list_lookup_insert_ne).
    split; [done|]. exact (slot_name_of t _ _ Hr' j g Hj').
Qed.

Lemma tool_write_read t a d source name ft a' n :
  image_of t a d -> tstep t a (TWrite source name ft) = Some (a', RDone) -> 0 < n ->
  exists d', run_request t d (TWrite source name ft) = (d', RDone) /\ image_of t a' d'
    /\ run_request t d' (TRead name n) = (d', RBytes (concat source))
    /\ (forall other bs, from_str_lossy other <> from_str_lossy name ->
          run_request t d (TRead other n) = (d, RBytes bs) -> run_request t d' (TRead other n) = (d', RBytes bs)).
Proof.
  intros Hi Hs Hn. destruct (tool_wrote t a d source name ft a' Hi Hs) as (d' & i & f & Hrun & Hi' & Hsn & Hf & Hp & Hdata & Hold).
  exists d'. split; [done|]. split; [done|]. split.
  - rewrite (read_reply _ _ _ _ _ Hi' Hn). rewrite Hsn, Hf. unfold read_of. by rewrite (plain_afile _ Hp), Hdata.
  - intros other bs Hne. rewrite (read_reply _ _ _ _ _ Hi Hn).
    destruct (slot_named a (from_str_lossy other)) as [j|] eqn:Ej; [|done].
    destruct (named_file a _ j Ej) as (g & Hg & Hgn). rewrite Hg in *. intros [= Hb]. destruct (Hold j g Hg) as [Hj' Hsj]. rewrite Hgn in Hsj.
    rewrite (read_reply _ _ _ _ _ Hi' Hn). by rewrite Hsj, Hj', Hb.
Qed.

(** Reading a file of any image. *)
Lemma read_any t d name n c e ss r :
  dev_shape t d -> open_file (open_world t d) (from_str_lossy name) = Ok (FLinear c e) -> chain_walk d (de_first e) = (ss, r) -> 0 < n ->
  let stream := concat (map (fun s => drop 2 (cs_data s)) ss) in
  cmd_read t name n d = (Some (match r with Ok _ => stream | _ => take (length stream / n * n) stream end), r) /\ (r = Ok tt \/ exists k, r = Err k).
Proof.
  intros Hd Ho Hw Hn stream. unfold cmd_read. rewrite tool_open_false, mode_open_file by apply open_world_cells. rewrite Ho. cbn [rbind file_reader].
  change (w_dev (set_dev _ _)) with (with_mode false d).
  assert (dev_shape t (with_mode false d)) as Hd' by (destruct Hd; by constructor).
  destruct (copy_chain t (with_mode false d) (de_first e) ss r n Hd') as [Hc He]; [by rewrite mode_walk|done|].
  change (copy_fuel (with_mode false d)) with (copy_fuel d) in Hc. rewrite Hc. split; [done|]. destruct r as [[]|k| |]; [by left|right; by exists k|done|done].
Qed.

(** ** Summaries *)
Lemma tool_created file n a0 name id qs a rs :
  0 < n -> trun (new_type file) a0 (TFormat name id :: qs) = Some (a, rs) ->
  exists bytes d d', cmd_create file n = (bytes, Ok tt)
    /\ disk_open (from_extension file) (mk_image ReadWriteMap bytes) = Ok (new_type file, flatten ReadWriteMap d)
    /\ run_requests (new_type file) d (TFormat name id :: qs) = (d', rs) /\ image_of (new_type file) a d'.
Proof.
  intros Hn Ht. destruct (create_image file n Hn) as (bytes & H1 & _ & _ & H4).
  destruct (tool_formatted (new_type file) (blank_dev (new_type file) true) a0 name id qs a rs) as (d' & Hr & Hi);
    [apply blank_dev_shape|reflexivity|exact Ht|].
  exists bytes, (blank_dev (new_type file) true), d'. done.
Qed.

Lemma tool_histories t d dirs chains a qs a' rs :
  sound_image t d dirs chains a -> trun t a qs = Some (a', rs) ->
  exists d', run_requests t d qs = (d', rs) /\ image_of t a' d'.
Proof. intros Hs Ht. by apply (tool_run t qs a d a' rs (tool_existing t d dirs chains a Hs)). Qed.

Lemma append_never t source name d :
  dev_shape t d -> holds_bytes d -> d_writable d = true ->
  exists r, cmd_append t source name d = (d, r) /\ r <> Ok tt
    /\ (forall f k, open_file (open_world t d) (from_str_lossy name) = Ok f -> file_writer d f = Ok k -> r = Err EReadOnly).
Proof.
  intros Hd Hb Hw. rewrite (append_command t source name d Hd Hb Hw). eexists. split; [reflexivity|].
  destruct (open_file (open_world t d) (from_str_lossy name)) as [f| | |] eqn:E; cbn [rbind done]; [|done..]. split.
  - by destruct (file_writer d f).
  - intros g k [= <-] Hk. by rewrite Hk.
Qed.

Lemma geos_short t d name n f l j b blocks fuel :
  dev_shape t d -> holds_bytes d -> open_file (open_world t d) (from_str_lossy name) = Ok f ->
  de_scheme (file_entry f) = SGEOSSequential \/ de_scheme (file_entry f) = SGEOSVLIR ->
  stored d (file_entry f) l j b -> convert_blocks d (slice (32 * j) 32 b) blocks ->
  length (concat blocks) < n -> cmd_geosread t (2 + fuel) name n d = (Some (concat blocks), Ok tt).
Proof.
  intros Hd Hb Ho Hs Hst Hc Hn. rewrite (geos_command t d name (2 + fuel) n f l j b blocks) by done.
  change (2 + fuel) with (S (S fuel)). by rewrite (copy_short fuel blocks n Hn).
Qed.

Lemma geos_long t d name n f l j b blocks :
  dev_shape t d -> holds_bytes d -> open_file (open_world t d) (from_str_lossy name) = Ok f ->
  de_scheme (file_entry f) = SGEOSSequential \/ de_scheme (file_entry f) = SGEOSVLIR ->
  stored d (file_entry f) l j b -> convert_blocks d (slice (32 * j) 32 b) blocks ->
  0 < n -> n <= length (concat blocks) ->
  (forall fuel out, cmd_geosread t fuel name n d = (Some out, Ok tt) -> length (concat blocks) < length out)
  /\ ((exists x, In x blocks /\ n <= length x) ->
      forall fuel, exists out, cmd_geosread t fuel name n d = (Some out, NoFuel) /\ length out = fuel * n).
Proof.
  intros Hd Hb Ho Hs Hst Hc Hn Hl. split.
  - intros fuel out. rewrite (geos_command t d name fuel n f l j b blocks) by done.
    destruct (copy_blocks fuel blocks n) as [o e] eqn:E. intros [= <- ->]. by apply (copy_ends fuel blocks n o Hn E).
  - intros (x & Hx & Hxn) fuel. rewrite (geos_command t d name fuel n f l j b blocks) by done.
    destruct (copy_long fuel blocks n x Hn Hx Hxn) as (out & -> & Hlen). by exists out.
Qed.
