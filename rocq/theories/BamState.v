(** Allocating and releasing sectors in a consistent BAM. *)
From Verif Require Import Base ListFacts Layout Block Bam Format Spec SpecCodec SpecBam GeomFacts FlatProofs
  BitFacts HeaderProofs AllocProofs.
Ltac Zify.zify_post_hook ::= Z.div_mod_to_equations.

Lemma is_free_b b l : is_free b l <-> freeb b l = true.
Proof. done. Qed.

Lemma sectors_fit t tr : 1 <= tr <= spec_tracks t -> spec_sectors t tr <= 8 * bitmap_size t.
Proof. intros H. destruct t; simpl in *; unfold zone; repeat case_match; lia. Qed.

(** Consistency in terms of bits. *)
Lemma consistent_intro t b :
  (exists g, b_format b = set_geos g (native_format t)) ->
  b_invalidated b = false -> length (b_entries b) = spec_tracks t ->
  (forall tr i, 1 <= tr <= spec_tracks t -> N.testbit (e_map (track_entry b tr)) i = true ->
     N.to_nat i < spec_sectors t tr) ->
  (forall tr, 1 <= tr <= spec_tracks t ->
     e_free (track_entry b tr) = popcount (e_map (track_entry b tr))) ->
  bam_consistent t b.
Proof.
  intros Hf Hv Hl Hbits Hcount. split.
  - split; try done. apply Forall_lookup. intros i e He.
    assert (e = track_entry b (S i)) as ->.
    { unfold track_entry. replace (S i - 1) with i by lia. by rewrite (list_lookup_total_correct _ _ _ He). }
    assert (1 <= S i <= spec_tracks t) as Hi by (apply lookup_lt_Some in He; lia).
    split.
    + apply lt_pow2_bits. intros k Hk. destruct (N.testbit _ k) eqn:E; [|done].
      apply Hbits in E; [|done]. pose proof (sectors_fit t (S i) Hi). lia.
    + rewrite Hcount by done. unfold popcount. pose proof (bits_from_le (e_map (track_entry b (S i))) 0 64). lia.
  - intros tr s Htr Hs. apply Hbits in Hs; [|done]. simpl in Hs. by rewrite Nat2N.id in Hs.
  - intros tr Htr. rewrite <- popcount_free_bits. by apply Hcount.
Qed.

Lemma consistent_bit t b tr i :
  bam_consistent t b -> 1 <= tr <= spec_tracks t -> N.testbit (e_map (track_entry b tr)) i = true ->
  N.to_nat i < spec_sectors t tr.
Proof.
  intros Hb Htr Hi. apply (bc_bits _ _ Hb tr _ Htr). unfold is_free. simpl. by rewrite N2Nat.id.
Qed.

(** A consistent BAM is determined by its format and its free sectors. *)
Lemma bam_ext t b b' :
  bam_consistent t b -> bam_consistent t b' -> b_format b = b_format b' ->
  (forall l, bam_sector t l -> freeb b l = freeb b' l) -> b = b'.
Proof.
  intros Hb Hb' Hf Heq.
  assert (b_entries b = b_entries b') as He.
  { apply list_eq_total.
    - by rewrite (bs_length _ _ (bc_shape _ _ Hb)), (bs_length _ _ (bc_shape _ _ Hb')).
    - rewrite (bs_length _ _ (bc_shape _ _ Hb)). intros i Hi.
      assert (1 <= S i <= spec_tracks t) as Htr by lia.
      assert (e_map (track_entry b (S i)) = e_map (track_entry b' (S i))) as Hm.
      { apply N.bits_inj. intros k.
        destruct (decide (N.to_nat k < spec_sectors t (S i))) as [Hk|Hk].
        - specialize (Heq (S i, N.to_nat k)). unfold freeb in Heq. simpl in Heq. rewrite N2Nat.id in Heq.
          apply Heq. by split.
        - destruct (N.testbit (e_map (track_entry b (S i))) k) eqn:E1.
          { apply (consistent_bit t) in E1; [lia|done|done]. }
          destruct (N.testbit (e_map (track_entry b' (S i))) k) eqn:E2; [|done].
          apply (consistent_bit t) in E2; [lia|done|done]. }
      pose proof (bc_counts _ _ Hb (S i) Htr) as Hc. pose proof (bc_counts _ _ Hb' (S i) Htr) as Hc'.
      rewrite Hm in Hc. rewrite <- Hc' in Hc. unfold track_entry in *. replace (S i - 1) with i in * by lia.
      destruct (b_entries b !!! i), (b_entries b' !!! i). simpl in *. congruence. }
  pose proof (bs_valid _ _ (bc_shape _ _ Hb)). pose proof (bs_valid _ _ (bc_shape _ _ Hb')).
  destruct b, b'. simpl in *. congruence.
Qed.

Lemma track_entry_insert b f tr tr' e :
  1 <= tr <= length (b_entries b) -> 1 <= tr' ->
  track_entry (mk_bam f (<[tr - 1 := e]> (b_entries b)) (b_invalidated b)) tr'
  = if decide (tr' = tr) then e else track_entry b tr'.
Proof.
  intros Htr Htr'. unfold track_entry. cbn [b_entries]. destruct (decide (tr' = tr)) as [->|Hne].
  - apply list_lookup_total_insert. lia.
  - apply list_lookup_total_insert_ne. lia.
Qed.

Lemma bam_update_spec t b l f (g : N -> bool -> bool) :
  bam_consistent t b -> bam_sector t l ->
  (forall e, (e_map e < 2 ^ 64)%N -> exists e', f e (snd l) = Ok e'
      /\ (forall i, N.testbit (e_map e') i = g i (N.testbit (e_map e) i))
      /\ e_free e' = popcount (e_map e')) ->
  (forall i, g i true = true \/ i = N.of_nat (snd l)) ->
  (forall i, g i false = true -> i = N.of_nat (snd l)) ->
  exists b', bam_update b l f = Ok b' /\ bam_consistent t b' /\ b_format b' = b_format b
    /\ (forall l', bam_sector t l' ->
          freeb b' l' = if decide (fst l' = fst l) then g (N.of_nat (snd l')) (freeb b l') else freeb b l').
Proof.
  intros Hb [Hl1 Hl2] Hf Hgt Hgf. unfold bam_update, check_validity.
  rewrite (bs_valid _ _ (bc_shape _ _ Hb)). cbn [rbind]. rewrite (entry_at_ok t b (con_frame t b Hb)) by done. cbn [rbind].
  pose proof (bs_length _ _ (bc_shape _ _ Hb)) as Hlen.
  assert ((e_map (track_entry b (fst l)) < 2 ^ 64)%N) as Hlt.
  { apply lt_pow2_bits. intros i Hi. destruct (N.testbit _ i) eqn:E; [|done].
    apply (consistent_bit t) in E; [|done|done]. pose proof (spec_sectors_bounds t (fst l) Hl1). lia. }
  destruct (Hf _ Hlt) as (e' & -> & Hbits & Hfree). cbn [rbind].
  eexists. split; [reflexivity|].
  assert (forall tr, 1 <= tr ->
    track_entry (mk_bam (b_format b) (<[fst l - 1 := e']> (b_entries b)) false) tr
    = if decide (tr = fst l) then e' else track_entry b tr) as Hte.
  { intros tr Htr. rewrite <- (bs_valid _ _ (bc_shape _ _ Hb)) at 1. apply track_entry_insert; lia. }
  split; [|split; [done|]].
  - apply consistent_intro; try done.
    + exact (con_fmt t b (con_frame t b Hb)).
    + cbn [b_entries]. by rewrite insert_length.
    + intros tr i Htr. rewrite Hte by lia. destruct (decide (tr = fst l)) as [->|]; [|by apply consistent_bit].
      rewrite Hbits. destruct (N.testbit (e_map (track_entry b (fst l))) i) eqn:E.
      * intros _. by apply (consistent_bit t b).
      * intros Hi%Hgf. subst i. by rewrite Nat2N.id.
    + intros tr Htr. rewrite Hte by lia. destruct (decide (tr = fst l)) as [->|]; [done|].
      rewrite popcount_free_bits. by apply (bc_counts _ _ Hb).
  - intros l' Hl'. unfold freeb. rewrite Hte by apply Hl'.
    destruct (decide (fst l' = fst l)) as [->|]; [|done]. apply Hbits.
Qed.

Lemma sector_eqb (tr s s0 : nat) :
  (N.of_nat s =? N.of_nat s0)%N = bool_decide ((tr, s) = (tr, s0)).
Proof.
  destruct (decide (s = s0)) as [->|Hne].
  - by rewrite N.eqb_refl, bool_decide_eq_true_2.
  - rewrite bool_decide_eq_false_2 by congruence. apply N.eqb_neq. lia.
Qed.

Lemma allocate_spec t b l :
  bam_consistent t b -> bam_sector t l ->
  exists b', bam_allocate b l = Ok b' /\ bam_consistent t b' /\ b_format b' = b_format b
    /\ (forall l', bam_sector t l' -> freeb b' l' = freeb b l' && negb (bool_decide (l' = l))).
Proof.
  intros Hb Hl.
  destruct (bam_update_spec t b l entry_allocate (fun i x => x && negb (i =? N.of_nat (snd l))%N)) as
    (b' & H1 & H2 & H3 & H4); try done.
  - intros e He. pose proof (spec_sectors_bounds t (fst l) (proj1 Hl)). destruct Hl as [Hl1 Hl2].
    destruct (entry_allocate_ok e (snd l)) as [e' He']; [lia|].
    destruct (entry_allocate_spec _ _ _ He He') as (_ & Hbit & Hc & _). by exists e'.
  - intros i. destruct (N.eqb_spec i (N.of_nat (snd l))); [by right|by left].
  - exists b'. split; [done|]. split; [done|]. split; [done|]. intros l' Hl'. rewrite H4 by done.
    destruct l' as [tr s], l as [tr0 s0]. simpl. destruct (decide (tr = tr0)) as [->|Hne].
    + by rewrite (sector_eqb tr0).
    + rewrite bool_decide_eq_false_2 by congruence. by rewrite andb_true_r.
Qed.

Lemma release_spec t b l :
  bam_consistent t b -> bam_sector t l ->
  exists b', bam_free b l = Ok b' /\ bam_consistent t b' /\ b_format b' = b_format b
    /\ (forall l', bam_sector t l' -> freeb b' l' = freeb b l' || bool_decide (l' = l)).
Proof.
  intros Hb Hl.
  destruct (bam_update_spec t b l entry_release (fun i x => x || (i =? N.of_nat (snd l))%N)) as
    (b' & H1 & H2 & H3 & H4); try done.
  - intros e He. pose proof (spec_sectors_bounds t (fst l) (proj1 Hl)). destruct Hl as [Hl1 Hl2].
    destruct (entry_release_ok e (snd l)) as [e' He']; [lia|].
    destruct (entry_release_spec _ _ _ He He') as (_ & Hbit & Hc & _). by exists e'.
  - intros i. by left.
  - intros i Hi. by apply N.eqb_eq in Hi.
  - exists b'. split; [done|]. split; [done|]. split; [done|]. intros l' Hl'. rewrite H4 by done.
    destruct l' as [tr s], l as [tr0 s0]. simpl. destruct (decide (tr = tr0)) as [->|Hne].
    + by rewrite (sector_eqb tr0).
    + rewrite bool_decide_eq_false_2 by congruence. by rewrite orb_false_r.
Qed.

Lemma map_range_total {A} `{Inhabited A} (f : nat -> A) n tr :
  1 <= tr <= n -> map f (range_incl 1 n) !!! (tr - 1) = f tr.
Proof.
  intros Htr. unfold range_incl. rewrite list_lookup_total_alt, list_lookup_fmap.
  rewrite lookup_seq_lt by lia. simpl. f_equal. lia.
Qed.

Lemma format_bam_tracks t : bam_tracks (bam_sections (native_format t)) = spec_tracks t.
Proof. by destruct t. Qed.

Lemma bam_new_consistent t :
  bam_consistent t (bam_new (native_format t))
  /\ forall l, bam_sector t l -> freeb (bam_new (native_format t)) l = true.
Proof.
  assert (forall tr, 1 <= tr <= spec_tracks t ->
    track_entry (bam_new (native_format t)) tr = entry_new (spec_sectors t tr)) as Hte.
  { intros tr Htr. unfold track_entry, bam_new. cbn [b_entries]. rewrite format_bam_tracks.
    rewrite map_range_total by done. f_equal. apply format_tracks. by destruct t. }
  split.
  - apply consistent_intro; try done.
    + exists (geos (native_format t)). by destruct t.
    + unfold bam_new. cbn [b_entries]. rewrite map_length, format_bam_tracks. unfold range_incl.
      rewrite seq_length. lia.
    + intros tr i Htr. rewrite Hte by done. cbn [entry_new e_map]. rewrite ones_map_spec, N.ltb_lt. lia.
    + intros tr Htr. rewrite Hte by done. cbn [entry_new e_map e_free].
      pose proof (spec_sectors_bounds t tr Htr). set (n := spec_sectors t tr) in *.
      unfold popcount. replace 64 with (n + (64 - n)) by lia. rewrite bits_from_split.
      assert (bits_from (ones_map n) 0 n = n) as ->.
      { unfold bits_from.
        replace (List.filter (fun i => N.testbit (ones_map n) (N.of_nat i)) (seq 0 n)) with (seq 0 n);
          [apply seq_length|].
        symmetry. assert (forall l, (forall i, In i l -> i < n) ->
          List.filter (fun i => N.testbit (ones_map n) (N.of_nat i)) l = l) as Hfl.
        { induction l as [|x l IH]; intros Hl; [done|]. cbn [List.filter]. rewrite ones_map_spec.
          rewrite (proj2 (N.ltb_lt _ _)) by (specialize (Hl x (or_introl eq_refl)); lia).
          f_equal. apply IH. intros i Hi. apply Hl. by right. }
        apply Hfl. intros i Hi%in_seq. lia. }
      rewrite bits_from_zero; [lia|]. intros i Hi. rewrite ones_map_spec. apply N.ltb_ge. lia.
  - intros l [Hl1 Hl2]. unfold freeb. rewrite Hte by done. cbn [entry_new e_map].
    rewrite ones_map_spec. apply N.ltb_lt. lia.
Qed.

(** Setting the GEOS flag. *)
Lemma consistent_set_format t b g :
  bam_consistent t b -> bam_consistent t (bam_set_format (set_geos g (native_format t)) b).
Proof. intros [[? ? ? ?] Hb Hc]. split; [split|..]; try done. by exists g. Qed.

(** ** The number of free blocks *)

Lemma count_filter_map {A B} (p : B -> bool) (f : A -> B) l :
  length (List.filter p (map f l)) = length (List.filter (fun a => p (f a)) l).
Proof.
  induction l as [|x l IH]; [done|]. cbn [map List.filter]. destruct (p (f x)); cbn [length]; by rewrite IH.
Qed.

Lemma filter_concat {A} (p : A -> bool) (ls : list (list A)) :
  List.filter p (concat ls) = concat (map (List.filter p) ls).
Proof. induction ls as [|l ls IH]; [done|]. cbn [concat map]. by rewrite List.filter_app, IH. Qed.

Lemma length_concat {A} (ls : list (list A)) : length (concat ls) = sum (map length ls).
Proof. induction ls as [|l ls IH]; [done|]. cbn [concat map]. by rewrite app_length, IH. Qed.

Lemma filter_filter {A} (p q : A -> bool) l :
  List.filter p (List.filter q l) = List.filter (fun x => q x && p x) l.
Proof.
  induction l as [|x l IH]; [done|]. cbn [List.filter]. destruct (q x); cbn [List.filter andb]; by rewrite IH.
Qed.

Lemma filter_false {A} (p : A -> bool) l : (forall x, In x l -> p x = false) -> List.filter p l = [].
Proof.
  induction l as [|x l IH]; intros H; [done|]. cbn [List.filter]. rewrite H by by left.
  apply IH. intros y Hy. apply H. by right.
Qed.

Lemma track_free_count t b tr :
  bam_consistent t b -> 1 <= tr <= spec_tracks t ->
  e_free (track_entry b tr)
  = length (List.filter (fun s => freeb b (tr, s)) (seq 0 (spec_sectors t tr))).
Proof.
  intros Hb Htr. rewrite (bc_counts _ _ Hb tr Htr), <- popcount_free_bits. unfold popcount.
  pose proof (spec_sectors_bounds t tr Htr). set (n := spec_sectors t tr) in *.
  replace 64 with (n + (64 - n)) by lia. rewrite bits_from_split.
  rewrite (bits_from_zero _ (0 + n)); [unfold bits_from, freeb; simpl; lia|].
  intros i Hi. destruct (N.testbit _ (N.of_nat i)) eqn:E; [|done].
  apply (consistent_bit t) in E; [|done|done]. fold n in E. lia.
Qed.

Lemma blocks_free_spec t b :
  bam_consistent t b ->
  blocks_free_count b = Ok (length (List.filter (freeb b) (data_sectors t))).
Proof.
  intros Hb. pose proof (con_fmt t b (con_frame t b Hb)) as Hf.
  unfold blocks_free_count. rewrite (fmt_last t) by done. rewrite (bs_length _ _ (bc_shape _ _ Hb)).
  rewrite Nat.ltb_irrefl. f_equal. unfold data_sectors, all_sectors.
  rewrite filter_filter, filter_concat, length_concat, !map_map. rewrite (fmt_dir t) by done.
  rewrite <- seq_shift, map_map. f_equal. apply map_ext_in. intros i Hi%in_seq.
  rewrite count_filter_map. cbn [fst].
  destruct (Nat.eqb_spec i (dir_track t - 1)) as [->|Hne].
  - rewrite filter_false; [done|]. intros s _. replace (S (dir_track t - 1)) with (dir_track t) by (destruct t; simpl; lia).
    by rewrite Nat.eqb_refl.
  - rewrite (proj2 (Nat.eqb_neq (S i) (dir_track t))) by lia. cbn [negb andb].
    pose proof (track_free_count t b (S i) Hb ltac:(lia)) as Hc. unfold track_entry in Hc.
    replace (S i - 1) with i in Hc by lia. exact Hc.
Qed.

Lemma bam_sectors_spec t b want :
  bam_consistent t b ->
  bam_sectors want b = Ok (List.filter (fun l => Bool.eqb (freeb b l) want) (all_sectors t (spec_tracks t))).
Proof.
  intros Hb. pose proof (con_fmt t b (con_frame t b Hb)) as Hf.
  unfold bam_sectors. rewrite (fmt_last t) by done. rewrite (bs_length _ _ (bc_shape _ _ Hb)).
  rewrite Nat.ltb_irrefl. f_equal. unfold all_sectors.
  rewrite filter_concat, !map_map, <- seq_shift, map_map. f_equal. apply map_ext_in. intros i Hi%in_seq.
  pose proof (fmt_sectors t (b_format b) (S i) Hf ltac:(lia)) as Hs. unfold sectors_in_track in Hs.
  replace (i + 1) with (S i) by lia. rewrite Hs.
  assert (forall n s m, (forall k, N.testbit m (N.of_nat k) = freeb b (S i, s + k)) ->
    track_sectors want (S i) s n m
    = List.filter (fun l => Bool.eqb (freeb b l) want) (map (pair (S i)) (seq s n))) as H.
  { induction n as [|n IH]; intros s m Hm; [done|]. cbn [track_sectors seq map List.filter].
    rewrite (IH (S s)).
    - pose proof (Hm 0) as H0. rewrite Nat.add_0_r in H0. change (N.of_nat 0) with 0%N in H0. rewrite H0.
      by destruct (Bool.eqb (freeb b (S i, s)) want).
    - intros k. rewrite N.shiftr_spec'. replace (N.of_nat k + 1)%N with (N.of_nat (S k)) by lia.
      rewrite Hm. f_equal. f_equal. lia. }
  apply H. intros k. unfold freeb, track_entry. cbn [fst snd]. by replace (S i - 1) with i by lia.
Qed.

(** ** Statements *)

Lemma alloc_exact t b l :
  bam_consistent t b -> bam_sector t l ->
  (exists b', bam_allocate b l = Ok b' /\ bam_consistent t b'
     /\ forall l', bam_sector t l' -> is_free b' l' <-> is_free b l' /\ l' <> l)
  /\ (exists b', bam_free b l = Ok b' /\ bam_consistent t b'
     /\ forall l', bam_sector t l' -> is_free b' l' <-> is_free b l' \/ l' = l).
Proof.
  intros Hb Hl. split.
  - destruct (allocate_spec t b l Hb Hl) as (b' & H1 & H2 & _ & H3). exists b'. split; [done|]. split; [done|].
    intros l' Hl'. rewrite !is_free_b, H3 by done. rewrite andb_true_iff, negb_true_iff, bool_decide_eq_false. done.
  - destruct (release_spec t b l Hb Hl) as (b' & H1 & H2 & _ & H3). exists b'. split; [done|]. split; [done|].
    intros l' Hl'. rewrite !is_free_b, H3 by done. rewrite orb_true_iff, bool_decide_eq_true. done.
Qed.

Lemma free_lists t b :
  bam_consistent t b ->
  free_sectors b = Ok (List.filter (freeb b) (all_sectors t (spec_tracks t)))
  /\ allocated_sectors b = Ok (List.filter (fun l => negb (freeb b l)) (all_sectors t (spec_tracks t)))
  /\ blocks_free_count b = Ok (length (List.filter (freeb b) (data_sectors t))).
Proof.
  intros Hb. unfold free_sectors, allocated_sectors. rewrite !(bam_sectors_spec t) by done.
  split; [|split; [|by apply blocks_free_spec]]; f_equal; apply List.filter_ext; intros l; by destruct (freeb b l).
Qed.

(** A BAM for the examples: the system sectors of the disk and a few others are allocated. *)
Definition example_bam (t : disk_type) (g : bool) (ls : list location) : bam :=
  match (fix go b ls := match ls with [] => Ok b | l :: ls => let? b := bam_allocate b l in go b ls end)
          (bam_set_format (set_geos g (native_format t)) (bam_new (native_format t))) ls with
  | Ok b => b
  | _ => bam_new (native_format t)
  end.

Lemma example_consistent t g ls :
  Forall (bam_sector t) ls ->
  bam_consistent t (example_bam t g ls)
  /\ b_format (example_bam t g ls) = set_geos g (native_format t)
  /\ forall l, bam_sector t l -> freeb (example_bam t g ls) l = negb (bool_decide (l ∈ ls)).
Proof.
  intros Hls. unfold example_bam.
  destruct (bam_new_consistent t) as [Hc Hfree]. apply (consistent_set_format _ _ g) in Hc.
  set (b0 := bam_set_format _ _) in *.
  assert (forall l, bam_sector t l -> freeb b0 l = true) as Hfree0 by exact Hfree.
  assert (b_format b0 = set_geos g (native_format t)) as Hfmt by done. clearbody b0.
  assert (forall b, bam_consistent t b -> b_format b = set_geos g (native_format t) ->
    exists b', (fix go b ls := match ls with [] => Ok b | l :: ls => let? b := bam_allocate b l in go b ls end) b ls = Ok b'
      /\ bam_consistent t b' /\ b_format b' = set_geos g (native_format t)
      /\ forall l, bam_sector t l -> freeb b' l = freeb b l && negb (bool_decide (l ∈ ls))) as H.
  { clear -Hls. induction Hls as [|l ls Hl Hls IH]; intros b Hb Hf.
    - exists b. split; [done|]. split; [done|]. split; [done|]. intros l _.
      by rewrite bool_decide_eq_false_2, andb_true_r by apply not_elem_of_nil.
    - destruct (allocate_spec t b l Hb Hl) as (b1 & -> & Hb1 & Hf1 & Hfr). cbn [rbind].
      destruct (IH b1 Hb1) as (b' & -> & Hb' & Hf' & Hfr'); [congruence|]. exists b'.
      split; [done|]. split; [done|]. split; [done|]. intros l' Hl'. rewrite Hfr', Hfr by done.
      rewrite <- andb_assoc. f_equal. rewrite <- negb_orb. f_equal.
      rewrite <- bool_decide_or. apply bool_decide_ext. rewrite elem_of_cons. done. }
  destruct (H b0 Hc Hfmt) as (b' & -> & Hb' & Hf' & Hfr'). split; [done|]. split; [done|].
  intros l Hl. by rewrite Hfr', Hfree0 by done.
Qed.

Definition some_taken : list location := [(18, 0); (18, 1); (17, 0); (17, 1); (17, 10)].
Definition track_taken : list location := map (pair 17) (seq 0 21).

Lemma some_taken_ok : Forall (bam_sector D64) some_taken.
Proof. repeat (apply List.Forall_cons; [split; cbn; lia|]). apply List.Forall_nil. Qed.
Lemma track_taken_ok : Forall (bam_sector D64) track_taken.
Proof. repeat (apply List.Forall_cons; [split; cbn; lia|]). apply List.Forall_nil. Qed.
