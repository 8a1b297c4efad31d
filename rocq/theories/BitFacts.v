(** Bit-level facts about BAM entries. *)
From Verif Require Import Base ListFacts Layout Block Bam.
Ltac Zify.zify_post_hook ::= Z.div_mod_to_equations.
Local Open Scope N_scope.

Lemma testbit_lt m n i : m < 2 ^ n -> n <= i -> N.testbit m i = false.
Proof.
  intros Hm Hi. destruct (decide (m = 0)) as [->|H0]; [apply N.bits_0|].
  apply N.bits_above_log2. apply N.log2_lt_pow2 in Hm; lia.
Qed.

Lemma lt_pow2_bits m n : (forall i, n <= i -> N.testbit m i = false) -> m < 2 ^ n.
Proof.
  intros H. destruct (decide (m = 0)) as [->|H0].
  - apply N.neq_0_lt_0. by apply N.pow_nonzero.
  - apply N.log2_lt_pow2; [lia|]. destruct (N.lt_ge_cases (N.log2 m) n) as [Hl|Hl]; [done|].
    exfalso. specialize (H _ Hl). rewrite N.bit_log2 in H; done.
Qed.

Lemma testbit_single s i : N.testbit (N.shiftl 1 s) i = (i =? s).
Proof.
  rewrite N.shiftl_1_l. rewrite N.pow2_bits_eqb. apply N.eqb_sym.
Qed.

Lemma testbit_ones64 i : N.testbit (N.ones 64) i = (i <? 64).
Proof.
  destruct (N.ltb_spec i 64).
  - by apply N.ones_spec_low.
  - by apply N.ones_spec_high.
Qed.

Lemma testbit_clear m s i :
  m < 2 ^ 64 ->
  N.testbit (N.land m (N.lxor (N.ones 64) (N.shiftl 1 s))) i
  = N.testbit m i && negb (i =? s).
Proof.
  intros Hm. rewrite N.land_spec, N.lxor_spec, testbit_ones64, testbit_single.
  destruct (N.ltb_spec i 64); [by destruct (i =? s)|].
  by rewrite (testbit_lt m 64 i).
Qed.

Lemma testbit_set m s i :
  N.testbit (N.lor m (N.shiftl 1 s)) i = N.testbit m i || (i =? s).
Proof. by rewrite N.lor_spec, testbit_single. Qed.

(** Number of set bits among the positions [a .. a+n-1]. *)
Definition bits_from (m : N) (a n : nat) : nat :=
  length (List.filter (fun i => N.testbit m (N.of_nat i)) (seq a n)).
Definition popcount (m : N) : nat := bits_from m 0 64.
Global Arguments bits_from : simpl never.

Lemma bits_from_shift m a n : bits_from (N.shiftr m 1) a n = bits_from m (S a) n.
Proof.
  unfold bits_from. revert a. induction n as [|n IH]; intros a; [done|]. cbn [seq List.filter].
  rewrite N.shiftr_spec' . replace (N.of_nat a + 1) with (N.of_nat (S a)) by lia.
  destruct (N.testbit m (N.of_nat (S a))); cbn [length]; rewrite IH; done.
Qed.

Lemma count_bits_spec n m : count_bits n m = bits_from m 0 n.
Proof.
  revert m. induction n as [|n IH]; intros m; [done|]. cbn [count_bits].
  rewrite IH, bits_from_shift. unfold bits_from. cbn [seq List.filter].
  change (N.of_nat 0) with 0. destruct (N.testbit m 0); done.
Qed.

Lemma bits_from_ext m m' a n :
  (forall i, (a <= i < a + n)%nat -> N.testbit m (N.of_nat i) = N.testbit m' (N.of_nat i)) ->
  bits_from m a n = bits_from m' a n.
Proof.
  unfold bits_from. intros H. f_equal. apply filter_ext_in. intros i Hi.
  apply H. apply in_seq in Hi. lia.
Qed.

Lemma bits_from_split m a n k :
  bits_from m a (n + k) = (bits_from m a n + bits_from m (a + n) k)%nat.
Proof. unfold bits_from. by rewrite seq_app, List.filter_app, app_length. Qed.

Lemma bits_from_zero m a n :
  (forall i, (a <= i < a + n)%nat -> N.testbit m (N.of_nat i) = false) -> bits_from m a n = 0%nat.
Proof.
  revert a. induction n as [|n IH]; intros a H; [done|].
  unfold bits_from in *. cbn [seq List.filter]. rewrite H by lia. apply IH.
  intros i Hi. apply H. lia.
Qed.

Lemma bits_from_le m a n : (bits_from m a n <= n)%nat.
Proof.
  revert a. induction n as [|n IH]; intros a; [done|].
  unfold bits_from in *. cbn [seq List.filter]. specialize (IH (S a)).
  destruct (N.testbit m (N.of_nat a)); cbn [length]; lia.
Qed.

Lemma bits_from_flip m m' a n s :
  (a <= s < a + n)%nat ->
  N.testbit m (N.of_nat s) = true -> N.testbit m' (N.of_nat s) = false ->
  (forall i, i <> s -> N.testbit m (N.of_nat i) = N.testbit m' (N.of_nat i)) ->
  bits_from m a n = S (bits_from m' a n).
Proof.
  intros Hs Hm Hm' H.
  replace n with ((s - a) + (1 + (a + n - s - 1)))%nat by lia.
  rewrite !bits_from_split.
  rewrite (bits_from_ext m m' a) by (intros; apply H; lia).
  rewrite (bits_from_ext m m' (a + (s - a) + 1)) by (intros; apply H; lia).
  replace (a + (s - a))%nat with s by lia.
  assert (bits_from m s 1 = 1%nat) as -> by (unfold bits_from; cbn; by rewrite Hm).
  assert (bits_from m' s 1 = 0%nat) as -> by (unfold bits_from; cbn; by rewrite Hm').
  lia.
Qed.

Lemma bits_from_pos m a n :
  (0 < bits_from m a n)%nat <-> exists i, (a <= i < a + n)%nat /\ N.testbit m (N.of_nat i) = true.
Proof.
  unfold bits_from. split.
  - intros H. destruct (List.filter _ _) as [|x l] eqn:E; [simpl in H; lia|].
    assert (In x (List.filter (fun i => N.testbit m (N.of_nat i)) (seq a n))) as Hin
      by (rewrite E; by left).
    apply filter_In in Hin as [Hin Hx]. apply in_seq in Hin. exists x. split; [lia|done].
  - intros (i & Hi & Hb).
    assert (In i (List.filter (fun i => N.testbit m (N.of_nat i)) (seq a n))) as Hin.
    { apply filter_In. split; [apply in_seq; lia|done]. }
    destruct (List.filter _ _); [done|simpl; lia].
Qed.

Global Opaque count_bits.

(** ** Entries *)

Lemma entry_allocate_spec e s e' :
  e_map e < 2 ^ 64 -> entry_allocate e s = Ok e' ->
  (s < 64)%nat
  /\ (forall i, N.testbit (e_map e') i = N.testbit (e_map e) i && negb (i =? N.of_nat s))
  /\ e_free e' = popcount (e_map e') /\ e_map e' < 2 ^ 64.
Proof.
  intros Hm. unfold entry_allocate. destruct (Nat.ltb_spec s 64); [|done].
  intros <-%Ok_inj. split; [done|]. cbn [update_free_sectors e_map e_free].
  assert (forall i, N.testbit (N.land (e_map e) (N.lxor (N.ones 64) (N.shiftl 1 (N.of_nat s)))) i
     = N.testbit (e_map e) i && negb (i =? N.of_nat s)) as Hb by (intros; by apply testbit_clear).
  split; [done|]. split; [exact (count_bits_spec 64 _)|].
  apply lt_pow2_bits. intros i Hi. by rewrite Hb, (testbit_lt _ 64).
Qed.

Lemma entry_release_spec e s e' :
  e_map e < 2 ^ 64 -> entry_release e s = Ok e' ->
  (s < 64)%nat
  /\ (forall i, N.testbit (e_map e') i = N.testbit (e_map e) i || (i =? N.of_nat s))
  /\ e_free e' = popcount (e_map e') /\ e_map e' < 2 ^ 64.
Proof.
  intros Hm. unfold entry_release. destruct (Nat.ltb_spec s 64); [|done].
  intros <-%Ok_inj. split; [done|]. cbn [update_free_sectors e_map e_free].
  split; [intros; apply testbit_set|]. split; [exact (count_bits_spec 64 _)|].
  apply lt_pow2_bits. intros i Hi. rewrite testbit_set, (testbit_lt _ 64) by done.
  simpl. apply N.eqb_neq. lia.
Qed.

Lemma entry_allocate_ok e s : (s < 64)%nat -> exists e', entry_allocate e s = Ok e'.
Proof.
  intros Hs. unfold entry_allocate. destruct (Nat.ltb_spec s 64); [|lia]. by eexists.
Qed.

Lemma entry_release_ok e s : (s < 64)%nat -> exists e', entry_release e s = Ok e'.
Proof.
  intros Hs. unfold entry_release. destruct (Nat.ltb_spec s 64); [|lia]. by eexists.
Qed.

(** ** Bitmaps as bytes *)

Lemma length_bitmap_bytes n m : length (bitmap_bytes n m) = n.
Proof. revert m. induction n as [|n IH]; intros m; [done|]. simpl. by rewrite IH. Qed.

Lemma bitmap_bytes_bytes n m : Forall is_byte (bitmap_bytes n m).
Proof.
  revert m. induction n as [|n IH]; intros m; [constructor|]. cbn [bitmap_bytes].
  constructor; [|apply IH]. unfold is_byte.
  assert (N.land m 255 < 256); [|lia].
  change 255 with (N.ones 8). rewrite N.land_ones. apply N.mod_lt. done.
Qed.

Lemma bitmap_bytes_bit n m k j :
  (k < n)%nat -> j < 8 ->
  N.testbit (N.of_nat (bitmap_bytes n m !!! k)) j = N.testbit m (8 * N.of_nat k + j).
Proof.
  revert m k. induction n as [|n IH]; intros m k Hk Hj; [lia|].
  destruct k as [|k]; cbn [bitmap_bytes].
  - change ((N.to_nat (N.land m 255) :: bitmap_bytes n (N.shiftr m 8)) !!! 0%nat)
      with (N.to_nat (N.land m 255)).
    rewrite N2Nat.id. change 255 with (N.ones 8). rewrite N.land_spec, N.ones_spec_low by lia.
    rewrite andb_true_r. done.
  - change ((N.to_nat (N.land m 255) :: bitmap_bytes n (N.shiftr m 8)) !!! S k)
      with (bitmap_bytes n (N.shiftr m 8) !!! k).
    rewrite IH by lia. rewrite N.shiftr_spec'. f_equal. lia.
Qed.

Definition fold_map (acc : N) (b : nat) : N := N.lor (N.shiftl acc 8) (N.of_nat b).

Lemma map_from_bytes_cons b bs :
  map_from_bytes (b :: bs) = fold_map (map_from_bytes bs) b.
Proof. unfold map_from_bytes. cbn [rev]. rewrite fold_left_app. done. Qed.

Lemma map_from_bytes_bit bs k j :
  Forall is_byte bs -> j < 8 ->
  N.testbit (map_from_bytes bs) (8 * N.of_nat k + j) = N.testbit (N.of_nat (bs !!! k)) j.
Proof.
  intros Hb Hj. revert k. induction Hb as [|b bs Hb _ IH]; intros k.
  - change (map_from_bytes []) with 0. rewrite N.bits_0.
    rewrite nat_lookup_total_ge by (simpl; lia). by rewrite N.bits_0.
  - rewrite map_from_bytes_cons. unfold fold_map. rewrite N.lor_spec.
    destruct k as [|k].
    + change ((b :: bs) !!! 0%nat) with b. change (8 * N.of_nat 0) with 0. rewrite N.add_0_l.
      by rewrite N.shiftl_spec_low by done.
    + change ((b :: bs) !!! S k) with (bs !!! k). rewrite <- IH.
      rewrite N.shiftl_spec_high' by lia.
      replace (8 * N.of_nat (S k) + j - 8) with (8 * N.of_nat k + j) by lia.
      rewrite (testbit_lt (N.of_nat b) 8); [apply orb_false_r|unfold is_byte in Hb; lia|lia].
Qed.

Lemma map_from_bytes_lt bs :
  Forall is_byte bs -> map_from_bytes bs < 2 ^ (8 * N.of_nat (length bs)).
Proof.
  intros Hb. apply lt_pow2_bits. intros i Hi.
  replace i with (8 * N.of_nat (N.to_nat (i / 8)) + i mod 8) by lia.
  rewrite map_from_bytes_bit by (try done; lia).
  rewrite nat_lookup_total_ge by lia. apply N.bits_0.
Qed.

(** Bytes are determined by their eight bits. *)
Lemma byte_ext a b :
  is_byte a -> is_byte b ->
  (forall j, j < 8 -> N.testbit (N.of_nat a) j = N.testbit (N.of_nat b) j) -> a = b.
Proof.
  unfold is_byte. intros Ha Hb H. apply Nat2N.inj. apply N.bits_inj. intros j.
  destruct (N.lt_ge_cases j 8); [by apply H|].
  rewrite !(testbit_lt _ 8); try done; lia.
Qed.

Lemma bitmap_bytes_from_bytes bs :
  Forall is_byte bs -> bitmap_bytes (length bs) (map_from_bytes bs) = bs.
Proof.
  intros Hb. apply list_eq_total; [apply length_bitmap_bytes|].
  rewrite length_bitmap_bytes. intros k Hk. apply byte_ext.
  - apply bytes_lookup_total, bitmap_bytes_bytes.
  - by apply bytes_lookup_total.
  - intros j Hj. rewrite bitmap_bytes_bit by lia. by apply map_from_bytes_bit.
Qed.

Lemma map_from_bitmap_bytes n m :
  m < 2 ^ (8 * N.of_nat n) -> map_from_bytes (bitmap_bytes n m) = m.
Proof.
  intros Hm. apply N.bits_inj. intros i.
  replace i with (8 * N.of_nat (N.to_nat (i / 8)) + i mod 8) by lia.
  rewrite map_from_bytes_bit; [|apply bitmap_bytes_bytes|lia].
  destruct (decide (N.to_nat (i / 8) < n)%nat) as [H|H].
  - rewrite bitmap_bytes_bit by lia. done.
  - rewrite nat_lookup_total_ge by (rewrite length_bitmap_bytes; lia).
    rewrite N.bits_0. symmetry. apply (testbit_lt _ (8 * N.of_nat n)); [done|lia].
Qed.

Lemma ones_map_spec n i : N.testbit (ones_map n) i = (i <? N.of_nat n).
Proof.
  revert i. induction n as [|n IH]; intros i; cbn [ones_map]; [by rewrite N.bits_0; destruct i|].
  rewrite N.lor_spec.
  destruct (decide (i = 0)) as [->|Hi].
  - rewrite N.shiftl_spec_low by done. simpl. symmetry. apply N.ltb_lt. lia.
  - rewrite N.shiftl_spec_high' by lia. rewrite IH.
    replace (N.testbit 1 i) with false by (symmetry; apply (testbit_lt 1 1); lia).
    rewrite orb_false_r.
    destruct (N.ltb_spec (i - 1) (N.of_nat n)), (N.ltb_spec i (N.of_nat (S n))); try done; lia.
Qed.

Lemma ones_map_lt n : ones_map n < 2 ^ N.of_nat n.
Proof.
  apply lt_pow2_bits. intros i Hi. rewrite ones_map_spec. apply N.ltb_ge. lia.
Qed.
