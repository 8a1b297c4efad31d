(** Codecs: chain links, attribute bytes, names, PETSCII, directory entries,
    headers, GEOS metadata. *)
From Verif Require Import Base ListFacts Layout Block Petscii GeosTypes DirEntry Header Chain Spec SpecCodec GeomFacts FlatProofs.
Ltac Zify.zify_post_hook ::= Z.div_mod_to_equations.

(** ** Chain links *)

Lemma splice0_2 (a b : nat) (l : list nat) :
  2 <= length l -> splice 0 [a; b] l = a :: b :: drop 2 l.
Proof. intros. unfold splice. simpl. done. Qed.

Lemma link_encode_decode k bytes :
  2 <= length bytes ->
  (match k with Next l => fst l <> 0 | Tail size => 2 <= size <= 256 end) ->
  exists bytes', link_to_bytes k bytes = Ok bytes' /\ link_new bytes' = Ok k
    /\ length bytes' = length bytes /\ drop 2 bytes' = drop 2 bytes.
Proof.
  intros Hlen Hk. unfold link_to_bytes.
  destruct (Nat.ltb_spec (length bytes) 2); [lia|].
  destruct k as [[t s]|size].
  - eexists. split; [done|]. unfold write_loc. rewrite splice0_2 by done. simpl in *.
    unfold link_new. cbn. destruct (Nat.eqb_spec t 0); [done|].
    split; [done|]. rewrite drop_length. split; [lia|done].
  - destruct (Nat.leb_spec 2 size); [|lia]. destruct (Nat.leb_spec size 256); [|lia]. simpl andb.
    eexists. split; [done|]. rewrite splice0_2 by done.
    unfold link_new. cbn [length lookup_total list_lookup_total].
    change ((0 :: (size - 1) :: drop 2 bytes) !!! 0) with 0.
    change ((0 :: (size - 1) :: drop 2 bytes) !!! 1) with (size - 1).
    simpl Nat.eqb. cbn match.
    destruct (Nat.ltb_spec (size - 1) 1); [lia|]. split; [do 2 f_equal; lia|].
    rewrite drop_length. split; [lia|done].
Qed.

Lemma link_decode_total bytes :
  (exists k, link_new bytes = Ok k) \/
  (link_new bytes = Err EInvalidChainLink /\ bytes !!! 0 = 0 /\ bytes !!! 1 = 0).
Proof.
  unfold link_new. destruct (Nat.eqb_spec (bytes !!! 0) 0) as [H|H]; [|eauto].
  destruct (Nat.ltb_spec (bytes !!! 1) 1); [right; repeat split; lia|eauto].
Qed.

Lemma link_decode_encode bytes k :
  2 <= length bytes -> bytes !!! 1 < 256 -> link_new bytes = Ok k ->
  link_to_bytes k bytes = Ok bytes.
Proof.
  intros Hlen Hb Hk. unfold link_to_bytes.
  destruct (Nat.ltb_spec (length bytes) 2); [lia|].
  destruct bytes as [|a [|b bytes]]; [simpl in *; lia..|].
  unfold link_new in Hk.
  change ((a :: b :: bytes) !!! 0) with a in Hk.
  change ((a :: b :: bytes) !!! 1) with b in Hk, Hb.
  destruct (Nat.eqb_spec a 0) as [->|Ha].
  - destruct (Nat.ltb_spec b 1); [done|]. injection Hk as <-.
    destruct (Nat.leb_spec 2 (b + 1)); [|lia]. destruct (Nat.leb_spec (b + 1) 256); [|lia].
    simpl andb. cbn match. rewrite splice0_2 by (simpl; lia). rewrite Nat.add_sub. done.
  - injection Hk as <-. done.
Qed.

(** ** Attribute bytes *)

Lemma attr_byte_roundtrip b : b < 256 -> attr_to_byte (attr_from_byte b) = b.
Proof.
  intros Hb. apply Nat.eqb_eq. revert b Hb. apply forall_lt_dec. vm_compute. reflexivity.
Qed.

Lemma attr_scratched b :
  b < 256 -> is_scratched (attr_from_byte b) = (b mod 16 =? 0) && (b <? 128).
Proof.
  intros Hb. apply Bool.eqb_prop. revert b Hb.
  apply (forall_lt_dec (fun b => Bool.eqb (is_scratched (attr_from_byte b))
                                   ((b mod 16 =? 0) && (b <? 128)))).
  vm_compute. reflexivity.
Qed.

Lemma attr_roundtrip a :
  type_ok (fa_type a) -> attr_from_byte (attr_to_byte a) = a /\ attr_to_byte a < 256.
Proof.
  destruct a as [t u r l c]. simpl. intros Ht.
  assert (exists n, n < 16 /\ t = fa_type (attr_from_byte n)) as (n & Hn & ->).
  { destruct t as [| | | | |b]; [exists 0|exists 1|exists 2|exists 3|exists 4|exists b];
      (split; [simpl in *; lia|]); try reflexivity.
    simpl in Ht. do 5 (destruct b as [|b]; [lia|]).
    do 11 (destruct b as [|b]; [reflexivity|]). lia. }
  do 16 (destruct n as [|n]; [destruct u, r, l, c; split; vm_compute; try reflexivity; lia|]).
  lia.
Qed.

(** ** Padded names *)

Lemma padded_end_le pad bytes n : padded_end pad bytes n <= n.
Proof. induction n as [|n IH]; simpl; [lia|]. destruct (_ =? pad); lia. Qed.

Lemma padded_end_pad pad bytes n i :
  padded_end pad bytes n <= i < n -> bytes !!! i = pad.
Proof.
  induction n as [|n IH]; simpl; [lia|].
  destruct (Nat.eqb_spec (bytes !!! n) pad); [|lia].
  intros Hi. destruct (decide (i = n)) as [->|]; [done|]. apply IH. lia.
Qed.

Lemma from_padded_app s pad k :
  (forall x, last s = Some x -> x <> pad) ->
  from_padded_bytes (s ++ repeat pad k) pad = s.
Proof.
  intros Hlast. unfold from_padded_bytes.
  assert (padded_end pad (s ++ repeat pad k) (length (s ++ repeat pad k)) = length s) as ->.
  2: by rewrite take_app.
  rewrite app_length, repeat_length.
  assert (forall j, j <= k -> padded_end pad (s ++ repeat pad k) (length s + j) = length s) as H.
  2: by apply H.
  intros j. induction j as [|j IH]; intros Hj.
  - rewrite Nat.add_0_r. destruct (length s) as [|n] eqn:E; [done|]. cbn [padded_end].
    rewrite lookup_total_app_l by lia.
    assert (last s = Some (s !!! n)) as Hl.
    { rewrite last_lookup, E. simpl. apply list_lookup_lookup_total_lt. lia. }
    destruct (Nat.eqb_spec (s !!! n) pad); [by exfalso; eapply Hlast|done].
  - rewrite Nat.add_succ_r. cbn [padded_end].
    rewrite lookup_total_app_r by lia.
    replace (length s + j - length s) with j by lia.
    assert (repeat pad k !!! j = pad) as -> by (apply lookup_total_repeat; lia).
    rewrite Nat.eqb_refl. apply IH. lia.
Qed.

Lemma from_padded_last bytes pad x :
  last (from_padded_bytes bytes pad) = Some x -> x <> pad.
Proof.
  unfold from_padded_bytes. intros H.
  assert (forall n, n <= length bytes ->
    last (take (padded_end pad bytes n) bytes) = Some x -> x <> pad) as Hgen.
  2: by apply (Hgen (length bytes)).
  clear H. intros n. induction n as [|n IH]; intros Hn; simpl; [done|].
  destruct (Nat.eqb_spec (bytes !!! n) pad) as [|Hne]; [apply IH; lia|].
  rewrite last_lookup, take_length, Nat.min_l by lia. simpl pred.
  rewrite lookup_take by lia. intros Hx. apply list_lookup_total_correct in Hx. congruence.
Qed.

Lemma from_padded_length bytes pad : length (from_padded_bytes bytes pad) <= length bytes.
Proof. unfold from_padded_bytes. rewrite take_length. lia. Qed.

Lemma from_padded_repad bytes pad :
  write_bytes_with_padding (from_padded_bytes bytes pad) (length bytes) pad = Some bytes.
Proof.
  unfold write_bytes_with_padding.
  pose proof (from_padded_length bytes pad).
  destruct (Nat.ltb_spec (length bytes) (length (from_padded_bytes bytes pad))); [lia|].
  f_equal. unfold from_padded_bytes in *.
  set (e := padded_end pad bytes (length bytes)) in *.
  assert (e <= length bytes) by apply padded_end_le.
  rewrite take_length, Nat.min_l by lia.
  transitivity (take e bytes ++ drop e bytes); [|apply take_drop]. f_equal.
  apply list_eq_total; [rewrite repeat_length, drop_length; lia|].
  rewrite repeat_length. intros i Hi.
  rewrite lookup_total_drop. rewrite (padded_end_pad pad bytes (length bytes)) by lia.
  by apply lookup_total_repeat.
Qed.

Lemma padded_roundtrip s n pad :
  length s <= n -> (forall x, last s = Some x -> x <> pad) ->
  exists bytes, write_bytes_with_padding s n pad = Some bytes
    /\ length bytes = n /\ from_padded_bytes bytes pad = s.
Proof.
  intros Hn Hl. unfold write_bytes_with_padding.
  destruct (Nat.ltb_spec n (length s)); [lia|]. eexists. split; [done|].
  split; [rewrite app_length, repeat_length; lia|]. by apply from_padded_app.
Qed.

(** ** PETSCII *)

Lemma find_char_lookup c m p q :
  find_char c m p = Some q -> p <= q /\ m !! (q - p) = Some c.
Proof.
  revert p. induction m as [|x m IH]; intros p; simpl; [done|].
  destruct (N.eqb_spec x c) as [->|].
  - intros [= ->]. by rewrite Nat.sub_diag.
  - intros H. apply IH in H as [Hle Hl]. split; [lia|].
    replace (q - p) with (S (q - S p)) by lia. done.
Qed.

Lemma find_char_in c m p : In c m -> exists q, find_char c m p = Some q.
Proof.
  revert p. induction m as [|x m IH]; intros p; simpl; [done|].
  intros [->|H]; [rewrite N.eqb_refl; eauto|].
  destruct (x =? c)%N; eauto.
Qed.

Lemma petscii_char_roundtrip c :
  In c petscii_map -> petscii_display (from_str_lossy [c]) = [c].
Proof.
  intros Hc. unfold petscii_display, from_str_lossy. cbn [map].
  destruct (find_char_in c petscii_map 0 Hc) as [q Hq]. rewrite Hq.
  apply find_char_lookup in Hq as [_ Hq]. rewrite Nat.sub_0_r in Hq.
  unfold petscii_to_char. by rewrite (list_lookup_total_correct _ _ _ Hq).
Qed.

Lemma petscii_text_roundtrip s :
  (forall c, In c s -> In c petscii_map) -> petscii_display (from_str_lossy s) = s.
Proof.
  induction s as [|c s IH]; intros Hs; [done|].
  pose proof (petscii_char_roundtrip c (Hs c (or_introl eq_refl))) as Hc.
  transitivity (petscii_display (from_str_lossy [c]) ++ petscii_display (from_str_lossy s)); [done|].
  rewrite Hc, IH; [done|]. intros. apply Hs. by right.
Qed.

Lemma length_petscii_map : length petscii_map = 256.
Proof. vm_compute. reflexivity. Qed.

Lemma petscii_display_in s c :
  Forall is_byte s -> In c (petscii_display s) -> In c petscii_map.
Proof.
  intros Hs Hc. unfold petscii_display in Hc. apply in_map_iff in Hc as (b & <- & Hb).
  rewrite Forall_forall in Hs. specialize (Hs b ltac:(by apply elem_of_list_In)).
  unfold petscii_to_char. apply elem_of_list_In.
  apply elem_of_list_lookup_total_2. rewrite length_petscii_map. done.
Qed.

Lemma from_str_lossy_bytes s : Forall is_byte (from_str_lossy s).
Proof.
  unfold from_str_lossy. apply Forall_forall. intros b Hb.
  apply elem_of_list_In, in_map_iff in Hb as (c & <- & _).
  destruct (find_char c petscii_map 0) as [q|] eqn:E; [|unfold is_byte, petscii_none; lia].
  apply find_char_lookup in E as [_ E]. rewrite Nat.sub_0_r in E.
  apply lookup_lt_Some in E. rewrite length_petscii_map in E. done.
Qed.

(** ** GEOS bytes *)

Lemma structure_roundtrip b : structure_to_byte (structure_from_byte b) = b.
Proof. destruct b as [|[|b]]; reflexivity. Qed.

Lemma geos_type_roundtrip b : geos_type_to_byte (geos_type_from_byte b) = b.
Proof. do 15 (destruct b as [|b]; [reflexivity|]). reflexivity. Qed.

Lemma structure_roundtrip' s : structure_ok s -> structure_from_byte (structure_to_byte s) = s.
Proof. destruct s as [| |b]; try done. intros H. simpl in *. destruct b as [|[|b]]; try lia. done. Qed.

Lemma geos_type_roundtrip' t : geos_type_ok t -> geos_type_from_byte (geos_type_to_byte t) = t.
Proof.
  destruct t as [| | | | | | | | | | | | | | |b]; try done. intros H. simpl in *.
  do 15 (destruct b as [|b]; [lia|]). done.
Qed.
