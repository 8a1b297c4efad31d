(** The codec lemmas in the form used by the property theorems. *)
From Verif Require Import Base ListFacts Layout Block Petscii GeosTypes DirEntry Header Bam Chain
  Spec SpecCodec GeomFacts FlatProofs DevFacts BitFacts CodecProofs EntryProofs HeaderProofs.
Ltac Zify.zify_post_hook ::= Z.div_mod_to_equations.

Lemma link_layout k bytes :
  2 <= length bytes ->
  (match k with Next l => fst l <> 0 | Tail size => 2 <= size <= 256 end) ->
  let bytes' := (match k with Next l => [fst l; snd l] | Tail size => [0; size - 1] end)
                ++ drop 2 bytes in
  link_to_bytes k bytes = Ok bytes' /\ link_new bytes' = Ok k.
Proof.
  intros Hlen Hk bytes'.
  destruct (link_encode_decode k bytes Hlen Hk) as (b & Hb & Hd & _ & _).
  assert (b = bytes') as ->; [|done].
  revert Hb. unfold link_to_bytes. destruct (Nat.ltb_spec (length bytes) 2); [lia|].
  destruct k as [[t s]|size].
  - intros Hb. apply Ok_inj in Hb. subst b. done.
  - destruct ((2 <=? size) && (size <=? 256)); [|done].
    intros Hb. apply Ok_inj in Hb. subst b. done.
Qed.

Lemma link_decode_any bytes :
  2 <= length bytes -> Forall is_byte bytes ->
  (link_new bytes = Err EInvalidChainLink /\ take 2 bytes = [0; 0])
  \/ (exists k, link_new bytes = Ok k /\ link_to_bytes k bytes = Ok bytes).
Proof.
  intros Hlen Hb. destruct (link_decode_total bytes) as [[k Hk]|(Hk & H0 & H1)].
  - right. exists k. split; [done|]. apply link_decode_encode; try done.
    by apply bytes_lookup_total.
  - left. split; [done|]. do 2 (destruct bytes as [|? bytes]; [simpl in Hlen; lia|]).
    simpl in H0, H1. by subst.
Qed.

Lemma bitmap_reread bytes c :
  length bytes <= 8 -> Forall is_byte bytes ->
  bitmap_bytes (length bytes) (e_map (entry_from_bytes c bytes)) = bytes
  /\ e_free (entry_from_bytes c bytes) = c
  /\ forall s, s < 8 * length bytes ->
       N.testbit (e_map (entry_from_bytes c bytes)) (N.of_nat s)
       = N.testbit (N.of_nat (bytes !!! (s / 8))) (N.of_nat (s mod 8)).
Proof.
  intros Hl Hb. split; [|split; [done|]].
  - by apply bitmap_bytes_from_bytes.
  - intros s Hs.
    replace (N.of_nat s) with (8 * N.of_nat (s / 8) + N.of_nat (s mod 8))%N by lia.
    apply map_from_bytes_bit; [done|lia].
Qed.

Lemma bitmap_rewrite n m c :
  n <= 8 -> (m < 2 ^ (8 * N.of_nat n))%N ->
  entry_from_bytes c (bitmap_bytes n m) = mk_entry c m
  /\ length (bitmap_bytes n m) = n /\ Forall is_byte (bitmap_bytes n m).
Proof.
  intros Hn Hm. split; [|split].
  - unfold entry_from_bytes. f_equal. by apply map_from_bitmap_bytes.
  - apply length_bitmap_bytes.
  - apply bitmap_bytes_bytes.
Qed.

Lemma attr_byte b :
  b < 256 ->
  attr_to_byte (attr_from_byte b) = b /\ attr_value (attr_from_byte b) = b
  /\ is_scratched (attr_from_byte b) = (b mod 16 =? 0) && (b <? 128).
Proof.
  intros Hb. pose proof (attr_byte_roundtrip b Hb) as H. split; [done|]. split.
  - rewrite <- attr_value_spec; [done|by apply attr_from_byte_ok].
  - by apply attr_scratched.
Qed.

Lemma attr_any a :
  type_ok (fa_type a) ->
  attr_to_byte a = attr_value a /\ attr_from_byte (attr_to_byte a) = a /\ attr_to_byte a < 256.
Proof. intros Ha. split; [by apply attr_value_spec|]. by apply attr_roundtrip. Qed.

Lemma padded_names s n pad :
  (length s <= n ->
     write_bytes_with_padding s n pad = Some (s ++ repeat pad (n - length s))
     /\ (last s <> Some pad -> from_padded_bytes (s ++ repeat pad (n - length s)) pad = s))
  /\ (n < length s -> write_bytes_with_padding s n pad = None).
Proof.
  unfold write_bytes_with_padding. split; intros H; destruct (Nat.ltb_spec n (length s)); try lia; try done.
  split; [done|]. intros Hl. apply from_padded_app. intros x Hx ->. by apply Hl.
Qed.

Lemma padded_field field pad :
  write_bytes_with_padding (from_padded_bytes field pad) (length field) pad = Some field
  /\ last (from_padded_bytes field pad) <> Some pad.
Proof.
  split; [apply from_padded_repad|]. intros H. by apply from_padded_last in H.
Qed.

Lemma padded_names_fail :
  exists s field, length s <= 16 /\ write_bytes_with_padding s 16 160 = Some field
    /\ from_padded_bytes field 160 <> s.
Proof.
  exists [65; 160], ([65] ++ repeat 160 15). split; [simpl; lia|]. split; [reflexivity|].
  intros E. vm_compute in E. discriminate E.
Qed.

Lemma display_stable s :
  Forall is_byte s -> petscii_display (from_str_lossy (petscii_display s)) = petscii_display s.
Proof. intros Hs. apply petscii_text_roundtrip. intros c. by apply petscii_display_in. Qed.

Lemma text_kept text :
  (forall c, In c text -> exists b, b < 256 /\ petscii_display [b] = [c]) ->
  petscii_display (from_str_lossy text) = text.
Proof.
  intros H. apply petscii_text_roundtrip. intros c Hc. destruct (H c Hc) as (b & Hb & E).
  apply (petscii_display_in [b]); [by apply List.Forall_cons|]. rewrite E. by left.
Qed.

Lemma one_byte_each text :
  length (from_str_lossy text) = length text /\ Forall is_byte (from_str_lossy text).
Proof. split; [apply map_length|apply from_str_lossy_bytes]. Qed.

Definition letters_ok (n : nat) : bool :=
  if n <? 26 then
    bool_decide (from_str_lossy [N.of_nat (97 + n)] = [65 + n])
    && bool_decide (from_str_lossy [N.of_nat (65 + n)] = [97 + n])
    && bool_decide (petscii_display [193 + n] = [N.of_nat (65 + n)])
  else if (32 <=? n) && (n <=? 64) then
    bool_decide (from_str_lossy [N.of_nat n] = [n])
    && bool_decide (petscii_display [n] = [N.of_nat n])
  else true.

Lemma letters n :
  (n < 26 -> from_str_lossy [N.of_nat (97 + n)] = [65 + n]
             /\ from_str_lossy [N.of_nat (65 + n)] = [97 + n]
             /\ petscii_display [193 + n] = [N.of_nat (65 + n)])
  /\ (32 <= n <= 64 -> from_str_lossy [N.of_nat n] = [n] /\ petscii_display [n] = [N.of_nat n]).
Proof.
  assert (n < 65 -> letters_ok n = true) as H.
  { apply forall_lt_dec. vm_compute. reflexivity. }
  unfold letters_ok in H. split; intros Hn.
  - specialize (H ltac:(lia)). destruct (Nat.ltb_spec n 26); [|lia].
    rewrite !andb_true_iff, !bool_decide_eq_true in H. tauto.
  - specialize (H ltac:(lia)). destruct (Nat.ltb_spec n 26); [lia|].
    destruct (Nat.leb_spec 32 n); [|lia]. destruct (Nat.leb_spec n 64); [|lia].
    simpl in H. rewrite !andb_true_iff, !bool_decide_eq_true in H. tauto.
Qed.

Lemma geos_bytes b :
  structure_to_byte (structure_from_byte b) = b /\ geos_type_to_byte (geos_type_from_byte b) = b.
Proof. split; [apply structure_roundtrip|apply geos_type_roundtrip]. Qed.

Lemma geos_values s t :
  (structure_ok s -> structure_from_byte (structure_to_byte s) = s)
  /\ (geos_type_ok t -> geos_type_from_byte (geos_type_to_byte t) = t).
Proof. split; [apply structure_roundtrip'|apply geos_type_roundtrip']. Qed.

Lemma geos_extra sch bytes :
  length bytes = 9 -> extra_to_bytes (extra_from_bytes sch bytes) bytes = Ok bytes
                      /\ extra_value (extra_from_bytes sch bytes) = bytes.
Proof. intros H. split; [by apply extra_rewrite|by apply extra_value_parse]. Qed.

(** A device of each type, for the examples. *)
Definition blank_dev (t : disk_type) (w : bool) : dev :=
  let g := match t with D64 => mk_geometry d64_tracks 35 false
           | D71 => mk_geometry d71_tracks 70 false | D81 => mk_geometry d81_tracks 80 false end in
  mk_dev w g (repeat zero_block (sector_count g)) [] [].

Lemma blank_dev_shape t w : dev_shape t (blank_dev t w).
Proof.
  split.
  - destruct t; simpl; tauto.
  - unfold blank_dev. cbn [d_blocks d_geom]. apply repeat_length.
  - unfold blank_dev. cbn [d_blocks]. apply Forall_forall. intros b Hb.
    apply elem_of_list_In, repeat_spec in Hb. subst. reflexivity.
  - destruct t; reflexivity.
Qed.

Lemma some_device t : exists d, dev_shape t d /\ d_writable d = true.
Proof. exists (blank_dev t true). split; [apply blank_dev_shape|done]. Qed.
