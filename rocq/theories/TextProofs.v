(** Sprites and hex dumps. *)
From Verif Require Import Base ListFacts Bam BitFacts Sprite Hexdump SpecText.
Ltac Zify.zify_post_hook ::= Z.div_mod_to_equations.

(** ** Sprites *)

Definition bit (b i : nat) : bool := N.testbit (N.of_nat b) (N.of_nat i).

Lemma two_bits_spec b k :
  b < 256 -> k < 4 -> two_bits b k = 2 * Nat.b2n (bit b (7 - 2 * k)) + Nat.b2n (bit b (6 - 2 * k)).
Proof.
  intros Hb Hk. apply Nat.eqb_eq.
  assert (forallb (fun k => two_bits b k =? 2 * Nat.b2n (bit b (7 - 2 * k)) + Nat.b2n (bit b (6 - 2 * k)))
            (seq 0 4) = true) as H.
  { revert b Hb. apply (forall_lt_dec (fun b => forallb (fun k => two_bits b k =? 2 * Nat.b2n (bit b (7 - 2 * k)) + Nat.b2n (bit b (6 - 2 * k))) (seq 0 4))). vm_compute. reflexivity. }
  rewrite forallb_forall in H. apply H, in_seq. lia.
Qed.

Lemma glyph_quadrants top bottom k :
  top < 256 -> bottom < 256 -> k < 4 ->
  block_elements !!! (two_bits top k * 4 + two_bits bottom k)
  = quadrants (bit top (7 - 2 * k)) (bit top (6 - 2 * k)) (bit bottom (7 - 2 * k)) (bit bottom (6 - 2 * k)).
Proof.
  intros Ht Hb Hk. rewrite !two_bits_spec by done.
  destruct (bit top (7 - 2 * k)), (bit top (6 - 2 * k)), (bit bottom (7 - 2 * k)), (bit bottom (6 - 2 * k));
    reflexivity.
Qed.

Lemma sprite_glyph_spec data row offset k :
  Forall is_byte data -> row < 11 -> offset < 3 -> k < 4 ->
  sprite_glyph data row offset k =
    quadrants (pixel data (2 * (offset * 4 + k)) (2 * row))
              (pixel data (2 * (offset * 4 + k) + 1) (2 * row))
              (pixel data (2 * (offset * 4 + k)) (2 * row + 1))
              (pixel data (2 * (offset * 4 + k) + 1) (2 * row + 1)).
Proof.
  intros Hd Hr Ho Hk. unfold sprite_glyph, SPRITE_HEIGHT.
  pose proof (bytes_lookup_total data (row * 2 * 3 + offset) Hd).
  pose proof (bytes_lookup_total data ((row * 2 + 1) * 3 + offset) Hd).
  unfold is_byte in *.
  rewrite glyph_quadrants; [|done| |done].
  2: { destruct (row * 2 + 1 <? 21); [done|lia]. }
  unfold pixel.
  replace (2 * (offset * 4 + k) / 8) with offset by lia.
  replace ((2 * (offset * 4 + k) + 1) / 8) with offset by lia.
  replace (7 - (2 * (offset * 4 + k)) mod 8) with (7 - 2 * k) by lia.
  replace (7 - (2 * (offset * 4 + k) + 1) mod 8) with (6 - 2 * k) by lia.
  replace (2 * row * 3 + offset) with (row * 2 * 3 + offset) by lia.
  replace ((2 * row + 1) * 3 + offset) with ((row * 2 + 1) * 3 + offset) by lia.
  replace (2 * row + 1) with (row * 2 + 1) by lia.
  destruct (Nat.ltb_spec (2 * row) 21); [|lia].
  destruct (Nat.ltb_spec (row * 2 + 1) 21); [done|].
  unfold bit. rewrite !N.bits_0. done.
Qed.

Theorem sprite_faithful data :
  Forall is_byte data -> sprite_to_unicode data = sprite_text data.
Proof.
  intros Hd. unfold sprite_to_unicode, sprite_text. f_equal. apply map_ext_in.
  intros r Hr. apply in_seq in Hr. f_equal.
  transitivity (concat (map (fun o => map (fun k => quadrants
      (pixel data (2 * (o * 4 + k)) (2 * r)) (pixel data (2 * (o * 4 + k) + 1) (2 * r))
      (pixel data (2 * (o * 4 + k)) (2 * r + 1)) (pixel data (2 * (o * 4 + k) + 1) (2 * r + 1))) (seq 0 4)) (seq 0 3))).
  - f_equal. apply map_ext_in. intros o Ho. apply in_seq in Ho. apply map_ext_in.
    intros k Hk. apply in_seq in Hk. apply sprite_glyph_spec; try done; lia.
  - reflexivity.
Qed.

Lemma quadrants_inj a b c d a' b' c' d' :
  quadrants a b c d = quadrants a' b' c' d' -> a = a' /\ b = b' /\ c = c' /\ d = d'.
Proof.
  destruct a, b, c, d, a', b', c', d'; intros H; first [discriminate H | by repeat split].
Qed.

Lemma concat_rows_inj {A} (f g : nat -> list A) ns n :
  (forall i, In i ns -> length (f i) = n) -> (forall i, In i ns -> length (g i) = n) ->
  concat (map f ns) = concat (map g ns) -> forall i, In i ns -> f i = g i.
Proof.
  induction ns as [|x ns IH]; intros Hf Hg E i Hi; [done|]. cbn [map concat] in E.
  apply app_inj_1 in E as [E1 E2].
  - destruct Hi as [<-|Hi]; [done|]. apply IH; try done; intros j Hj; [apply Hf|apply Hg]; by right.
  - rewrite Hf, Hg by (by left). done.
Qed.

Lemma map_eq_in {A B} (f g : A -> B) l : map f l = map g l -> forall x, In x l -> f x = g x.
Proof.
  induction l as [|a l IH]; intros E x Hx; [done|]. injection E as E1 E2.
  destruct Hx as [<-|Hx]; auto.
Qed.

Theorem sprite_injective data data' :
  length data = 63 -> length data' = 63 -> Forall is_byte data -> Forall is_byte data' ->
  sprite_to_unicode data = sprite_to_unicode data' -> data = data'.
Proof.
  intros Hl Hl' Hd Hd'. rewrite !sprite_faithful by done. unfold sprite_text. intros E.
  assert (forall x y, x < 24 -> y < 21 -> pixel data x y = pixel data' x y) as Hp.
  { intros x y Hx Hy.
    pose proof (fun Hf Hg => concat_rows_inj _ _ _ 13 Hf Hg E (y / 2)) as E1.
    specialize (E1 ltac:(intros; cbv beta; rewrite app_length, map_length, seq_length; done)
                   ltac:(intros; cbv beta; rewrite app_length, map_length, seq_length; done)
                   ltac:(apply in_seq; lia)).
    apply app_inj_2 in E1 as [E1 _]; [|done].
    pose proof (map_eq_in _ _ _ E1 (x / 2) ltac:(apply in_seq; lia)) as E2. cbv beta in E2.
    apply quadrants_inj in E2 as (Ea & Eb & Ec & Ed).
    assert (x = 2 * (x / 2) \/ x = 2 * (x / 2) + 1) as [Hx'|Hx'] by lia;
    assert (y = 2 * (y / 2) \/ y = 2 * (y / 2) + 1) as [Hy'|Hy'] by lia;
    rewrite Hx', Hy'; done. }
  apply list_eq_total; [lia|]. intros i Hi.
  apply Nat2N.inj, N.bits_inj. intros k.
  destruct (N.lt_ge_cases k 8) as [Hk|Hk].
  - specialize (Hp ((i mod 3) * 8 + (7 - N.to_nat k)) (i / 3) ltac:(lia) ltac:(lia)).
    unfold pixel in Hp. destruct (Nat.ltb_spec (i / 3) 21); [|lia]. cbn [andb] in Hp.
    replace (((i mod 3) * 8 + (7 - N.to_nat k)) / 8) with (i mod 3) in Hp by lia.
    replace (((i mod 3) * 8 + (7 - N.to_nat k)) mod 8) with (7 - N.to_nat k) in Hp by lia.
    replace (i / 3 * 3 + i mod 3) with i in Hp by lia.
    replace (N.of_nat (7 - (7 - N.to_nat k))) with k in Hp by lia. done.
  - pose proof (bytes_lookup_total data i Hd). pose proof (bytes_lookup_total data' i Hd').
    unfold is_byte in *.
    rewrite !(testbit_lt _ 8 k); try done; change (2 ^ 8)%N with 256%N; lia.
Qed.

(** ** Hex dumps *)

Lemma hex_val_digit n : n < 16 -> hex_val (hex_digit n) = Some n.
Proof. intros Hn. do 16 (destruct n as [|n]; [reflexivity|]). lia. Qed.

Lemma hex_digit_not n c : n < 16 -> c < 48 \/ c = 58 -> hex_digit n <> c.
Proof. intros Hn Hc. unfold hex_digit. destruct (Nat.ltb_spec n 10); lia. Qed.

Lemma read_hex_digits fuel n acc rest :
  n < fuel -> exists k,
  read_hex acc (hex_digits fuel n ++ rest) = read_hex (acc * 16 ^ k + n) rest
  /\ (forall x, In x (hex_digits fuel n) -> x <> 10).
Proof.
  revert n acc rest. induction fuel as [|fuel IH]; intros n acc rest Hn; [lia|].
  cbn [hex_digits]. destruct (Nat.eqb_spec (n / 16) 0) as [E|E].
  - exists 1. cbn [app]. split.
    + cbn [read_hex].
      destruct (Nat.eqb_spec (hex_digit (n mod 16)) 58) as [Ex|_].
      { exfalso. revert Ex. apply hex_digit_not; lia. }
      rewrite hex_val_digit by lia. f_equal. rewrite Nat.pow_1_r. lia.
    + intros x [<-|[]]. apply hex_digit_not; lia.
  - destruct (IH (n / 16) acc ([hex_digit (n mod 16)] ++ rest)) as (k & Hk & Hin); [lia|].
    exists (S k). split.
    + rewrite <- app_assoc, Hk. cbn [app read_hex].
      destruct (Nat.eqb_spec (hex_digit (n mod 16)) 58) as [Ex|_].
      { exfalso. revert Ex. apply hex_digit_not; lia. }
      rewrite hex_val_digit by lia. f_equal.
      rewrite Nat.pow_succ_r'. pose proof (Nat.div_mod_eq n 16). nia.
    + intros x Hx. apply in_app_iff in Hx as [Hx|[<-|[]]]; [by apply Hin|].
      apply hex_digit_not; lia.
Qed.

Lemma read_hex4 n rest :
  read_hex 0 (hex4 n ++ rest) = read_hex n rest /\ (forall x, In x (hex4 n) -> x <> 10).
Proof.
  unfold hex4. generalize (4 - length (hex_digits (S n) n)) as k. intros k.
  destruct (read_hex_digits (S n) n 0 rest) as (j & Hj & Hin); [lia|]. split.
  - induction k as [|k IH]; [exact Hj|]. exact IH.
  - intros x Hx. apply in_app_iff in Hx as [Hx|Hx]; [|by apply Hin].
    apply repeat_spec in Hx. lia.
Qed.

Lemma read_groups_row row n rest :
  Forall is_byte row -> length row <= n ->
  read_groups n (concat (map (fun b => hex2 b ++ [32]) row) ++ rest)
  = row ++ read_groups (n - length row) rest.
Proof.
  intros Hb. revert n. induction Hb as [|b row Hb Hrow IH]; intros n Hn.
  { by rewrite Nat.sub_0_r. }
  destruct n as [|n]; [simpl in Hn; lia|]. unfold is_byte in Hb.
  change (concat (map (fun b => hex2 b ++ [32]) (b :: row)) ++ rest)
    with (hex_digit (b / 16) :: hex_digit (b mod 16) :: 32
          :: (concat (map (fun b => hex2 b ++ [32]) row) ++ rest)).
  cbn [read_groups]. rewrite !hex_val_digit by lia. rewrite IH by (simpl in Hn; lia).
  cbn [length]. replace (S n - S (length row)) with (n - length row) by lia.
  cbn [app]. f_equal. lia.
Qed.

Lemma read_groups_blank n k rest : 0 < k \/ n = 0 -> read_groups n (concat (repeat [32; 32; 32] k) ++ rest) = [].
Proof.
  intros [Hk|Hn]; [|by subst n]. destruct k as [|k]; [lia|]. by destruct n.
Qed.

Lemma read_line_row prefix offset row :
  Forall is_byte row -> length row <= 16 ->
  read_line (length prefix) offset (hex_row prefix offset row) = Some row.
Proof.
  intros Hb Hl. unfold read_line, hex_row. rewrite drop_app_alt by done.
  destruct (read_hex4 offset ([58; 32] ++ concat (map (fun b => hex2 b ++ [32]) row)
     ++ concat (repeat [32; 32; 32] (16 - length row)) ++ map ascii_or_dot row)) as [-> _].
  cbn [app read_hex Nat.eqb]. rewrite Nat.eqb_refl. f_equal.
  rewrite read_groups_row by done. rewrite read_groups_blank by lia. by rewrite app_nil_r.
Qed.

Lemma hex_row_no_newline prefix offset row x :
  ~ In 10 prefix -> In x (hex_row prefix offset row) -> Forall is_byte row -> x <> 10.
Proof.
  intros Hp Hx Hb ->. unfold hex_row in Hx. rewrite !in_app_iff in Hx.
  destruct Hx as [?|[H|[H|[H|[H|H]]]]]; [done| | | | |].
  - by apply (proj2 (read_hex4 offset [])) in H.
  - simpl in H. lia.
  - apply in_concat in H as (l & Hl & Hx). apply in_map_iff in Hl as (b & <- & Hin).
    assert (b < 256) as Hb'.
    { rewrite Forall_forall in Hb. apply Hb. by apply elem_of_list_In. }
    unfold hex2 in Hx. simpl in Hx.
    destruct Hx as [Hx|[Hx|[Hx|[]]]]; [| |lia]; revert Hx; apply hex_digit_not; lia.
  - apply in_concat in H as (l & Hl & Hx). apply repeat_spec in Hl. subst. simpl in Hx. lia.
  - apply in_map_iff in H as (b & H & _). unfold ascii_or_dot in H.
    destruct ((32 <=? b) && (b <=? 126)) eqn:E; [|lia].
    apply andb_true_iff in E as [E1 E2]. apply Nat.leb_le in E1. lia.
Qed.

Lemma split_lines_one l : (forall x, In x l -> x <> 10) -> split_lines l = [l].
Proof.
  induction l as [|c l IH]; intros H; [done|]. cbn [split_lines].
  destruct (Nat.eqb_spec c 10) as [E|_]; [exfalso; apply (H c); [by left|done]|].
  rewrite IH; [done|]. intros x Hx. apply H. by right.
Qed.

Lemma split_lines_app l rest :
  (forall x, In x l -> x <> 10) -> split_lines (l ++ [10] ++ rest) = l :: split_lines rest.
Proof.
  induction l as [|c l IH]; intros H; [done|].
  change ((c :: l) ++ [10] ++ rest) with (c :: (l ++ [10] ++ rest)). cbn [split_lines].
  destruct (Nat.eqb_spec c 10) as [E|_]; [exfalso; apply (H c); [by left|done]|].
  rewrite IH; [done|]. intros x Hx. apply H. by right.
Qed.

Lemma read_hexdump_loop fuel prefix offset buffer :
  ~ In 10 prefix -> Forall is_byte buffer -> length buffer <= fuel -> 0 < length buffer ->
  read_lines (length prefix) offset (split_lines (hexdump_loop fuel prefix offset buffer)) = Some buffer.
Proof.
  intros Hp. revert offset buffer. induction fuel as [|fuel IH]; intros offset buffer Hb Hl H0; [lia|].
  cbn [hexdump_loop]. destruct buffer as [|b0 buffer'] eqn:E; [simpl in H0; lia|]. rewrite <- E in *.
  clear E b0 buffer'.
  assert (Forall is_byte (take 16 buffer)) as Ht by (by apply Forall_take).
  assert (length (take 16 buffer) <= 16) as Htl by (rewrite take_length; lia).
  destruct (Nat.ltb_spec 16 (length buffer)) as [Hlt|Hge].
  - rewrite split_lines_app by (intros x Hx; by eapply hex_row_no_newline).
    cbn [read_lines]. rewrite read_line_row by done.
    replace (offset + length (take 16 buffer)) with (offset + 16) by (rewrite take_length; lia).
    rewrite IH; [|by apply Forall_drop|rewrite drop_length; lia|rewrite drop_length; lia].
    by rewrite take_drop.
  - rewrite (drop_ge buffer 16) by lia. rewrite (take_ge buffer 16) in * by lia.
    assert (hexdump_loop fuel prefix (offset + 16) [] = []) as -> by (by destruct fuel).
    rewrite !app_nil_r. rewrite split_lines_one by (intros x Hx; by eapply hex_row_no_newline).
    cbn [read_lines]. rewrite read_line_row by done. by rewrite app_nil_r.
Qed.

Theorem hexdump_faithful prefix buffer :
  ~ In 10 prefix -> Forall is_byte buffer ->
  read_dump (length prefix) (hexdump prefix buffer) = Some buffer.
Proof.
  intros Hp Hb. unfold hexdump, read_dump. destruct buffer as [|b buffer'] eqn:E.
  - rewrite split_lines_one.
    + cbn [read_lines]. unfold read_line. rewrite drop_app_alt by done.
      destruct (read_hex4 0 [58; 32]) as [-> _]. done.
    + intros x Hx ->. rewrite !in_app_iff in Hx. destruct Hx as [?|[H|H]]; [done| |].
      * by apply (proj2 (read_hex4 0 [])) in H.
      * simpl in H. lia.
  - rewrite <- E in *. apply read_hexdump_loop; try done. subst. simpl. lia.
Qed.
