(** Proofs about text. *)
From Coq Require Import Ascii String.
From Verif Require Import Base ListFacts Layout Block Bam Format Petscii Sprite Hexdump GeosTypes DirEntry Header World Chain Directory Writer Rel
  GeosFile File Validate Cdisk Text Spec SpecText SpecOutput.
Local Open Scope list_scope.

(** ** Fields *)
Definition free_of (c : N) (s : list N) : Prop := Forall (fun x => x <> c) s.

Lemma field_inj c a a' r r' : free_of c a -> free_of c a' -> a ++ c :: r = a' ++ c :: r' -> a = a' /\ r = r'.
Proof.
  revert a'. induction a as [|x a IH]; intros [|y a'] Ha Ha' H; cbn in H.
  - by injection H as ->.
  - injection H as -> _. apply Forall_cons in Ha' as [Hy _]. done.
  - injection H as -> _. apply Forall_cons in Ha as [Hy _]. done.
  - injection H as -> H. apply Forall_cons in Ha as [_ Ha]. apply Forall_cons in Ha' as [_ Ha'].
    by destruct (IH a' Ha Ha' H) as [-> ->].
Qed.

(** ** Decimal numbers *)
Lemma dec_digits_range fuel : forall n, Forall (fun c => 48 <= c <= 57)%N (dec_digits fuel n).
Proof.
  induction fuel as [|fuel IH]; intros n; cbn [dec_digits]; [constructor|]. apply Forall_app. split.
  - destruct (n / 10 =? 0)%N; [constructor|apply IH].
  - constructor; [|constructor]. pose proof (N.mod_lt n 10). lia.
Qed.
Lemma dec_range n : Forall (fun c => 48 <= c <= 57)%N (dec n).
Proof. apply dec_digits_range. Qed.

Lemma read_decimal_app s : forall acc s', read_decimal acc (s ++ s') = match read_decimal acc s with Some v => read_decimal v s' | None => None end.
Proof. induction s as [|c s IH]; intros acc s'; cbn; [done|]. destruct (digit c); [apply IH|done]. Qed.

Lemma dec_digits_value fuel : forall n, (n < 10 ^ N.of_nat fuel)%N -> read_decimal 0 (dec_digits fuel n) = Some n.
Proof.
  induction fuel as [|fuel IH]; intros n Hn.
  - cbn in *. f_equal. lia.
  - cbn [dec_digits]. rewrite read_decimal_app.
    assert (Hv : read_decimal 0 (if (n / 10 =? 0)%N then [] else dec_digits fuel (n / 10)) = Some (n / 10)%N).
    { destruct (N.eqb_spec (n / 10) 0) as [E|E]; [by rewrite E|]. apply IH.
      rewrite Nat2N.inj_succ, N.pow_succ_r' in Hn. apply N.div_lt_upper_bound; lia. }
    rewrite Hv. cbn [read_decimal]. pose proof (N.mod_lt n 10 ltac:(lia)) as Hm. pose proof (N.div_mod n 10 ltac:(lia)) as Hd.
    unfold digit. replace ((48 <=? 48 + n mod 10) && (48 + n mod 10 <=? 57))%N with true by (symmetry; apply andb_true_intro; split; apply N.leb_le; lia).
    f_equal. lia.
Qed.
Lemma dec_value n : read_decimal 0 (dec n) = Some (N.of_nat n).
Proof.
  unfold dec. apply dec_digits_value. rewrite Nat2N.inj_succ, N2Nat.id, N.pow_succ_r'.
  pose proof (N.size_gt (N.of_nat n)). pose proof (N.pow_le_mono_l 2 10 (N.size (N.of_nat n)) ltac:(lia)). lia.
Qed.
Lemma dec_inj n m : dec n = dec m -> n = m.
Proof. intros H. pose proof (dec_value n) as Hn. rewrite H, dec_value in Hn. injection Hn. lia. Qed.
Lemma dec_not_nil n : dec n <> [].
Proof. unfold dec. cbn [dec_digits]. intros H%app_eq_nil. by destruct H. Qed.
Lemma dec_decimal n : decimal (dec n) = Some (N.of_nat n).
Proof. pose proof (dec_value n) as H. pose proof (dec_not_nil n) as H0. by destruct (dec n). Qed.
Lemma dec_free c n : (c < 48 \/ 57 < c)%N -> free_of c (dec n).
Proof. intros Hc. eapply Forall_impl; [apply dec_range|]. cbn. lia. Qed.

(** Numbers filled up with zeros. *)
Lemma zeros_value k s : read_decimal 0 (repeat 48%N k ++ s) = read_decimal 0 s.
Proof. induction k as [|k IH]; [done|]. cbn. exact IH. Qed.
Lemma zero_padded_value w n : read_decimal 0 (zero_padded w (dec n)) = Some (N.of_nat n).
Proof. unfold zero_padded. rewrite zeros_value. apply dec_value. Qed.
Lemma zero_padded_inj w n m : zero_padded w (dec n) = zero_padded w (dec m) -> n = m.
Proof. intros H. pose proof (zero_padded_value w n) as Hn. rewrite H, zero_padded_value in Hn. injection Hn. lia. Qed.
Lemma zero_padded_decimal w n : decimal (zero_padded w (dec n)) = Some (N.of_nat n).
Proof.
  pose proof (zero_padded_value w n) as H. unfold decimal. destruct (zero_padded w (dec n)) eqn:E; [|done].
  unfold zero_padded in E. apply app_eq_nil in E as [_ E]. by apply dec_not_nil in E.
Qed.
Lemma zero_padded_free w c n : (c < 48 \/ 57 < c)%N -> free_of c (zero_padded w (dec n)).
Proof.
  intros Hc. apply Forall_app. split; [|by apply dec_free]. apply Forall_forall. intros x Hx%elem_of_list_In%repeat_spec. subst. lia.
Qed.

(** ** Lines of the directory listing *)
Lemma repeat_free c x k : x <> c -> free_of c (repeat x k).
Proof. intros H. apply Forall_forall. intros y Hy%elem_of_list_In%repeat_spec. by subst. Qed.

(** Stripping spaces at the end of a text that ends with another character. *)
Lemma spaces_inj c s : forall s' a b, c <> 32%N -> s ++ c :: repeat 32%N a = s' ++ c :: repeat 32%N b -> s = s' /\ a = b.
Proof.
  intros s' a b Hc H. apply (f_equal (@rev N)) in H. rewrite !rev_app_distr in H. cbn [rev] in H. rewrite <- !app_assoc in H. cbn [app] in H.
  assert (Hr : forall k, rev (repeat 32%N k) = repeat 32%N k).
  { induction k as [|k IH]; [done|]. cbn [repeat rev]. rewrite IH. by rewrite <- repeat_cons. }
  rewrite !Hr in H.
  destruct (field_inj c _ _ _ _ (repeat_free c 32%N a ltac:(congruence)) (repeat_free c 32%N b ltac:(congruence)) H) as [H1 H2].
  split; [|by apply (f_equal length) in H1; rewrite !repeat_length in H1].
  rewrite <- (rev_involutive s), <- (rev_involutive s'). by rewrite H2.
Qed.

Lemma padded_length w s : length s <= w -> length (padded w s) = w.
Proof. intros H. unfold padded. rewrite app_length, repeat_length. lia. Qed.
Lemma quoted_length n : length (quoted n) = length n + 2.
Proof. unfold quoted, petscii_display. rewrite !app_length, map_length. cbn. lia. Qed.
Lemma quoted_inj w n n' : padded w (quoted n) = padded w (quoted n') -> petscii_display n = petscii_display n'.
Proof.
  unfold padded, quoted. intros H.
  change (str """") with [34%N] in H. rewrite <- !app_assoc in H. cbn [app] in H. injection H as H.
  by destruct (spaces_inj 34%N _ _ _ _ ltac:(done) H) as [-> _].
Qed.

Lemma padded_dec_inj w n m r r' :
  padded w (dec n) ++ 32%N :: r = padded w (dec m) ++ 32%N :: r' -> n = m /\ r = r'.
Proof.
  unfold padded. rewrite <- !app_assoc. intros H.
  assert (Hs : forall k (x : list N), repeat 32%N k ++ 32%N :: x = 32%N :: repeat 32%N k ++ x).
  { induction k as [|k IH]; intros x; [done|]. cbn. by rewrite IH. }
  rewrite !Hs in H. destruct (field_inj 32%N _ _ _ _ (dec_free 32%N n ltac:(lia)) (dec_free 32%N m ltac:(lia)) H) as [H1 H2].
  rewrite H1 in H2. apply dec_inj in H1. apply app_inv_head in H2. done.
Qed.

Lemma show_type_length t : length (show_type t) = 3.
Proof. by destruct t. Qed.
Lemma show_type_inj t t' : show_type t = show_type t' <-> shown_type t = shown_type t'.
Proof. split; destruct t, t'; cbn; done. Qed.

Lemma show_attributes_inj a a' r r' :
  (r = [] \/ exists x, r = 32%N :: x) -> (r' = [] \/ exists x, r' = 32%N :: x) ->
  show_attributes a ++ r = show_attributes a' ++ r' ->
  shown_type (fa_type a) = shown_type (fa_type a') /\ fa_closed a = fa_closed a' /\ fa_locked a = fa_locked a' /\ fa_replace a = fa_replace a' /\ r = r'.
Proof.
  intros Hr Hr' H. unfold show_attributes in H. rewrite <- !app_assoc in H.
  apply app_inj_1 in H as [H1 H]; [|by destruct (fa_closed a), (fa_closed a')].
  apply app_inj_1 in H as [H2 H]; [|by rewrite !show_type_length].
  apply show_type_inj in H2. split; [done|]. split; [by destruct (fa_closed a), (fa_closed a')|]. clear H1 H2.
  destruct (fa_locked a), (fa_replace a), (fa_locked a'), (fa_replace a'); cbn in H;
    destruct Hr as [-> | [x ->]], Hr' as [-> | [y ->]]; by simplify_eq.
Qed.

Definition border_text (b : bool) : list N := if b then str " (GEOS border)" else [].
Lemma border_cases b : border_text b = [] \/ exists x, border_text b = 32%N :: x.
Proof. destruct b; [right; by eexists|by left]. Qed.

Lemma show_entry_inj e e' :
  length (de_name e) <= 16 -> length (de_name e') <= 16 -> show_entry false e = show_entry false e' -> shown_entry e = shown_entry e'.
Proof.
  intros Hl Hl' H. unfold show_entry in H. cbn [app] in H. change (str " ") with [32%N] in H. cbn [app] in H.
  apply padded_dec_inj in H as [H1 H].
  apply app_inj_1 in H as [H2 H]; [|rewrite !padded_length; rewrite ?quoted_length; lia].
  apply quoted_inj in H2.
  apply show_attributes_inj in H as (H3 & H4 & H5 & H6 & H7); [|apply (border_cases (de_border e))|apply (border_cases (de_border e'))].
  unfold shown_entry. rewrite H1, H2, H3, H4, H5, H6. do 2 f_equal. by destruct (de_border e), (de_border e').
Qed.
Lemma show_entry_shown e e' : shown_entry e = shown_entry e' -> show_entry false e = show_entry false e'.
Proof.
  unfold shown_entry. intros [= H1 H2 H3 H4 H5 H6 H7]. apply show_type_inj in H3. unfold show_entry, quoted, show_attributes.
  by rewrite H1, H2, H3, H4, H5, H6, H7.
Qed.

(** ** The verbose listing *)
Lemma hex_digit_inj a b : a < 16 -> b < 16 -> hex_digit a = hex_digit b -> a = b.
Proof. unfold hex_digit. intros Ha Hb. destruct (Nat.ltb_spec a 10), (Nat.ltb_spec b 10); lia. Qed.
Lemma hex02_inj a b : a < 256 -> b < 256 -> hex02 a = hex02 b -> a = b.
Proof.
  intros Ha Hb. unfold hex02, hex2. cbn [map]. intros [= H1%Nat2N.inj H2%Nat2N.inj].
  apply hex_digit_inj in H1; [|apply Nat.div_lt_upper_bound; lia..]. apply hex_digit_inj in H2; [|apply Nat.mod_upper_bound; lia..].
  pose proof (Nat.div_mod a 16 ltac:(lia)). pose proof (Nat.div_mod b 16 ltac:(lia)). lia.
Qed.
Lemma hex_digit_range n : n < 16 -> 48 <= hex_digit n <= 57 \/ 97 <= hex_digit n <= 102.
Proof. unfold hex_digit. intros Hn. destruct (Nat.ltb_spec n 10); lia. Qed.
Lemma hex02_free c b : b < 256 -> (c < 48 \/ 57 < c < 97 \/ 102 < c)%N -> free_of c (hex02 b).
Proof.
  intros Hb Hc. unfold hex02, hex2. cbn [map].
  pose proof (hex_digit_range (b / 16) ltac:(apply Nat.div_lt_upper_bound; lia)).
  pose proof (hex_digit_range (b mod 16) ltac:(apply Nat.mod_upper_bound; lia)).
  repeat constructor; lia.
Qed.

Definition free_ofb (c : N) (s : list N) : bool := forallb (fun x => negb (x =? c)%N) s.
Lemma free_of_check c s : free_ofb c s = true -> free_of c s.
Proof.
  intros H. apply Forall_forall. intros x Hx%elem_of_list_In. unfold free_ofb in H. rewrite forallb_forall in H.
  specialize (H x Hx). by apply negb_true_iff, N.eqb_neq in H.
Qed.
Lemma free_of_app c a b : free_of c a -> free_of c b -> free_of c (a ++ b).
Proof. intros. by apply Forall_app. Qed.

Definition structure_ok (s : geos_structure) : Prop := match s with GStructUndefined b => b < 256 | _ => True end.
Definition geos_type_ok (t : geos_file_type) : Prop := match t with GTypeUndefined b => b < 256 | _ => True end.

Lemma show_structure_inj s s' : structure_ok s -> structure_ok s' -> show_structure s = show_structure s' -> s = s'.
Proof.
  destruct s, s'; cbn [structure_ok]; intros H1 H2 H; try done.
  unfold show_structure in H. apply app_inv_head in H. apply app_inv_tail in H. f_equal. by apply hex02_inj.
Qed.
Lemma show_geos_type_inj t t' : geos_type_ok t -> geos_type_ok t' -> show_geos_type t = show_geos_type t' -> t = t'.
Proof.
  destruct t, t'; cbn [geos_type_ok]; intros H1 H2 H; try done.
  unfold show_geos_type in H. apply app_inv_head in H. apply app_inv_tail in H. f_equal. by apply hex02_inj.
Qed.
Lemma show_structure_free s c : structure_ok s -> (c < 40 \/ 41 < c < 48)%N -> free_of c (show_structure s).
Proof.
  intros Hs Hc. destruct s; cbn [structure_ok] in Hs; cbn [show_structure].
  3: { apply free_of_app; [|apply free_of_app; [apply hex02_free; lia|]]. all: repeat constructor; cbn; lia. }
  all: repeat constructor; cbn; lia.
Qed.
Lemma show_geos_type_free t : geos_type_ok t -> free_of 44%N (show_geos_type t).
Proof.
  intros Hs. destruct t; cbn [geos_type_ok] in Hs; cbn [show_geos_type]; try (apply free_of_check; reflexivity).
  apply free_of_app; [by apply free_of_check|apply free_of_app; [apply hex02_free; lia|by apply free_of_check]].
Qed.

Lemma show_location_inj l l' r r' : show_location l ++ r = show_location l' ++ r' -> l = l' /\ r = r'.
Proof.
  unfold show_location. change (str "(") with [40%N]. change (str ",") with [44%N]. change (str ")") with [41%N].
  rewrite <- !app_assoc. cbn [app]. intros H. injection H as H.
  apply field_inj in H as [H1%dec_inj H]; [|apply dec_free; lia..].
  apply field_inj in H as [H2%dec_inj H]; [|apply dec_free; lia..].
  destruct l, l'. cbn in *. by subst.
Qed.

Lemma cons_tail {A} (c c' : A) l l' : c :: l = c' :: l' -> l = l'.
Proof. congruence. Qed.

Definition extra_ok (x : extra) : Prop := match x with XGEOS _ s t _ _ _ _ _ => structure_ok s /\ geos_type_ok t | _ => True end.

Lemma show_extra_inj x x' r r' :
  extra_ok x -> extra_ok x' -> show_extra x ++ r = show_extra x' ++ r' -> shown_extra x = shown_extra x' /\ r = r'.
Proof.
  intros Hx Hx' H.
  destruct x as [u|side len u|info s t y mo da ho mi], x' as [u'|side' len' u'|info' s' t' y' mo' da' ho' mi']; try discriminate H.
  - by apply app_inv_head in H.
  - unfold show_extra in H. rewrite <- !app_assoc in H. apply app_inv_head in H. apply show_location_inj in H as [-> H].
    apply app_inv_head in H. change (str ")") with [41%N] in H. cbn [app] in H.
    apply field_inj in H as [H1%dec_inj ->]; [|apply dec_free; lia..]. by rewrite H1.
  - unfold show_extra in H. rewrite <- !app_assoc in H. apply app_inv_head in H. destruct Hx as [Hs Ht], Hx' as [Hs' Ht'].
    change (str ", ") with [44%N; 32%N] in H. change (str "-") with [45%N] in H. change (str ":") with [58%N] in H. change (str ")") with [41%N] in H.
    cbn [app] in H.
    apply field_inj in H as [H1%show_structure_inj H]; [|done|done|apply show_structure_free; [done|lia]..]. apply cons_tail in H.
    apply field_inj in H as [H2%show_geos_type_inj H]; [|done|done|by apply show_geos_type_free..]. apply cons_tail in H.
    apply field_inj in H as [H3%zero_padded_inj H]; [|apply zero_padded_free; lia..].
    apply field_inj in H as [H4%zero_padded_inj H]; [|apply zero_padded_free; lia..].
    apply field_inj in H as [H5%zero_padded_inj H]; [|apply zero_padded_free; lia..].
    apply field_inj in H as [H6%zero_padded_inj H]; [|apply zero_padded_free; lia..].
    apply field_inj in H as [H7%zero_padded_inj H]; [|apply zero_padded_free; lia..].
    cbn [shown_extra]. assert (y = y') by lia. by subst.
Qed.

Lemma show_entry_verbose_inj e e' :
  length (de_name e) <= 16 -> length (de_name e') <= 16 -> extra_ok (de_extra e) -> extra_ok (de_extra e') ->
  show_entry true e = show_entry true e' -> shown_entry e = shown_entry e' /\ shown_extra (de_extra e) = shown_extra (de_extra e').
Proof.
  intros Hl Hl' Hx Hx' H. unfold show_entry in H. change (str " ") with [32%N] in H. cbn [app] in H.
  apply padded_dec_inj in H as [H1 H].
  apply app_inj_1 in H as [H2 H]; [|rewrite !padded_length; rewrite ?quoted_length; lia].
  apply quoted_inj in H2.
  apply show_attributes_inj in H as (H3 & H4 & H5 & H6 & H7); [|right; by eexists..].
  apply cons_tail in H7. apply show_extra_inj in H7 as [H7 H8]; [|done..].
  split; [|done]. unfold shown_entry. rewrite H1, H2, H3, H4, H5, H6. do 2 f_equal. by destruct (de_border e), (de_border e').
Qed.
Lemma show_entry_verbose_shown e e' :
  shown_entry e = shown_entry e' -> shown_extra (de_extra e) = shown_extra (de_extra e') -> show_entry true e = show_entry true e'.
Proof.
  unfold shown_entry. intros [= H1 H2 H3 H4 H5 H6 H7] Hx. apply show_type_inj in H3.
  assert (Hs : show_extra (de_extra e) = show_extra (de_extra e')).
  { clear -Hx. destruct (de_extra e), (de_extra e'); cbn [shown_extra] in Hx; try discriminate Hx; try (injection Hx; intros; subst); reflexivity. }
  unfold show_entry, quoted, show_attributes. by rewrite H1, H2, H3, H4, H5, H6, H7, Hs.
Qed.
