(** Facts about slices, splices and extensionality of lists. *)
From Verif Require Import Base.
From Coq Require Export ZifyNat ZifyN.
Global Arguments Nat.mul : simpl never.
Global Arguments N.mul : simpl never.
Global Arguments N.add : simpl never.
Global Arguments Nat.div : simpl never.
Global Arguments Nat.modulo : simpl never.
Global Arguments splice : simpl never.
Global Arguments slice : simpl never.

Ltac Zify.zify_post_hook ::= Z.div_mod_to_equations.

Lemma Ok_inj {A} (a b : A) : Ok a = Ok b -> a = b.
Proof. congruence. Qed.

Lemma nat_lookup_total_ge (l : list nat) i : length l <= i -> l !!! i = 0.
Proof. intros. rewrite list_lookup_total_alt, lookup_ge_None_2 by lia. reflexivity. Qed.

Lemma list_eq_total {A} `{Inhabited A} (l k : list A) :
  length l = length k -> (forall i, i < length l -> l !!! i = k !!! i) -> l = k.
Proof.
  intros Hlen Hall. apply list_eq. intros i.
  destruct (decide (i < length l)) as [Hi|Hi].
  - rewrite (list_lookup_lookup_total_lt l i) by lia.
    rewrite (list_lookup_lookup_total_lt k i) by lia.
    f_equal. by apply Hall.
  - by rewrite !lookup_ge_None_2 by lia.
Qed.

Lemma length_splice {A} off (d l : list A) :
  off + length d <= length l -> length (splice off d l) = length l.
Proof. intros. unfold splice. rewrite !app_length, take_length, drop_length. lia. Qed.

Lemma lookup_splice {A} off (d l : list A) i :
  off + length d <= length l ->
  splice off d l !! i =
    if decide (off <= i < off + length d) then d !! (i - off) else l !! i.
Proof.
  intros Hb. unfold splice. case_decide.
  - rewrite lookup_app_r by (rewrite take_length; lia).
    rewrite take_length, Nat.min_l by lia.
    by rewrite lookup_app_l by lia.
  - destruct (decide (i < off)).
    + rewrite lookup_app_l by (rewrite take_length; lia).
      by rewrite lookup_take by lia.
    + rewrite lookup_app_r by (rewrite take_length; lia).
      rewrite take_length, Nat.min_l by lia.
      rewrite lookup_app_r by lia.
      rewrite lookup_drop. f_equal. lia.
Qed.

Lemma lookup_total_splice {A} `{Inhabited A} off (d l : list A) i :
  off + length d <= length l ->
  splice off d l !!! i =
    if decide (off <= i < off + length d) then d !!! (i - off) else l !!! i.
Proof.
  intros. rewrite !list_lookup_total_alt, lookup_splice by lia. by case_decide.
Qed.

Lemma length_slice {A} off n (l : list A) :
  off + n <= length l -> length (slice off n l) = n.
Proof. intros. unfold slice. rewrite take_length, drop_length. lia. Qed.

Lemma lookup_slice {A} off n (l : list A) i :
  i < n -> slice off n l !! i = l !! (off + i).
Proof. intros. unfold slice. rewrite lookup_take by lia. by rewrite lookup_drop. Qed.

Lemma lookup_total_slice {A} `{Inhabited A} off n (l : list A) i :
  i < n -> slice off n l !!! i = l !!! (off + i).
Proof. intros. by rewrite !list_lookup_total_alt, lookup_slice by lia. Qed.

Lemma slice_splice_same {A} off n (d l : list A) :
  length d = n -> off + n <= length l -> slice off n (splice off d l) = d.
Proof.
  intros Hd Hl. unfold slice, splice.
  rewrite drop_app_ge by (rewrite take_length; lia).
  rewrite take_length, Nat.min_l, Nat.sub_diag by lia. rewrite drop_0.
  by rewrite take_app_alt by done.
Qed.

Lemma slice_splice_other {A} off n o (d l : list A) :
  off + n <= o \/ o + length d <= off ->
  o + length d <= length l ->
  slice off n (splice o d l) = slice off n l.
Proof.
  intros Hdis Hb. apply list_eq. intros i. unfold slice.
  destruct (decide (i < n)).
  - rewrite !lookup_take by done. rewrite !lookup_drop.
    rewrite lookup_splice by lia. by rewrite decide_False by lia.
  - rewrite !lookup_ge_None_2; try done; rewrite take_length; lia.
Qed.

Lemma splice_slice {A} off n (l : list A) :
  off + n <= length l -> splice off (slice off n l) l = l.
Proof.
  intros. apply list_eq. intros i. rewrite lookup_splice by (rewrite length_slice; lia).
  rewrite length_slice by lia. case_decide; [|done].
  rewrite lookup_slice by lia. f_equal; lia.
Qed.

Lemma splice_splice_same {A} off (d d' l : list A) :
  length d = length d' -> off + length d <= length l ->
  splice off d (splice off d' l) = splice off d l.
Proof.
  intros. apply list_eq. intros i.
  rewrite !lookup_splice by (rewrite ?length_splice; lia).
  repeat case_decide; try done; lia.
Qed.

Lemma splice_comm {A} o1 (d1 : list A) o2 d2 l :
  o1 + length d1 <= o2 \/ o2 + length d2 <= o1 ->
  o1 + length d1 <= length l -> o2 + length d2 <= length l ->
  splice o1 d1 (splice o2 d2 l) = splice o2 d2 (splice o1 d1 l).
Proof.
  intros. apply list_eq. intros i.
  rewrite !lookup_splice by (rewrite ?length_splice; lia).
  repeat case_decide; try done; lia.
Qed.

Lemma splice_full {A} (d l : list A) : length d = length l -> splice 0 d l = d.
Proof. intros. unfold splice. simpl. rewrite drop_ge by lia. by rewrite app_nil_r. Qed.

Lemma slice_full {A} (l : list A) n : length l = n -> slice 0 n l = l.
Proof. intros <-. unfold slice. rewrite drop_0. by rewrite firstn_all. Qed.

Lemma drop_splice_after {A} o (d l : list A) n :
  o + length d <= n -> o + length d <= length l -> drop n (splice o d l) = drop n l.
Proof.
  intros. apply list_eq. intros i. rewrite !lookup_drop, lookup_splice by lia.
  by rewrite decide_False by lia.
Qed.

Lemma take_splice_before {A} o (d l : list A) n :
  n <= o -> o + length d <= length l -> take n (splice o d l) = take n l.
Proof.
  intros. apply list_eq. intros i. destruct (decide (i < n)).
  - rewrite !lookup_take, lookup_splice by lia. by rewrite decide_False by lia.
  - rewrite !lookup_ge_None_2; rewrite ?take_length; try done; lia.
Qed.

Lemma forall_bytes_splice o d l :
  Forall is_byte d -> Forall is_byte l -> Forall is_byte (splice o d l).
Proof.
  intros. unfold splice. apply Forall_app; split; [by apply Forall_take|].
  apply Forall_app; split; [done|by apply Forall_drop].
Qed.

Lemma forall_bytes_slice o n l : Forall is_byte l -> Forall is_byte (slice o n l).
Proof. intros. unfold slice. by apply Forall_take, Forall_drop. Qed.

Lemma bytes_lookup_total l i : Forall is_byte l -> l !!! i < 256.
Proof.
  intros H. destruct (decide (i < length l)).
  - assert (is_byte (l !!! i)); [|done].
    apply (Forall_lookup_1 _ _ i _ H). by apply list_lookup_lookup_total_lt.
  - rewrite nat_lookup_total_ge by lia. lia.
Qed.

(** Take a list of known length apart into its elements. *)
Ltac destruct_list l :=
  match goal with
  | H : length l = 0 |- _ => destruct l; [clear H | exfalso; simpl in H; lia]
  | H : length l = S _ |- _ =>
      let x := fresh "x" in let l' := fresh "l" in
      destruct l as [|x l']; [exfalso; simpl in H; lia |];
      simpl in H; apply Nat.succ_inj in H; destruct_list l'
  end.

Lemma sum_app l k : sum (l ++ k) = sum l + sum k.
Proof. induction l; simpl; [done|]. unfold sum in *. simpl. lia. Qed.

Lemma elem_of_range_incl a b x : x ∈ range_incl a b <-> a <= x <= b.
Proof. unfold range_incl. rewrite elem_of_list_In, in_seq. lia. Qed.

(** Bounded quantification decided by computation. *)
Lemma forall_lt_dec (P : nat -> bool) n :
  forallb P (seq 0 n) = true -> forall i, i < n -> P i = true.
Proof.
  intros H i Hi. rewrite forallb_forall in H. apply H. apply in_seq. lia.
Qed.

Lemma repeat_replicate {A} (x : A) n : repeat x n = replicate n x.
Proof. induction n as [|n IH]; simpl; [done|]. by rewrite IH. Qed.

Lemma lookup_repeat {A} (x : A) n i : i < n -> repeat x n !! i = Some x.
Proof. intros. rewrite repeat_replicate. by apply lookup_replicate_2. Qed.

Lemma lookup_total_repeat {A} `{Inhabited A} (x : A) n i : i < n -> repeat x n !!! i = x.
Proof. intros. apply list_lookup_total_correct. by apply lookup_repeat. Qed.

Lemma lookup_total_repeat0 n i : repeat 0 n !!! i = 0.
Proof.
  destruct (decide (i < n)); [by apply lookup_total_repeat|].
  apply nat_lookup_total_ge. rewrite repeat_length. lia.
Qed.

Lemma forall_bytes_repeat b n : is_byte b -> Forall is_byte (repeat b n).
Proof. intros. rewrite repeat_replicate. by apply Forall_replicate. Qed.

Lemma lookup_total_map_seq {A} `{Inhabited A} (f : nat -> A) a n i :
  i < n -> map f (seq a n) !!! i = f (a + i).
Proof.
  intros. apply list_lookup_total_correct.
  change (map f (seq a n)) with (f <$> seq a n).
  rewrite list_lookup_fmap, lookup_seq_lt by done. done.
Qed.
