(** Errors as callers see them, and the arguments of cdisk. *)
From Coq Require Import Ascii String.
From Verif Require Import Base Layout Image Block Petscii GeosTypes DirEntry Text Errors Host Main SpecOutput SpecHost ReportProofs OutputProofs HostProofs.
Local Open Scope list_scope.

(** ** Errors *)

Lemma error_back e : from_io (to_io e) = e /\ from_io_error (to_io e) = Some e. Proof. done. Qed.
Lemma error_equal x e : (disk_eq_io e x = true <-> io_source_of x = FromDisk e) /\ (io_eq_disk x e = true <-> io_source_of x = FromDisk e).
Proof.
  destruct x as [k [y|s|s]]; unfold disk_eq_io, io_eq_disk, from_io_error; cbn [io_source_of]; [|split; split; done..].
  rewrite bool_decide_eq_true. split; (split; [by intros ->|by intros [= ->]]).
Qed.
Lemma error_foreign x : (forall e, io_source_of x <> FromDisk e) -> from_io_error x = None /\ from_io x = EUnknown.
Proof. destruct x as [k [y|s|s]]; intros H; [by destruct (H y)|done..]. Qed.
Lemma error_text e x : show_io (to_io e) = show_io (to_io x) <-> e = x.
Proof. split; [apply show_error_inj|by intros ->]. Qed.
Lemma error_kind e : io_kind_of (to_io e) = KNotFound <-> e = ENotFound. Proof. by destruct e. Qed.

(** ** Numbers *)

Lemma read_decimal_grows s : forall acc n, read_decimal acc s = Some n -> (acc <= n)%N.
Proof.
  induction s as [|c s IH]; cbn [read_decimal]; intros acc n H; [injection H as ->; lia|].
  unfold digit in H. destruct (_ && _)%N; [|done]. apply IH in H. lia.
Qed.
Lemma parse_digits_spec s : forall acc, (acc <= 255)%N ->
  parse_digits acc s = match read_decimal acc s with Some n => if (n <=? 255)%N then Some n else None | None => None end.
Proof.
  induction s as [|c s IH]; cbn [parse_digits read_decimal]; intros acc Ha; [by destruct (N.leb_spec acc 255); [|lia]|].
  unfold digit. destruct (_ && _)%N; [|done]. cbv zeta.
  destruct (N.ltb_spec 255 (acc * 10 + (c - 48)))%N as [Hl|Hl]; [|by apply IH].
  destruct (read_decimal _ s) as [n|] eqn:E; [|done]. apply read_decimal_grows in E. destruct (N.leb_spec n 255)%N; [lia|done].
Qed.
Lemma parse_u8_spec s : parse_u8 s = match unsigned s with Some n => if (n <=? 255)%N then Some (N.to_nat n) else None | None => None end.
Proof.
  assert (forall s, option_map N.to_nat (parse_digits 0 s) = match read_decimal 0 s with Some n => if (n <=? 255)%N then Some (N.to_nat n) else None | None => None end) as H.
  { intros x. rewrite parse_digits_spec by lia. destruct (read_decimal 0 x) as [n|]; [|done]. by destruct (n <=? 255)%N. }
  destruct s as [|c s]; [done|]. destruct (N.eq_dec c 43) as [->|Hc].
  - cbn [parse_u8 unsigned]. destruct s as [|c' s]; [done|]. cbn [N.eqb Pos.eqb]. rewrite H. done.
  - assert (unsigned (c :: s) = read_decimal 0 (c :: s)) as Hu.
    { unfold unsigned, decimal. destruct c as [|c]; [done|]. repeat (destruct c as [c|c|]; try done). }
    rewrite Hu, <- H. unfold parse_u8. destruct (N.eqb_spec c 43); [done|].
    destruct c as [|c]; [by destruct s|]. repeat (destruct c as [c|c|]; try done; try (by destruct s)).
Qed.
Lemma all_no_number : unsigned (str "all") = None. Proof. done. Qed.
Lemma arg_spec v min max o : max <= 255 ->
  optional_u8_parser v min max = Some o <->
  match o with None => v = str "all" | Some n => unsigned v = Some (N.of_nat n) /\ min <= n <= max end.
Proof.
  intros Hm. unfold optional_u8_parser. rewrite parse_u8_spec. destruct (decide (v = str "all")) as [->|Hv].
  - rewrite bool_decide_eq_true_2 by done. rewrite all_no_number. destruct o; split; try done. by intros [? _].
  - rewrite bool_decide_eq_false_2 by done. destruct (unsigned v) as [n|].
    + destruct (N.leb_spec n 255) as [Hn|Hn].
      * destruct (Nat.leb_spec min (N.to_nat n)), (Nat.leb_spec (N.to_nat n) max); cbn [andb]; destruct o as [k|]; split; try done; try (by intros [= <-]; split; [by rewrite N2Nat.id|lia]).
        all: intros [[= ->] ?]; rewrite ?Nat2N.id in *; first [done|lia].
      * destruct o as [k|]; split; try done. intros [[= ->] ?]. lia.
    + destruct o as [k|]; split; try done. by intros [? _].
Qed.
Lemma track_arg_spec v o : track_arg v = Some o <-> match o with None => v = str "all" | Some n => unsigned v = Some (N.of_nat n) /\ 1 <= n <= 40 end.
Proof. apply arg_spec. lia. Qed.
Lemma sector_arg_spec v o : sector_arg v = Some o <-> match o with None => v = str "all" | Some n => unsigned v = Some (N.of_nat n) /\ 0 <= n <= 20 end.
Proof. apply arg_spec. lia. Qed.
Lemma arg_accepts n : (1 <= n <= 40 -> track_arg (dec n) = Some (Some n)) /\ (n <= 20 -> sector_arg (dec n) = Some (Some n)).
Proof.
  assert (unsigned (dec n) = Some (N.of_nat n)) as H.
  { pose proof (dec_decimal n) as H. unfold unsigned. destruct (dec n) as [|c s]; [done|]. destruct c as [|c]; [done|].
    unfold decimal in H. cbn [read_decimal] in H. unfold digit in H. repeat (destruct c as [c|c|]; try done). }
  split; intros Hn; [apply track_arg_spec|apply sector_arg_spec]; split; [done|lia|done|lia].
Qed.

(** ** Types of files *)

Lemma type_string_back t s : type_from_string s = Some t -> List.map upper s = List.map upper (show_type t).
Proof. unfold type_from_string. repeat case_bool_decide; try done; by intros [= <-]. Qed.
Lemma type_string_known t : (forall n, t <> FUnknown n) -> type_from_string (show_type t) = Some t.
Proof. destruct t; intros H; try done. by destruct (H b). Qed.
Lemma type_string_case s s' : List.map upper s = List.map upper s' -> type_from_string s = type_from_string s'.
Proof. intros H. unfold type_from_string. by rewrite H. Qed.
