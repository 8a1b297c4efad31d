(** Proofs about the report of the command validate and about GEOS info blocks on the screen. *)
From Coq Require Import Ascii String.
From Verif Require Import Base ListFacts Layout Block Bam Format Petscii Sprite Hexdump GeosTypes DirEntry Header World Chain Directory Writer Rel
  GeosFile File Validate Cdisk Text Spec SpecText SpecFiles SpecOutput TextProofs OutputProofs ListingProofs.
Local Open Scope list_scope.

Lemma show_error_inj e e' : show_error e = show_error e' -> e = e'.
Proof. destruct e, e'; intros H; first [reflexivity|discriminate H]. Qed.
Lemma show_error_free e : free_of 10%N (show_error e).
Proof. destruct e; apply free_of_check; reflexivity. Qed.

(** ** Names in quotes, with quotes in them escaped *)
Definition escape_quote (c : N) : list N := if (c =? 34)%N then [92; 34]%N else [c].
Lemma debug_name_eq n : debug_name n = [34%N] ++ List.concat (List.map escape_quote (petscii_display n)) ++ [34%N].
Proof. unfold debug_name, petscii_display. by rewrite map_map. Qed.
Lemma quote_inj s : forall s' r r', free_of 92%N s -> free_of 92%N s' ->
  List.concat (List.map escape_quote s) ++ 34%N :: r = List.concat (List.map escape_quote s') ++ 34%N :: r' -> s = s' /\ r = r'.
Proof.
  induction s as [|c s IH]; intros [|c' s'] r r' H H' E; cbn [List.map List.concat] in E.
  - cbn [app] in E. split; [done|congruence].
  - exfalso. unfold escape_quote in E. destruct (N.eqb_spec c' 34); cbn in E; congruence.
  - exfalso. unfold escape_quote in E. destruct (N.eqb_spec c 34); cbn in E; congruence.
  - apply Forall_cons in H as [Hc H]. apply Forall_cons in H' as [Hc' H']. rewrite <- !app_assoc in E. unfold escape_quote at 1 3 in E.
    destruct (N.eqb_spec c 34), (N.eqb_spec c' 34); cbn [app] in E; subst.
    + do 2 apply cons_tail in E. by destruct (IH s' r r' H H' E) as [-> ->].
    + exfalso. injection E as E _. congruence.
    + exfalso. injection E as E _. congruence.
    + apply cons_both in E as [-> E]. by destruct (IH s' r r' H H' E) as [-> ->].
Qed.
Lemma debug_inj n n' r r' : debug_name n ++ r = debug_name n' ++ r' -> petscii_display n = petscii_display n' /\ r = r'.
Proof.
  rewrite !debug_name_eq, <- !app_assoc. intros E%app_inv_head. cbn [app] in E. apply quote_inj in E; [done|apply display_free; by right; left..].
Qed.
Lemma debug_inj' n n' : debug_name n = debug_name n' -> petscii_display n = petscii_display n'.
Proof. intros E. apply (debug_inj n n' [] []). by rewrite !app_nil_r. Qed.
Lemma debug_shown n n' : petscii_display n = petscii_display n' -> debug_name n = debug_name n'.
Proof. intros E. by rewrite !debug_name_eq, E. Qed.
Lemma debug_free n : free_of 10%N (debug_name n).
Proof.
  rewrite debug_name_eq. apply free_of_app; [by apply free_of_check|]. apply free_of_app; [|by apply free_of_check].
  pose proof (display_free n 10%N ltac:(by left)) as H. induction H as [|c s Hc H IH]; cbn [List.map List.concat]; [constructor|].
  apply free_of_app; [|done]. unfold escape_quote. destruct (c =? 34)%N; [by apply free_of_check|by repeat constructor].
Qed.

(** ** One message *)
Theorem message_faithful v v' : show_validation v = show_validation v' <-> shown_defect v = shown_defect v'.
Proof.
  split.
  - destruct v as [l|l|l n|l n1 n2|e n], v' as [l'|l'|l' n'|l' n1' n2'|e' n']; unfold show_validation; intros H; try discriminate H.
    + apply app_inv_head in H. rewrite <- (app_nil_r (show_location l)), <- (app_nil_r (show_location l')) in H. by apply show_location_inj in H as [-> _].
    + apply app_inv_head in H. rewrite <- (app_nil_r (show_location l)), <- (app_nil_r (show_location l')) in H. by apply show_location_inj in H as [-> _].
    + apply app_inv_head in H. apply show_location_inj in H as [-> H]. apply app_inv_head, debug_inj' in H. cbn [shown_defect]. by rewrite H.
    + apply app_inv_head in H. apply show_location_inj in H as [_ H]. discriminate H.
    + apply app_inv_head in H. apply show_location_inj in H as [_ H]. discriminate H.
    + apply app_inv_head in H. apply show_location_inj in H as [-> H]. apply app_inv_head in H. apply debug_inj in H as [H1 H].
      apply app_inv_head, debug_inj' in H. cbn [shown_defect]. by rewrite H1, H.
    + apply app_inv_head in H. apply debug_inj in H as [H1 H]. apply app_inv_head, show_error_inj in H. cbn [shown_defect]. by rewrite H1, H.
  - destruct v as [l|l|l n|l n1 n2|e n], v' as [l'|l'|l' n'|l' n1' n2'|e' n']; cbn [shown_defect]; intros H; try discriminate H.
    + by injection H as ->.
    + by injection H as ->.
    + unfold show_validation. assert (l = l' /\ petscii_display n = petscii_display n') as [-> E%debug_shown] by (split; congruence). by rewrite E.
    + unfold show_validation. assert (l = l' /\ petscii_display n1 = petscii_display n1' /\ petscii_display n2 = petscii_display n2') as (-> & E1%debug_shown & E2%debug_shown) by (repeat split; congruence).
      by rewrite E1, E2.
    + unfold show_validation. assert (e = e' /\ petscii_display n = petscii_display n') as [-> E%debug_shown] by (split; congruence). by rewrite E.
Qed.
Lemma message_free v : free_of 10%N (show_validation v).
Proof.
  destruct v; unfold show_validation;
    repeat first [apply show_location_free|apply debug_free|apply show_error_free|apply free_of_app; [first [by apply free_of_check|apply show_location_free|apply debug_free]|]].
Qed.

(** ** The report *)
Lemma report_text t d vs : cmd_validate t d = Ok vs ->
  print_validate t d [] = (match vs with [] => text_of [str "Disk validates successfully."] | _ => text_of (List.map show_validation vs) end,
                           Ok (match vs with [] => true | _ => false end)).
Proof.
  intros H. unfold print_validate. rewrite H, bind_lift. unfold sbind at 1. rewrite (for_each_print _ (fun v => show_validation v ++ [10%N])) by done.
  destruct vs as [|v vs]; [done|]. unfold ret. f_equal. cbn [app]. unfold text_of. by rewrite map_map.
Qed.
Theorem report_faithful t d d' vs vs' : cmd_validate t d = Ok vs -> cmd_validate t d' = Ok vs' ->
  exists out out' ok, print_validate t d [] = (out, Ok ok) /\ (ok = true <-> vs = [])
    /\ fst (print_validate t d' []) = out' /\ (out = out' <-> List.map shown_defect vs = List.map shown_defect vs').
Proof.
  intros H H'. eexists _, _, _. split; [by apply report_text|]. split; [by destruct vs|]. split; [reflexivity|]. rewrite (report_text t d' vs' H'). cbn [fst].
  assert (forall v vs, text_of [str "Disk validates successfully."] <> text_of (List.map show_validation (v :: vs))) as Hne.
  { intros v vs0 E. change (List.map show_validation (v :: vs0)) with (show_validation v :: List.map show_validation vs0) in E.
    apply text_of_inj in E; [|constructor; [by apply free_of_check|constructor]|constructor; [apply message_free|]].
    - apply cons_both in E as [E _]. by destruct v.
    - apply Forall_fmap, Forall_true. intros x. apply message_free. }
  destruct vs as [|v vs], vs' as [|v' vs'].
  - done.
  - split; [|discriminate]. intros E. by apply Hne in E.
  - split; [|discriminate]. intros E. symmetry in E. by apply Hne in E.
  - assert (forall xs, Forall (free_of 10%N) (List.map show_validation xs)) as Hf by (intros xs; apply Forall_fmap, Forall_true; intros x; apply message_free).
    split.
    + intros E%text_of_inj; [|apply Hf..]. revert E. generalize (v :: vs), (v' :: vs'). clear. induction l as [|x l IH]; intros [|y l'] E; [done|discriminate E|discriminate E|].
      cbn [List.map] in *. apply cons_both in E as [E1 E2]. f_equal; [by apply message_faithful|by apply IH].
    + intros E. f_equal. revert E. generalize (v :: vs), (v' :: vs'). clear. induction l as [|x l IH]; intros [|y l'] E; [done|discriminate E|discriminate E|].
      cbn [List.map] in *. apply cons_both in E as [E1 E2]. f_equal; [by apply message_faithful|by apply IH].
Qed.

(** ** GEOS info blocks *)
Lemma lines_app l s : free_of 10%N l -> lines (l ++ 10%N :: s) = l :: lines s.
Proof.
  induction 1 as [|c l Hc H IH]; cbn [app lines]; [done|]. rewrite (proj2 (N.eqb_neq c 10) Hc). by rewrite IH.
Qed.
Lemma lines_text ls : Forall (free_of 10%N) ls -> lines (text_of ls) = ls.
Proof.
  induction 1 as [|l ls Hl H IH]; [done|]. change (text_of (l :: ls)) with ((l ++ [10%N]) ++ text_of ls). rewrite <- app_assoc. cbn [app].
  by rewrite lines_app, IH.
Qed.

Fixpoint beside (icon text : list (list N)) : list (list N) :=
  match icon with
  | [] => []
  | x :: icon => (x ++ str " " ++ hd [] text) :: beside icon (tl text)
  end.
Lemma zip_lines_spec icon : forall text fuel, length icon < fuel -> length text <= length icon -> Forall (fun x => length x = 12) icon ->
  zip_lines fuel icon text = text_of (beside icon text).
Proof.
  induction icon as [|x icon IH]; intros text fuel Hf Hl H.
  - destruct text; [|cbn in Hl; lia]. by destruct fuel.
  - destruct fuel as [|fuel]; [cbn in Hf; lia|]. apply Forall_cons in H as [Hx H]. cbn [zip_lines beside hd tl].
    assert (padded 12 x = x) as Hp by (unfold padded; rewrite Hx, Nat.sub_diag; apply app_nil_r).
    change (text_of ((x ++ str " " ++ hd [] text) :: beside icon (tl text))) with (((x ++ str " " ++ hd [] text) ++ [10%N]) ++ text_of (beside icon (tl text))).
    rewrite <- (IH (tl text) fuel); [|cbn in Hf; lia|destruct text; cbn in *; lia|done].
    destruct x as [|c x]; [done|]. cbv iota. rewrite Hp. by rewrite <- !app_assoc.
Qed.
Lemma beside_inj icon : forall icon' text text', length icon = length icon' -> Forall (fun x => length x = 12) icon -> Forall (fun x => length x = 12) icon' ->
  length text = length text' -> length text <= length icon -> beside icon text = beside icon' text' -> icon = icon' /\ text = text'.
Proof.
  induction icon as [|x icon IH]; intros [|x' icon'] text text' Hl H H' Ht Hle E; try discriminate Hl.
  - destruct text, text'; [done|discriminate Ht|discriminate Ht|cbn in Hle; lia].
  - apply Forall_cons in H as [Hx H]. apply Forall_cons in H' as [Hx' H']. cbn [beside] in E. apply cons_both in E as [E1 E2].
    apply app_inj_1 in E1 as [-> E1]; [|congruence]. apply app_inv_head in E1. injection Hl as Hl.
    destruct (IH icon' (tl text) (tl text') Hl H H') as [-> E3]; [destruct text, text'; cbn in *; lia|destruct text; cbn in *; lia|done|].
    split; [done|]. destruct text, text'; cbn in *; try done. congruence.
Qed.
Lemma beside_free icon : forall text, Forall (free_of 10%N) icon -> Forall (free_of 10%N) text -> Forall (free_of 10%N) (beside icon text).
Proof.
  induction icon as [|x icon IH]; intros text H Ht; cbn [beside]; [constructor|]. apply Forall_cons in H as [Hx H].
  constructor; [|apply IH; [done|destruct Ht; by repeat constructor]].
  apply free_of_app; [done|]. apply free_of_app; [by apply free_of_check|]. destruct Ht; [constructor|done].
Qed.

Definition info_texts (i : geos_info) : list (list N) :=
  [str "Type: " ++ show_geos_type (gi_type i) ++ str " (" ++ show_structure (gi_structure i) ++ str ")";
   str "Program addresses: load=0x" ++ hex04 (gi_load i) ++ str " end=0x" ++ hex04 (gi_end i) ++ str " start=0x" ++ hex04 (gi_start i);
   str "Class: " ++ show_geos_string (gi_class i);
   str "Author: " ++ show_geos_string (gi_author i);
   str "Application: " ++ show_geos_string (gi_application i);
   str "Description: " ++ show_geos_string (gi_description i)].
Lemma info_texts_eq i : info_lines i = text_of (info_texts i).
Proof. unfold info_lines, info_texts, text_of. cbn [map concat]. by rewrite app_nil_r, <- !app_assoc. Qed.
Definition icon_rows (data : list nat) : list (list N) := List.map (icon_row data) (seq 0 11).
Lemma icon_rows_eq data : Forall is_byte data -> sprite_to_unicode data = text_of (icon_rows data).
Proof. intros H. rewrite sprite_faithful by done. unfold sprite_text, text_of, icon_rows. by rewrite map_map. Qed.
Lemma icon_row_length data k : length (icon_row data k) = 12. Proof. done. Qed.
Lemma icon_row_free data k : free_of 10%N (icon_row data k).
Proof.
  apply Forall_forall. intros x Hx. apply elem_of_list_fmap in Hx as (c & -> & _). generalize (pixel data (2 * c) (2 * k)), (pixel data (2 * c + 1) (2 * k)), (pixel data (2 * c) (2 * k + 1)), (pixel data (2 * c + 1) (2 * k + 1)).
  intros [] [] [] []; discriminate.
Qed.

(** Info blocks as they are read. *)
Record info_ok (i : geos_info) : Prop := {
  io_icon : length (gi_icon i) = 63 /\ Forall is_byte (gi_icon i);
  io_type : geos_type_ok (gi_type i);
  io_structure : structure_ok (gi_structure i);
  io_class : Forall is_byte (gi_class i);
  io_author : Forall is_byte (gi_author i);
  io_application : Forall is_byte (gi_application i);
  io_description : Forall is_byte (gi_description i)
}.
Lemma hex4_range n : Forall (fun c => 48 <= c <= 57 \/ 97 <= c <= 102) (hex4 n).
Proof.
  unfold hex4. apply Forall_app. split.
  - apply Forall_forall. intros x Hx%elem_of_list_In%repeat_spec. lia.
  - generalize (S n) as fuel. intros fuel. revert n. induction fuel as [|fuel IH]; intros n; cbn [hex_digits]; [constructor|]. apply Forall_app. split.
    + destruct (n / 16 =? 0); [constructor|apply IH].
    + constructor; [|constructor]. apply hex_digit_range. apply Nat.mod_upper_bound. lia.
Qed.
Lemma hex04_free c n : (c < 48)%N -> free_of c (hex04 n).
Proof.
  intros Hc. apply Forall_fmap. eapply Forall_impl; [apply hex4_range|]. intros x Hx. unfold compose. cbv beta in Hx. lia.
Qed.
Lemma hex04_inj n m : hex04 n = hex04 m -> n = m.
Proof.
  intros H. apply (fmap_inj N.of_nat) in H; [|intros x y; apply Nat2N.inj].
  pose proof (proj1 (read_hex4 n [58])) as E. rewrite H, (proj1 (read_hex4 m [58])) in E. cbn in E. by injection E.
Qed.
Lemma info_texts_free i : info_ok i -> Forall (free_of 10%N) (info_texts i).
Proof.
  intros [_ Ht Hs H1 H2 H3 H4]. unfold info_texts. apply Forall_cons_2; [|apply Forall_cons_2; [|apply Forall_cons_2; [|apply Forall_cons_2; [|apply Forall_cons_2; [|apply Forall_cons_2; [|constructor]]]]]].
  - apply free_of_app; [by apply free_of_check|]. apply free_of_app; [by apply show_geos_type_line|]. apply free_of_app; [by apply free_of_check|].
    apply free_of_app; [by apply show_structure_line|by apply free_of_check].
  - repeat (apply free_of_app; [first [by apply free_of_check|apply hex04_free; lia]|]). apply hex04_free; lia.
  - apply free_of_app; [by apply free_of_check|by apply geos_string_free].
  - apply free_of_app; [by apply free_of_check|by apply geos_string_free].
  - apply free_of_app; [by apply free_of_check|by apply geos_string_free].
  - apply free_of_app; [by apply free_of_check|by apply geos_string_free].
Qed.
Lemma geos_type_prefix t t' r r' : geos_type_ok t -> geos_type_ok t' -> show_geos_type t ++ str " (" ++ r = show_geos_type t' ++ str " (" ++ r' -> t = t' /\ r = r'.
Proof.
  destruct t, t'; cbn [geos_type_ok]; intros H1 H2 H; try discriminate H;
    try (split; [reflexivity|]; apply app_inv_head in H; by apply app_inv_head in H).
  unfold show_geos_type in H. rewrite <- !app_assoc in H. apply app_inv_head in H. apply app_inj_1 in H as [H H']; [|done].
  apply hex02_inj in H; [|done..]. subst. split; [done|]. do 2 apply app_inv_head in H'. done.
Qed.
Lemma info_texts_inj i i' : info_ok i -> info_ok i' -> info_texts i = info_texts i' ->
  gi_type i = gi_type i' /\ gi_structure i = gi_structure i' /\ gi_load i = gi_load i' /\ gi_end i = gi_end i' /\ gi_start i = gi_start i'
  /\ up_to_zero (gi_class i) = up_to_zero (gi_class i') /\ up_to_zero (gi_author i) = up_to_zero (gi_author i')
  /\ up_to_zero (gi_application i) = up_to_zero (gi_application i') /\ up_to_zero (gi_description i) = up_to_zero (gi_description i').
Proof.
  intros [_ Ht Hs H1 H2 H3 H4] [_ Ht' Hs' H1' H2' H3' H4'] E. unfold info_texts in E.
  apply cons_both in E as [E1 E]. apply cons_both in E as [E2 E]. apply cons_both in E as [E3 E]. apply cons_both in E as [E4 E].
  apply cons_both in E as [E5 E]. apply cons_both in E as [E6 _].
  apply app_inv_head in E1. apply geos_type_prefix in E1 as [-> E1]; [|done..]. apply app_inv_tail, show_structure_inj in E1 as ->; [|done..].
  apply app_inv_head in E2. change (str " end=0x") with ([32%N] ++ str "end=0x") in E2. change (str " start=0x") with ([32%N] ++ str "start=0x") in E2.
  rewrite <- !app_assoc in E2. cbn [app] in E2. apply field_inj in E2 as [->%hex04_inj E2]; [|apply hex04_free; lia..].
  apply app_inv_head in E2. apply field_inj in E2 as [->%hex04_inj E2]; [|apply hex04_free; lia..].
  apply app_inv_head, hex04_inj in E2 as ->.
  apply app_inv_head, geos_string_inj in E3; [|done..]. apply app_inv_head, geos_string_inj in E4; [|done..].
  apply app_inv_head, geos_string_inj in E5; [|done..]. apply app_inv_head, geos_string_inj in E6; [|done..]. done.
Qed.

Lemma show_info_text i : info_ok i -> show_info i = text_of (beside (icon_rows (gi_icon i)) (info_texts i)).
Proof.
  intros Hi. unfold show_info. rewrite icon_rows_eq by apply Hi. rewrite info_texts_eq. rewrite !lines_text.
  - apply zip_lines_spec; [lia|cbn; lia|]. apply Forall_fmap, Forall_true. intros k. apply icon_row_length.
  - by apply info_texts_free.
  - apply Forall_fmap, Forall_true. intros k. apply icon_row_free.
Qed.
Lemma info_bytes b : length b = 256 -> Forall is_byte b -> info_ok (info_from_bytes b).
Proof.
  intros Hl Hb. assert (forall i, b !!! i < 256) as Hi.
  { intros i. rewrite list_lookup_total_alt. destruct (b !! i) eqn:E; [|cbn; lia]. rewrite Forall_lookup in Hb. exact (Hb _ _ E). }
  assert (forall o n, Forall is_byte (slice o n b)) as Hs by (intros o n; unfold slice; by apply Forall_take, Forall_drop).
  split; cbn [info_from_bytes gi_icon gi_type gi_structure gi_class gi_author gi_application gi_description]; try done.
  - split; [apply length_slice; lia|done].
  - generalize (Hi 69); generalize (b !!! 69); intros x Hx; clear -Hx; unfold geos_type_from_byte; repeat (case_match; try done); cbn [geos_type_ok]; lia.
  - generalize (Hi 70); generalize (b !!! 70); intros x Hx; clear -Hx; do 2 (destruct x as [|x]; [done|]); exact Hx.
Qed.

Theorem info_text b : length b = 256 -> Forall is_byte b ->
  exists texts, length texts = 6 /\ Forall one_line texts
    /\ show_info (info_from_bytes b) = text_of (List.map (fun k => icon_row (slice 5 63 b) k ++ [32%N] ++ nth k texts []) (seq 0 11)).
Proof.
  intros Hl Hb. pose proof (info_bytes b Hl Hb) as Hi. exists (info_texts (info_from_bytes b)). split; [done|]. split.
  - eapply Forall_impl; [by apply info_texts_free|]. intros l Hf Hin%elem_of_list_In. unfold free_of in Hf. rewrite Forall_forall in Hf. by apply (Hf _ Hin).
  - rewrite show_info_text by done. reflexivity.
Qed.
Theorem info_faithful b b' : length b = 256 -> length b' = 256 -> Forall is_byte b -> Forall is_byte b' ->
  show_info (info_from_bytes b) = show_info (info_from_bytes b') <-> shown_info (info_from_bytes b) = shown_info (info_from_bytes b').
Proof.
  intros Hl Hl' Hb Hb'. pose proof (info_bytes b Hl Hb) as Hi. pose proof (info_bytes b' Hl' Hb') as Hi'.
  revert Hi Hi'. generalize (info_from_bytes b), (info_from_bytes b'). clear. intros i i' Hi Hi'. split.
  - rewrite !show_info_text by done. intros E. apply text_of_inj in E.
    2, 3: apply beside_free; [apply Forall_fmap, Forall_true; intros k; apply icon_row_free|by apply info_texts_free].
    apply beside_inj in E as [E1 E2]; [|done|apply Forall_fmap, Forall_true; intros k; apply icon_row_length..|done|cbn; lia].
    apply info_texts_inj in E2 as (H1 & H2 & H3 & H4 & H5 & H6 & H7 & H8 & H9); [|done..].
    assert (gi_icon i = gi_icon i') as H0.
    { apply sprite_injective; [apply Hi|apply Hi'|apply Hi|apply Hi'|]. rewrite !icon_rows_eq by (apply Hi || apply Hi'). by rewrite E1. }
    unfold shown_info. by rewrite H0, H1, H2, H3, H4, H5, H6, H7, H8, H9.
  - unfold shown_info. intros H. assert (gi_icon i = gi_icon i' /\ gi_type i = gi_type i' /\ gi_structure i = gi_structure i' /\ gi_load i = gi_load i' /\ gi_end i = gi_end i' /\ gi_start i = gi_start i'
      /\ up_to_zero (gi_class i) = up_to_zero (gi_class i') /\ up_to_zero (gi_author i) = up_to_zero (gi_author i')
      /\ up_to_zero (gi_application i) = up_to_zero (gi_application i') /\ up_to_zero (gi_description i) = up_to_zero (gi_description i'))
      as (H0 & H1 & H2 & H3 & H4 & H5 & H6 & H7 & H8 & H9) by (repeat split; congruence).
    unfold show_info, info_lines, show_geos_string. by rewrite !trimmed_spec, H0, H1, H2, H3, H4, H5, H6, H7, H8, H9.
Qed.
