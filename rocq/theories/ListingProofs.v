(** Proofs about what the commands dir, bam show, dump and validate print. *)
From Coq Require Import Ascii String.
From Verif Require Import Base ListFacts Layout Block Bam Format Petscii Sprite Hexdump GeosTypes DirEntry Header World Chain Directory Writer Rel
  GeosFile File Validate Cdisk Text Spec SpecText SpecFiles SpecChain SpecBam SpecCodec SpecValidate Session SpecDisk GeomFacts FlatProofs BamProofs AllocProofs Evolve View SpecOutput DevFacts EntryProofs Opening OpenSound AnyDir RobustOps ToolProofs OutputProofs.
Local Open Scope list_scope.

(** ** Printing *)
Lemma print_eq s out : print s out = (out ++ s, Ok tt). Proof. done. Qed.
Lemma println_eq s out : println s out = (out ++ s ++ [10%N], Ok tt). Proof. done. Qed.
Lemma bind_print {B} s (f : unit -> printing B) out : sbind (print s) f out = f tt (out ++ s). Proof. done. Qed.
Lemma bind_println {B} s (f : unit -> printing B) out : sbind (println s) f out = f tt (out ++ s ++ [10%N]). Proof. done. Qed.
Lemma bind_lift {A B} (a : A) (f : A -> printing B) out : sbind (lift (Ok a)) f out = f a out. Proof. done. Qed.

Lemma for_each_print {X} (body : X -> printing unit) (text : X -> list N) xs : (forall x, In x xs -> forall out, body x out = (out ++ text x, Ok tt)) ->
  forall out, for_each body xs out = (out ++ List.concat (List.map text xs), Ok tt).
Proof.
  induction xs as [|x xs IH]; intros H out; cbn [for_each List.map List.concat]; [by rewrite app_nil_r|].
  unfold sbind. rewrite H by by left. cbn. rewrite IH; [by rewrite app_assoc|]. intros y Hy. apply H. by right.
Qed.

Lemma for_each_app {S X} (body : X -> st S unit) xs ys s : for_each body (xs ++ ys) s = sbind (for_each body xs) (fun _ => for_each body ys) s.
Proof.
  revert s. induction xs as [|x xs IH]; intros s; cbn [for_each app]; [done|]. unfold sbind at 1 2 3. destruct (body x s) as [s' [[]| | |]]; [|done..].
  by rewrite IH.
Qed.
Lemma text_of_app a b : text_of (a ++ b) = text_of a ++ text_of b.
Proof. unfold text_of. by rewrite map_app, concat_app. Qed.
Lemma text_of_inj a : forall b, Forall (free_of 10%N) a -> Forall (free_of 10%N) b -> text_of a = text_of b -> a = b.
Proof.
  induction a as [|x a IH]; intros [|y b] Ha Hb H; [done| | |].
  - unfold text_of in H. cbn in H. symmetry in H. apply app_eq_nil in H as [H _]. by apply app_eq_nil in H as [_ H].
  - unfold text_of in H. cbn in H. apply app_eq_nil in H as [H _]. by apply app_eq_nil in H as [_ H].
  - apply Forall_cons in Ha as [Hx Ha]. apply Forall_cons in Hb as [Hy Hb].
    change (text_of (x :: a)) with ((x ++ [10%N]) ++ text_of a) in H. change (text_of (y :: b)) with ((y ++ [10%N]) ++ text_of b) in H.
    rewrite <- !app_assoc in H. cbn [app] in H. apply field_inj in H as [-> H]; [|done|done]. f_equal. by apply IH.
Qed.

(** ** Lines *)
Lemma petscii_not b c : In c [10; 92]%N -> petscii_to_char b <> c.
Proof.
  intros Hc. unfold petscii_to_char. destruct (Nat.lt_ge_cases b 256) as [Hb|Hb].
  - assert (forallb (fun x => negb (x =? 10)%N && negb (x =? 92)%N) petscii_map = true) as H by (vm_compute; reflexivity).
    rewrite forallb_forall in H. specialize (H (petscii_map !!! b)).
    assert (In (petscii_map !!! b) petscii_map) as Hin.
    { apply elem_of_list_In, (elem_of_list_lookup_2 _ b), list_lookup_lookup_total_lt. exact Hb. }
    apply H in Hin. apply andb_true_iff in Hin as [H1%negb_true_iff%N.eqb_neq H2%negb_true_iff%N.eqb_neq]. cbn in Hc. intros E. by destruct Hc as [<-|[<-|[]]].
  - rewrite list_lookup_total_alt, lookup_ge_None_2 by (exact Hb). cbn in *. by destruct Hc as [<-|[<-|[]]].
Qed.
Lemma display_free s c : In c [10; 92]%N -> free_of c (petscii_display s).
Proof. intros Hc. apply Forall_forall. intros x Hx. apply elem_of_list_fmap in Hx as (b & -> & _). by apply petscii_not. Qed.
Lemma quoted_free s : free_of 10%N (quoted s).
Proof. apply free_of_app; [by apply free_of_check|]. apply free_of_app; [apply display_free; by left|by apply free_of_check]. Qed.
Lemma padded_free w s : free_of 10%N s -> free_of 10%N (padded w s).
Proof. intros H. apply free_of_app; [done|]. by apply repeat_free. Qed.
Lemma show_attributes_free a : free_of 10%N (show_attributes a).
Proof.
  apply free_of_app; [by destruct (fa_closed a); apply free_of_check|].
  apply free_of_app; [by destruct (fa_type a); apply free_of_check|by destruct (fa_locked a), (fa_replace a); apply free_of_check].
Qed.
Lemma show_location_free l : free_of 10%N (show_location l).
Proof.
  unfold show_location. repeat (apply free_of_app; [first [by apply free_of_check|apply dec_free; lia]|]). by apply free_of_check.
Qed.
Lemma show_structure_line s : structure_ok s -> free_of 10%N (show_structure s).
Proof. intros H. apply show_structure_free; [done|lia]. Qed.
Lemma show_geos_type_line t : geos_type_ok t -> free_of 10%N (show_geos_type t).
Proof.
  intros Hs. destruct t; cbn [geos_type_ok] in Hs; cbn [show_geos_type]; try (apply free_of_check; reflexivity).
  apply free_of_app; [by apply free_of_check|apply free_of_app; [apply hex02_free; lia|by apply free_of_check]].
Qed.
Lemma show_extra_free x : extra_ok x -> free_of 10%N (show_extra x).
Proof.
  intros Hx. destruct x as [u|side len u|info s t y mo da ho mi]; unfold show_extra; [by apply free_of_check| |].
  - repeat (apply free_of_app; [first [by apply free_of_check|apply dec_free; lia|apply show_location_free]|]). by apply free_of_check.
  - destruct Hx as [Hs Ht]. apply free_of_app; [by apply free_of_check|]. apply free_of_app; [by apply show_structure_line|].
    apply free_of_app; [by apply free_of_check|]. apply free_of_app; [by apply show_geos_type_line|].
    repeat (apply free_of_app; [first [by apply free_of_check|apply zero_padded_free; lia]|]). by apply free_of_check.
Qed.
Lemma show_entry_free v e : extra_ok (de_extra e) -> free_of 10%N (show_entry v e).
Proof.
  intros Hx. unfold show_entry. apply free_of_app; [apply padded_free, dec_free; lia|]. apply free_of_app; [by apply free_of_check|].
  apply free_of_app; [apply padded_free, quoted_free|]. apply free_of_app; [apply show_attributes_free|].
  apply free_of_app; [|by destruct (de_border e); apply free_of_check].
  destruct v; [|constructor]. apply free_of_app; [by apply free_of_check|by apply show_extra_free].
Qed.
Lemma escape_free b c : b < 256 -> c = 10%N -> free_of c (escape_byte b).
Proof.
  intros Hb ->. unfold escape_byte. repeat (case_match; [by apply free_of_check|]). case_match eqn:E.
  - repeat constructor. apply andb_true_iff in E as [E1%Nat.leb_le E2]. lia.
  - apply free_of_app; [by apply free_of_check|apply hex02_free; lia].
Qed.

(** ** Escaped text *)
Definition unescape (s : list N) : option (nat * list N) :=
  match s with
  | [] => None
  | c :: s =>
      if (c =? 92)%N then
        match s with
        | [] => None
        | c :: s =>
            if (c =? 116)%N then Some (9, s) else if (c =? 114)%N then Some (13, s) else if (c =? 110)%N then Some (10, s)
            else if (c =? 120)%N then
              match s with
              | x :: y :: s => match hex_val (N.to_nat x), hex_val (N.to_nat y) with Some x, Some y => Some (16 * x + y, s) | _, _ => None end
              | _ => None
              end
            else Some (N.to_nat c, s)
        end
      else Some (N.to_nat c, s)
  end.
Lemma unescape_escape b r : b < 256 -> unescape (escape_byte b ++ r) = Some (b, r).
Proof.
  intros Hb. do 256 (destruct b as [|b]; [reflexivity|]). lia.
Qed.
Lemma escape_inj s : forall s', Forall is_byte s -> Forall is_byte s' ->
  List.concat (List.map escape_byte s) = List.concat (List.map escape_byte s') -> s = s'.
Proof.
  induction s as [|b s IH]; intros [|b' s'] Hs Hs' H; [done| | |].
  - apply Forall_cons in Hs' as [Hb _]. cbn [List.map List.concat] in H. pose proof (unescape_escape b' (List.concat (List.map escape_byte s')) Hb) as E.
    rewrite <- H in E. discriminate E.
  - apply Forall_cons in Hs as [Hb _]. cbn [List.map List.concat] in H. pose proof (unescape_escape b (List.concat (List.map escape_byte s)) Hb) as E.
    rewrite H in E. discriminate E.
  - apply Forall_cons in Hs as [Hb Hs]. apply Forall_cons in Hs' as [Hb' Hs']. cbn [List.map List.concat] in H.
    pose proof (unescape_escape b (List.concat (List.map escape_byte s)) Hb) as E. rewrite H, unescape_escape in E by done.
    injection E as -> E. f_equal. by apply IH.
Qed.
Lemma trimmed_spec s : trimmed s = up_to_zero s.
Proof. induction s as [|[|b] s IH]; cbn; [done..|]. by rewrite IH. Qed.
Lemma trimmed_bytes s : Forall is_byte s -> Forall is_byte (trimmed s).
Proof. induction 1 as [|b s Hb Hs IH]; cbn; [done|]. destruct (b =? 0); [done|]. by constructor. Qed.
Lemma geos_string_inj s s' : Forall is_byte s -> Forall is_byte s' -> show_geos_string s = show_geos_string s' -> up_to_zero s = up_to_zero s'.
Proof. intros Hs Hs' H. rewrite <- !trimmed_spec. apply escape_inj; [by apply trimmed_bytes..|done]. Qed.
Lemma geos_string_free s : Forall is_byte s -> free_of 10%N (show_geos_string s).
Proof.
  intros Hs%trimmed_bytes. unfold show_geos_string. induction Hs as [|b s' Hb Hs IH]; cbn [List.map List.concat]; [constructor|].
  apply free_of_app; [by apply escape_free|done].
Qed.

(** ** The first line *)
Definition header_ok (h : header) : Prop :=
  length (h_disk_name h) = 16 /\ match h_geos h with Some g => Forall is_byte (gh_id g) | None => True end.
Lemma header_read_ok t d h : dev_shape t d -> holds_bytes d -> header_read d (hf t) = Ok h -> header_ok h.
Proof.
  intros Hd Hb H. unfold header_read in H. destruct (sector d (hf_location (hf t))) as [block| | |] eqn:E; try discriminate H. cbn [rbind] in H.
  pose proof (sector_Ok_length t d _ block Hd E) as Hl. pose proof (sector_bytes d _ block Hb E) as Hby.
  destruct (match hf_double_sided_flag_expectation (hf t) with Some _ => _ | None => _ end) as [u| | |]; try discriminate H. cbn [rbind] in H.
  injection H as <-. split; cbn [h_disk_name h_geos].
  - rewrite length_slice; [done|]. rewrite Hl. destruct t; vm_compute; lia.
  - unfold geos_header_new. destruct (decide _); [|done]. cbn [gh_id]. unfold slice. by apply Forall_take, Forall_drop.
Qed.
Lemma open_header_ok t d h : dev_shape t d -> holds_bytes d -> w_header (open_world t d) = Some h -> header_ok h.
Proof.
  intros Hd Hb H. destruct (open_cases t d Hd) as (_ & _ & [(_ & H' & _)|(h' & b & Hr & _ & _ & Ho)]).
  - rewrite H in H'. discriminate H'.
  - rewrite (op_header _ _ _ _ _ Ho) in H. injection H as ->. by eapply header_read_ok.
Qed.

Definition header_line (h : header) : list N :=
  str "0 " ++ quoted (h_disk_name h) ++ str " " ++ show_id (h_disk_id h) ++ str " "
  ++ petscii_display [h_directory_dos_version h; h_directory_format_type h]
  ++ match h_geos h with Some g => str " (" ++ show_geos_string (gh_id g) ++ str ")" | None => [] end.
Lemma header_line_inj h h' : header_ok h -> header_ok h' -> header_line h = header_line h' -> shown_header h = shown_header h'.
Proof.
  intros [Hl Hg] [Hl' Hg'] H. unfold header_line in H. apply app_inv_head in H.
  apply app_inj_1 in H as [H1 H]; [|rewrite !quoted_length; lia]. apply app_inv_head in H.
  apply app_inj_1 in H as [H2 H]; [|done]. apply app_inv_head in H.
  apply app_inj_1 in H as [H3 H]; [|done].
  assert (petscii_display (h_disk_name h) = petscii_display (h_disk_name h')) as H1'.
  { unfold quoted in H1. apply app_inv_head in H1. by apply app_inv_tail in H1. }
  unfold shown_header. unfold show_id in H2. rewrite H1', H2, H3. do 2 f_equal.
  destruct (h_geos h) as [g|], (h_geos h') as [g'|]; [|discriminate H|discriminate H|done].
  apply app_inv_head in H. apply app_inv_tail in H. f_equal. by apply geos_string_inj.
Qed.
Lemma header_line_shown h h' : shown_header h = shown_header h' -> header_line h = header_line h'.
Proof.
  unfold shown_header, header_line, quoted, show_id. intros H. injection H as H1 H2 H3 H4 H5 H6. rewrite H1. cbn [petscii_display map]. rewrite H2, H3, H4, H5.
  do 9 f_equal. destruct (h_geos h) as [g|], (h_geos h') as [g'|]; try discriminate H6; [|done]. injection H6 as H6.
  unfold show_geos_string. by rewrite !trimmed_spec, H6.
Qed.
Lemma header_line_free h : header_ok h -> free_of 10%N (header_line h).
Proof.
  intros [_ Hg]. unfold header_line. apply free_of_app; [by apply free_of_check|]. apply free_of_app; [apply quoted_free|].
  apply free_of_app; [by apply free_of_check|]. apply free_of_app; [apply display_free; by left|].
  apply free_of_app; [by apply free_of_check|]. apply free_of_app; [apply display_free; by left|].
  destruct (h_geos h); [|constructor]. apply free_of_app; [by apply free_of_check|]. apply free_of_app; [by apply geos_string_free|by apply free_of_check].
Qed.

(** ** Listings *)
Lemma iter_entries t d e : dev_shape t d -> holds_bytes d -> In e (fst (w_iter (open_world t d))) -> length (de_name e) <= 16 /\ extra_ok (de_extra e).
Proof.
  intros Hd Hb Hin. assert (w_dev (open_world t d) = d) as Hw by apply (open_cases t d Hd).
  destruct (iter_stored t (open_world t d) e) as (l & j & b & Hs); [by rewrite Hw|done|]. rewrite Hw in Hs.
  split; [apply (stored_fits t d e l j b Hd Hs)|].
  destruct Hs as (Hs & Hj & border & e0 & Hp & -> & _). pose proof (sector_Ok_length t d l b Hd Hs) as Hl. pose proof (sector_bytes d l b Hb Hs) as Hby.
  unfold dirent_parse in Hp. destruct (negb _); [done|]. apply Ok_inj in Hp. subst e0. cbn [set_border de_extra].
  destruct (entry_scheme _ _); cbn [extra_from_bytes extra_ok]; try done.
  all: assert (forall i, (slice ENTRY_EXTRA_OFFSET EXTRA_SIZE (slice (32 * j) 32 b)) !!! i < 256) as Hi.
  1,3: intros i; assert (Forall is_byte (slice ENTRY_EXTRA_OFFSET EXTRA_SIZE (slice (32 * j) 32 b))) as Hf by (unfold slice; by repeat apply Forall_take, Forall_drop);
    rewrite list_lookup_total_alt; destruct (_ !! i) eqn:E; [|cbn; lia]; rewrite Forall_lookup in Hf; exact (Hf _ _ E).
  all: split; [generalize (Hi 2); generalize (slice ENTRY_EXTRA_OFFSET EXTRA_SIZE (slice (32 * j) 32 b) !!! 2); intros x Hx; clear -Hx; do 2 (destruct x as [|x]; [done|]); exact Hx
              |generalize (Hi 3); generalize (slice ENTRY_EXTRA_OFFSET EXTRA_SIZE (slice (32 * j) 32 b) !!! 3); intros x Hx; clear -Hx; unfold geos_type_from_byte; repeat (case_match; try done); cbn [geos_type_ok]; lia].
Qed.

Lemma listing_text t v d : v <= 1 -> dev_shape t d ->
  let w := open_world t d in
  let free := let? _ := snd (w_iter w) in w_blocks_free w in
  print_dir t v d []
  = (text_of (show_disk w :: List.map (show_entry (0 <? v)) (fst (w_iter w))
              ++ match free with Ok n => [dec n ++ str " blocks free."] | _ => [] end),
     done free).
Proof.
  intros Hv Hd w free. unfold print_dir. rewrite tool_open_false. fold w.
  assert (w_dev w = d) as Hw by apply (open_cases t d Hd).
  rewrite mode_iter by done. change (show_disk (set_dev (with_mode false d) w)) with (show_disk w).
  change (w_blocks_free (set_dev (with_mode false d) w)) with (w_blocks_free w). subst free.
  destruct (w_iter w) as [es r]. cbn [fst snd]. rewrite bind_println. cbn [app].
  unfold sbind at 1. rewrite (for_each_print _ (fun e => show_entry (0 <? v) e ++ [10%N])).
  2: { intros e _ out. destruct v as [|[|v]]; [done| |lia]. done. }
  change (List.map (fun e => show_entry (0 <? v) e ++ [10%N]) es) with (List.map (fun e => (fun l => l ++ [10%N]) (show_entry (0 <? v) e)) es).
  rewrite <- (map_map (show_entry (0 <? v)) (fun l => l ++ [10%N])). fold (text_of (List.map (show_entry (0 <? v)) es)).
  change (text_of (show_disk w :: ?x)) with ((show_disk w ++ [10%N]) ++ text_of x). rewrite text_of_app.
  unfold sbind, lift. destruct r as [[]|x| |]; cbn [rbind done]; [|by rewrite ?app_nil_r..].
  destruct (w_blocks_free w) as [n|x| |]; cbn [rbind done]; [|by rewrite ?app_nil_r..].
  rewrite println_eq. unfold text_of at 3. cbn [List.map List.concat]. by rewrite <- ?app_assoc.
Qed.

Lemma listing_ok t v d h es n : v <= 1 -> dev_shape t d ->
  w_header (open_world t d) = Some h -> w_directory (open_world t d) = Ok es -> w_blocks_free (open_world t d) = Ok n ->
  print_dir t v d [] = (text_of (header_line h :: List.map (show_entry (0 <? v)) es ++ [dec n ++ str " blocks free."]), Ok tt).
Proof.
  intros Hv Hd Hh He Hn. rewrite listing_text by done. cbn zeta. unfold w_directory, all_or_error in He. destruct (w_iter (open_world t d)) as [es' r].
  destruct r as [[]| | |]; try discriminate He. injection He as ->. cbn [fst snd rbind]. rewrite Hn. unfold show_disk, w_get_header. by rewrite Hh.
Qed.
Lemma directory_entries t d es : dev_shape t d -> holds_bytes d -> w_directory (open_world t d) = Ok es ->
  Forall (fun e => length (de_name e) <= 16 /\ extra_ok (de_extra e)) es.
Proof.
  intros Hd Hb He. unfold w_directory, all_or_error in He. pose proof (fun e => iter_entries t d e Hd Hb) as H.
  destruct (w_iter (open_world t d)) as [es' r]. destruct r as [[]| | |]; try discriminate He. injection He as ->.
  apply Forall_forall. intros e Hin%elem_of_list_In. by apply H.
Qed.
Lemma lines_free v h es n : header_ok h -> Forall (fun e => length (de_name e) <= 16 /\ extra_ok (de_extra e)) es ->
  Forall (free_of 10%N) (header_line h :: List.map (show_entry v) es ++ [dec n ++ str " blocks free."]).
Proof.
  intros Hh He. constructor; [by apply header_line_free|]. apply Forall_app. split.
  - apply Forall_fmap. eapply Forall_impl; [exact He|]. intros e [_ Hx]. by apply show_entry_free.
  - constructor; [|constructor]. apply free_of_app; [apply dec_free; lia|by apply free_of_check].
Qed.
Lemma cons_both {A} (c c' : A) l l' : c :: l = c' :: l' -> c = c' /\ l = l'.
Proof. intros H. split; congruence. Qed.
Lemma map_entries v es es' :
  Forall (fun e => length (de_name e) <= 16 /\ extra_ok (de_extra e)) es -> Forall (fun e => length (de_name e) <= 16 /\ extra_ok (de_extra e)) es' ->
  List.map (show_entry v) es = List.map (show_entry v) es' <->
  List.map shown_entry es = List.map shown_entry es' /\ (v = true -> List.map (fun e => shown_extra (de_extra e)) es = List.map (fun e => shown_extra (de_extra e)) es').
Proof.
  intros H. revert es'. induction H as [|e es [Hl Hx] H IH]; intros es' H'; destruct H' as [|e' es' [Hl' Hx'] H']; cbn [List.map];
    [done|split; [discriminate|by intros [? _]]|split; [discriminate|by intros [? _]]|].
  specialize (IH es' H'). split.
  - intros [Hs Hm]%cons_both. apply IH in Hm as [H1 H2]. destruct v.
    + apply show_entry_verbose_inj in Hs as [E1 E2]; [|done..]. rewrite E1, E2, H1. split; [done|]. intros _. by rewrite H2.
    + apply show_entry_inj in Hs; [|done..]. rewrite Hs, H1. split; [reflexivity|discriminate].
  - intros [[E1 E2]%cons_both E3]. f_equal.
    + destruct v; [|by apply show_entry_shown]. specialize (E3 eq_refl). apply cons_both in E3 as [E3 _]. by apply show_entry_verbose_shown.
    + apply IH. split; [done|]. intros Hv. specialize (E3 Hv). by apply cons_both in E3 as [_ E3].
Qed.

Theorem listing_faithful t v d d' h h' es es' n n' : v <= 1 ->
  dev_shape t d -> holds_bytes d -> dev_shape t d' -> holds_bytes d' ->
  w_header (open_world t d) = Some h -> w_directory (open_world t d) = Ok es -> w_blocks_free (open_world t d) = Ok n ->
  w_header (open_world t d') = Some h' -> w_directory (open_world t d') = Ok es' -> w_blocks_free (open_world t d') = Ok n' ->
  exists out out', print_dir t v d [] = (out, Ok tt) /\ print_dir t v d' [] = (out', Ok tt)
    /\ (out = out' <-> shown_header h = shown_header h' /\ List.map shown_entry es = List.map shown_entry es'
                       /\ (v = 1 -> List.map (fun e => shown_extra (de_extra e)) es = List.map (fun e => shown_extra (de_extra e)) es') /\ n = n').
Proof.
  intros Hv Hd Hb Hd' Hb' Hh He Hn Hh' He' Hn'. eexists _, _. split; [by eapply listing_ok|]. split; [by eapply listing_ok|].
  pose proof (directory_entries t d es Hd Hb He) as Hes. pose proof (directory_entries t d' es' Hd' Hb' He') as Hes'.
  pose proof (open_header_ok t d h Hd Hb Hh) as Hho. pose proof (open_header_ok t d' h' Hd' Hb' Hh') as Hho'.
  assert ((0 <? v) = true <-> v = 1) as Hv1 by (rewrite Nat.ltb_lt; lia).
  pose proof (map_entries (0 <? v) es es' Hes Hes') as Hm. rewrite Hv1 in Hm. split.
  - intros H. apply text_of_inj in H; [|by apply lines_free..]. apply cons_both in H as [H1 H2]. split; [by apply header_line_inj|].
    apply app_inj_tail in H2 as [H2 H3]. apply Hm in H2 as [H2 H4]. split; [done|]. split; [done|]. apply app_inv_tail in H3. by apply dec_inj.
  - intros (H1 & H2 & H3 & ->). apply header_line_shown in H1. rewrite H1. by rewrite (proj2 Hm (conj H2 H3)).
Qed.

Theorem listing_outcome t v d : v <= 1 -> dev_shape t d ->
  exists out r, print_dir t v d [] = (out, r)
    /\ (r = Ok tt <-> (exists h, w_header (open_world t d) = Some h) /\ exists es, w_directory (open_world t d) = Ok es)
    /\ (r = Ok tt \/ exists k, r = Err k).
Proof.
  intros Hv Hd. eexists _, _. split; [by apply listing_text|]. unfold w_directory, all_or_error.
  destruct (open_cases t d Hd) as (_ & Hw & [(_ & H' & H1 & H2)|(h & b & _ & _ & Hc & Ho)]).
  - unfold w_iter, w_disk_format. rewrite H1. cbn [fst snd rbind done]. split; [|right; eauto]. split; [done|]. intros [[h Hh] _]. congruence.
  - destruct (iter_end t (open_world t d)) as [E|(k & E & _)]; [by rewrite Hw| |].
    + destruct (w_iter (open_world t d)) as [es r]. cbn [fst snd] in *. subst r. cbn [rbind].
      assert (exists n, w_blocks_free (open_world t d) = Ok n) as [n ->].
      { unfold w_blocks_free, w_get_bam, cell. destruct Ho as [_ _ (c & Hc' & Hcell) Hf Hl]. rewrite Hc'. cbn [rbind]. rewrite Hcell. cbn [rbind].
        unfold blocks_free_count. rewrite Hf, Hl. replace (last_track _) with (spec_tracks t) by (by destruct t). rewrite Nat.ltb_irrefl. eauto. }
      cbn [done rbind]. split; [|by left]. split; [|done]. intros _. split; [eexists; apply Ho|eauto].
    + destruct (w_iter (open_world t d)) as [es r]. cbn [fst snd] in *. subst r. cbn [rbind done]. split; [|right; eauto].
      split; [done|]. by intros [_ [es' Hes]].
Qed.

(** ** The block map *)
Lemma map_chars_spec n : forall m, length (map_chars n m) = n /\
  forall s, s < n -> map_chars n m !! s = Some (if N.testbit m (N.of_nat s) then 46%N else 120%N).
Proof.
  induction n as [|n IH]; intros m; cbn [map_chars length]; [split; [done|lia]|].
  destruct (IH (N.shiftr m 1)) as [H1 H2]. split; [by rewrite H1|]. intros [|s] Hs.
  - cbn [lookup list_lookup]. change (N.of_nat 0) with 0%N. rewrite N.bit0_odd. change 1%N with (N.ones 1) at 1. rewrite N.land_ones.
    change (2 ^ 1)%N with 2%N. rewrite <- N.bit0_mod, N.bit0_odd. by destruct (N.odd m).
  - cbn [lookup list_lookup]. rewrite H2 by lia. rewrite N.shiftr_spec by lia. replace (N.of_nat s + 1)%N with (N.of_nat (S s)) by lia. done.
Qed.

Lemma show_track_spec t b track : b_format b = set_geos (geos (b_format b)) (native_format t) -> length (b_entries b) = spec_tracks t -> track < spec_tracks t ->
  exists line, show_track b track = Ok (line ++ [10%N]) /\ map_line t b (S track) line.
Proof.
  intros Hf Hl Ht. unfold show_track. destruct (lookup_lt_is_Some_2 (b_entries b) track) as [e He]; [lia|]. rewrite He.
  assert (exists tr, tracks (b_format b) !! (track + 1) = Some tr /\ sectors tr = spec_sectors t (S track)) as (tr & -> & Hs).
  { rewrite Hf. change (tracks (set_geos _ (native_format t))) with (tracks (native_format t)).
    pose proof (format_tracks t (S track) ltac:(destruct t; cbn in *; lia)) as Hn. rewrite list_lookup_total_alt in Hn. rewrite Nat.add_1_r.
    destruct (tracks (native_format t) !! S track) as [tr|] eqn:E; [by exists tr|].
    pose proof (spec_sectors_bounds t (S track) ltac:(lia)). cbn in Hn. lia. }
  destruct (map_chars_spec (sectors tr) (e_map e)) as [H1 H2]. rewrite Hs in *.
  exists (str "t" ++ zero_padded 2 (dec (track + 1)) ++ str ": [" ++ zero_padded 2 (dec (e_free e)) ++ str "/"
          ++ zero_padded 2 (dec (spec_sectors t (S track))) ++ str "] " ++ map_chars (spec_sectors t (S track)) (e_map e)).
  split; [by rewrite <- !app_assoc|].
  exists (zero_padded 2 (dec (track + 1))), (zero_padded 2 (dec (e_free e))), (zero_padded 2 (dec (spec_sectors t (S track)))),
    (map_chars (spec_sectors t (S track)) (e_map e)). split; [reflexivity|].
  rewrite !zero_padded_decimal. split; [do 2 f_equal; lia|].
  assert (track_entry b (S track) = e) as E by (unfold track_entry; rewrite Nat.sub_1_r; cbn [Nat.pred]; by apply list_lookup_total_correct).
  split; [by rewrite E|]. split; [done|]. split; [done|]. intros s Hlt. rewrite H2 by done. unfold is_free. cbn [fst snd]. rewrite E.
  destruct (N.testbit (e_map e) (N.of_nat s)); [by left|right]. split; [discriminate|done].
Qed.

Theorem bam_show_text t d b : dev_shape t d -> current_map (open_world t d) = Ok b ->
  exists ls number total, cmd_bam_show t d [] = (text_of (ls ++ [number ++ str " blocks free."]), Ok tt)
    /\ length ls = spec_tracks t
    /\ (forall k, 1 <= k <= spec_tracks t -> exists line, ls !! (k - 1) = Some line /\ map_line t b k line)
    /\ decimal number = Some (N.of_nat total) /\ w_blocks_free (open_world t d) = Ok total.
Proof.
  intros Hd Hb. destruct (open_cases t d Hd) as (_ & _ & [(_ & _ & _ & H')|(h & b' & _ & _ & _ & Ho)]).
  { unfold current_map, w_get_bam in Hb. by rewrite H' in Hb. }
  pose proof (opened_map _ _ _ _ _ Ho) as Hb'. rewrite Hb in Hb'. apply Ok_inj in Hb'. rewrite <- Hb' in Ho. clear Hb'.
  destruct Ho as [_ _ _ Hf Hl].
  assert (b_format b = set_geos (geos (b_format b)) (native_format t)) as Hf' by (rewrite Hf; done).
  assert (exists ls, length ls = spec_tracks t
    /\ (forall k, 1 <= k <= spec_tracks t -> exists line, ls !! (k - 1) = Some line /\ map_line t b k line)
    /\ forall out, for_each (fun track => do! s := lift (show_track b track) in print s) (seq 0 (spec_tracks t)) out = (out ++ text_of ls, Ok tt))
    as (ls & H1 & H2 & H3).
  { assert (forall n, n <= spec_tracks t -> exists ls, length ls = n
      /\ (forall k, 1 <= k <= n -> exists line, ls !! (k - 1) = Some line /\ map_line t b k line)
      /\ forall out, for_each (fun track => do! s := lift (show_track b track) in print s) (seq 0 n) out = (out ++ text_of ls, Ok tt)) as H; [|by apply H].
    induction n as [|n IH]; intros Hn.
    - exists []. split; [done|]. split; [lia|]. intros out. cbn. by rewrite app_nil_r.
    - destruct IH as (ls & H1 & H2 & H3); [lia|]. destruct (show_track_spec t b n Hf' Hl ltac:(lia)) as (line & E & Hline).
      exists (ls ++ [line]). split; [rewrite app_length, H1; cbn; lia|]. split.
      + intros k Hk. destruct (Nat.eq_dec k (S n)) as [->|Hne].
        * exists line. split; [|done]. rewrite lookup_app_r by lia. by rewrite H1, Nat.sub_1_r, Nat.sub_diag.
        * destruct (H2 k) as (line' & Hl' & Hm); [lia|]. exists line'. split; [|done]. rewrite lookup_app_l; [done|lia].
      + intros out. rewrite seq_S. cbn [Nat.add]. rewrite for_each_app. unfold sbind at 1. rewrite H3. cbn [for_each]. unfold sbind, lift. rewrite E.
        rewrite print_eq. rewrite text_of_app. change (text_of [line]) with ((line ++ [10%N]) ++ []). by rewrite app_nil_r, !app_assoc. }
  assert (blocks_free_count b = w_blocks_free (open_world t d)) as Hbf.
  { unfold w_blocks_free. unfold current_map in Hb. destruct (w_get_bam (open_world t d)) as [c| | |]; try discriminate Hb. cbn [rbind] in *. by rewrite Hb. }
  assert (exists n, blocks_free_count b = Ok n) as [n Hn].
  { unfold blocks_free_count. rewrite Hf, Hl. replace (last_track _) with (spec_tracks t) by (by destruct t). rewrite Nat.ltb_irrefl. eauto. }
  exists ls, (dec n), n. split; [|by rewrite dec_decimal, <- Hbf].
  unfold cmd_bam_show. rewrite tool_open_false.
  change (let? c := w_get_bam (set_dev (with_mode false d) (open_world t d)) in cell (set_dev (with_mode false d) (open_world t d)) c) with (current_map (open_world t d)).
  rewrite Hb, bind_lift. unfold show_bam. rewrite Hf. replace (last_track _) with (spec_tracks t) by (by destruct t).
  unfold sbind at 1. rewrite H3, Hn, bind_lift, println_eq. rewrite text_of_app. cbn [app]. unfold text_of at 3. cbn [map concat]. by rewrite app_nil_r.
Qed.
Theorem bam_show_unformatted t d : dev_shape t d -> w_header (open_world t d) = None -> exists k, cmd_bam_show t d [] = ([], Err k).
Proof.
  intros Hd Hh. destruct (open_cases t d Hd) as (_ & _ & [(_ & _ & _ & H')|(h & b' & _ & _ & _ & Ho)]).
  - unfold cmd_bam_show. rewrite tool_open_false. change (w_get_bam (set_dev _ (open_world t d))) with (w_get_bam (open_world t d)).
    unfold w_get_bam. rewrite H'. eexists. reflexivity.
  - rewrite (op_header _ _ _ _ _ Ho) in Hh. discriminate Hh.
Qed.

(** ** The layout of the listing *)
Lemma repeat_spaces n : spaces (repeat 32%N n).
Proof. apply Forall_forall. intros x Hx%elem_of_list_In%repeat_spec. done. Qed.
Lemma header_first h : first_line h (header_line h).
Proof.
  unfold header_line, quoted, show_id. rewrite <- !app_assoc. destruct (h_geos h) as [g|] eqn:E.
  - exists (str " (" ++ show_geos_string (gh_id g) ++ str ")"). rewrite E. split; [reflexivity|]. exists (show_geos_string (gh_id g)). reflexivity.
  - exists []. rewrite E. by split.
Qed.
Lemma entry_file_line e : length (de_name e) <= 16 -> file_line e (show_entry false e).
Proof.
  intros Hn. exists (dec (de_size e)), (repeat 32%N (4 - length (dec (de_size e))) ++ [32%N]), (repeat 32%N (18 - length (quoted (de_name e)))), (if de_border e then str " (GEOS border)" else []).
  split; [|split; [|split; [|split; [|split; [|split]]]]].
  - unfold show_entry, padded, show_attributes. rewrite <- !app_assoc. cbn [app]. do 3 f_equal. unfold quoted at 1. rewrite <- !app_assoc.
    change (str """") with [34%N]. cbn [app]. do 4 f_equal. destruct (de_attr e) as [ty [] [] [] []], ty; reflexivity.
  - apply dec_decimal.
  - apply Forall_app. split; [apply repeat_spaces|by constructor].
  - apply repeat_spaces.
  - rewrite app_length, repeat_length. cbn [length]. lia.
  - rewrite repeat_length, quoted_length. lia.
  - by destruct (de_border e).
Qed.
Theorem listing_layout t d h es n : dev_shape t d -> holds_bytes d ->
  w_header (open_world t d) = Some h -> w_directory (open_world t d) = Ok es -> w_blocks_free (open_world t d) = Ok n ->
  exists first lines number, print_dir t 0 d [] = (text_of (first :: lines ++ [number ++ str " blocks free."]), Ok tt)
    /\ first_line h first /\ Forall2 file_line es lines /\ decimal number = Some (N.of_nat n).
Proof.
  intros Hd Hb Hh He Hn. exists (header_line h), (List.map (show_entry false) es), (dec n). split; [by eapply listing_ok; try lia|].
  split; [apply header_first|]. split; [|apply dec_decimal]. apply Forall2_fmap_r.
  pose proof (directory_entries t d es Hd Hb He) as H. clear He. induction H as [|e es [He _] H IH]; constructor; [by apply entry_file_line|done].
Qed.
