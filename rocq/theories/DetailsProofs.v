(** Proofs about what the verbose listings show of each file. *)
From Coq Require Import Ascii String.
From Verif Require Import Base ListFacts Layout Block Bam Format Petscii Sprite Hexdump GeosTypes DirEntry Header World Chain Directory Writer Rel
  GeosFile File Validate Cdisk Text Spec SpecText SpecFiles SpecChain SpecBam SpecCodec SpecValidate Session SpecDisk GeomFacts FlatProofs BamProofs AllocProofs Evolve View SpecOutput DevFacts EntryProofs Opening OpenSound AnyDir RobustOps ToolProofs OutputProofs
  ListingProofs DumpProofs ReportProofs SpecDetails.
Local Open Scope list_scope.

(** ** Numbers *)
Lemma hex_value_digit n : n < 16 -> hex_value (N.of_nat (hex_digit n)) = Some (N.of_nat n).
Proof. intros H. do 16 (destruct n as [|n]; [reflexivity|]). lia. Qed.
Lemma hex_from_app s : forall acc s', hex_from acc (s ++ s') = match hex_from acc s with Some v => hex_from v s' | None => None end.
Proof. induction s as [|c s IH]; intros acc s'; cbn [app hex_from]; [done|]. destruct (hex_value c); [apply IH|done]. Qed.
Lemma hex02_shows b : b < 256 -> hexadecimal (hex02 b) = Some (N.of_nat b).
Proof.
  intros Hb. unfold hexadecimal, hex02, hex2. cbn [List.map hex_from].
  rewrite !hex_value_digit by (apply Nat.div_lt_upper_bound || apply Nat.mod_upper_bound; lia). cbn [hex_from].
  f_equal. pose proof (Nat.div_mod b 16 ltac:(lia)). lia.
Qed.
Lemma hex_digits_value fuel : forall n, n < 16 ^ fuel -> hex_from 0 (List.map N.of_nat (hex_digits fuel n)) = Some (N.of_nat n).
Proof.
  induction fuel as [|fuel IH]; intros n Hn.
  - cbn in *. f_equal. lia.
  - cbn [hex_digits]. rewrite map_app, hex_from_app.
    assert (hex_from 0 (List.map N.of_nat (if n / 16 =? 0 then [] else hex_digits fuel (n / 16))) = Some (N.of_nat (n / 16))) as ->.
    { destruct (Nat.eqb_spec (n / 16) 0) as [E|E]; [by rewrite E|]. apply IH. rewrite Nat.pow_succ_r' in Hn. apply Nat.div_lt_upper_bound; lia. }
    cbn [List.map hex_from]. rewrite hex_value_digit by (apply Nat.mod_upper_bound; lia). f_equal. pose proof (Nat.div_mod n 16 ltac:(lia)). lia.
Qed.
Lemma hex_digits_length k : forall fuel n, n < 16 ^ S k -> length (hex_digits fuel n) <= S k.
Proof.
  induction k as [|k IH]; intros [|fuel] n Hn; cbn [hex_digits]; [cbn; lia| |cbn; lia|].
  - change (16 ^ 1) with 16 in Hn. rewrite (Nat.div_small n 16) by lia. cbn. lia.
  - rewrite app_length. cbn [length]. destruct (n / 16 =? 0); [cbn; lia|].
    assert (length (hex_digits fuel (n / 16)) <= S k); [|lia]. apply IH. rewrite (Nat.pow_succ_r' 16 (S k)) in Hn. apply Nat.div_lt_upper_bound; lia.
Qed.
Lemma hex_zeros k s : hex_from 0 (repeat 48%N k ++ s) = hex_from 0 s.
Proof. induction k as [|k IH]; [done|]. cbn [repeat app hex_from]. exact IH. Qed.
Lemma map_repeat_N k : List.map N.of_nat (repeat 48 k) = repeat 48%N k.
Proof. induction k as [|k IH]; [done|]. cbn [repeat List.map]. by rewrite IH. Qed.
Lemma pow_fuel n : n < 16 ^ S n.
Proof. apply (Nat.lt_trans _ (S n)); [lia|]. apply Nat.pow_gt_lin_r. lia. Qed.
Lemma hex04_shows a b : a < 256 -> b < 256 -> shows_address (N.of_nat (a + 256 * b)) (hex04 (b * 256 + a)).
Proof.
  intros Ha Hb. replace (a + 256 * b) with (b * 256 + a) by lia. set (n := b * 256 + a).
  assert (n < 16 ^ 4) as Hn. { change (16 ^ 4) with (16 ^ 2 * 16 ^ 2). change (16 ^ 2) with 256. unfold n. nia. }
  unfold shows_address, hex04, hex4. pose proof (hex_digits_length 3 (S n) n Hn) as Hl. split.
  - rewrite map_length, app_length, repeat_length. lia.
  - rewrite map_app, map_repeat_N. pose proof (hex_digits_value (S n) n (pow_fuel n)) as Hv.
    assert (hexadecimal (repeat 48%N (4 - length (hex_digits (S n) n)) ++ List.map N.of_nat (hex_digits (S n) n))
      = hex_from 0 (repeat 48%N (4 - length (hex_digits (S n) n)) ++ List.map N.of_nat (hex_digits (S n) n))) as ->.
    { unfold hexadecimal. destruct (_ ++ _) eqn:E; [|done]. apply (f_equal length) in E. rewrite app_length, repeat_length, map_length in E. cbn [length] in E. lia. }
    by rewrite hex_zeros.
Qed.

(** ** Texts *)
Lemma escape_shows b : shows_byte b (escape_byte b).
Proof.
  unfold shows_byte, escape_byte.
  destruct (Nat.eqb_spec b 9) as [->|]; [cbn; split; [done|lia]|]. destruct (Nat.eqb_spec b 13) as [->|]; [cbn; split; [done|lia]|].
  destruct (Nat.eqb_spec b 10) as [->|]; [cbn; split; [done|lia]|]. destruct (Nat.eqb_spec b 39) as [->|]; [cbn; split; [done|lia]|].
  destruct (Nat.eqb_spec b 34) as [->|]; [cbn; split; [done|lia]|]. destruct (Nat.eqb_spec b 92) as [->|]; [cbn; split; [done|lia]|].
  cbn [negb]. rewrite !andb_true_r. destruct ((32 <=? b) && (b <=? 126)); [done|]. split; [done|]. cbn. lia.
Qed.
Lemma geos_string_shows s : shows_string s (show_geos_string s).
Proof.
  exists (List.map escape_byte (up_to_zero s)). split; [unfold show_geos_string; by rewrite trimmed_spec|].
  induction (up_to_zero s) as [|b l IH]; constructor; [apply escape_shows|done].
Qed.
Lemma unknown_shows (names : list (list N)) b : names !! b = None -> b < 256 -> shows_code names b (str "Unknown(0x" ++ hex02 b ++ str ")").
Proof. intros Hn Hb. unfold shows_code. rewrite Hn. exists (hex02 b). split; [done|]. split; [done|]. by apply hex02_shows. Qed.
Lemma structure_shows b : b < 256 -> shows_code structure_names b (show_structure (structure_from_byte b)).
Proof. intros Hb. do 2 (destruct b as [|b]; [reflexivity|]). by apply unknown_shows. Qed.
Lemma type_shows b : b < 256 -> shows_code type_names b (show_geos_type (geos_type_from_byte b)).
Proof. intros Hb. do 15 (destruct b as [|b]; [reflexivity|]). by apply unknown_shows. Qed.

Lemma info_shows b : length b = 256 -> Forall is_byte b -> shows_info b (info_texts (info_from_bytes b)).
Proof.
  intros Hl Hb. assert (forall i, b !!! i < 256) as Hi.
  { intros i. rewrite list_lookup_total_alt. destruct (b !! i) eqn:E; [|cbn; lia]. rewrite Forall_lookup in Hb. exact (Hb _ _ E). }
  unfold info_texts, info_from_bytes. cbn [gi_type gi_structure gi_load gi_end gi_start gi_class gi_author gi_application gi_description].
  eexists _, _, _, _, _, _, _, _, _. split; [reflexivity|].
  split; [by apply type_shows|]. split; [by apply structure_shows|]. split; [by apply hex04_shows|]. split; [by apply hex04_shows|]. split; [by apply hex04_shows|].
  repeat (split; [apply geos_string_shows|]). apply geos_string_shows.
Qed.
Lemma info_shown b : length b = 256 -> Forall is_byte b ->
  exists texts, shows_info b texts
    /\ show_info (info_from_bytes b) = text_of (List.map (fun k => icon_row (slice 5 63 b) k ++ [32%N] ++ nth k texts []) (seq 0 11)).
Proof.
  intros Hl Hb. exists (info_texts (info_from_bytes b)). split; [by apply info_shows|]. rewrite show_info_text by by apply info_bytes. reflexivity.
Qed.

Lemma title_shows h : disk_line h (header_line h).
Proof.
  exists (match h_geos h with Some g => str " (" ++ show_geos_string (gh_id g) ++ str ")" | None => [] end).
  split; [unfold header_line, quoted, show_id; rewrite <- !app_assoc; reflexivity|].
  destruct (h_geos h) as [g|]; [|reflexivity]. eexists. split; [reflexivity|]. apply geos_string_shows.
Qed.

(** ** Sectors and entries *)
Lemma location_shows l : shows_location l (show_location l).
Proof. exists (dec (fst l)), (dec (snd l)). split; [reflexivity|]. split; apply dec_decimal. Qed.
Lemma locations_show ls : shows_locations ls (show_locations ls).
Proof.
  exists (List.map show_location ls). split.
  - induction ls as [|l [|l' ls] IH]; [done|done|]. cbn [List.map spaced show_locations] in *. by rewrite IH.
  - induction ls as [|l ls IH]; constructor; [apply location_shows|done].
Qed.
Lemma position_shows p : shows_position p (show_position p).
Proof.
  exists (dec (fst (p_loc p))), (dec (snd (p_loc p))), (hex02 (p_off p)). split; [reflexivity|]. split; [apply dec_decimal|]. split; [apply dec_decimal|].
  split; [done|]. apply hex02_shows.
Qed.
Lemma two_digits_shows n : two_digits n (zero_padded 2 (dec n)).
Proof. split; [|apply zero_padded_decimal]. unfold zero_padded. rewrite app_length, repeat_length. lia. Qed.

Definition extra_coded (x : extra) : Prop :=
  match x with
  | XGEOS _ s t _ _ _ _ _ => (exists b, b < 256 /\ s = structure_from_byte b) /\ exists b, b < 256 /\ t = geos_type_from_byte b
  | _ => True
  end.
Lemma extra_shows x : extra_coded x -> shows_extra x (show_extra x).
Proof.
  destruct x as [u|side len u|i s t y mo d h mi]; cbn [extra_coded shows_extra show_extra]; intros H; [done| |].
  - exists (show_location side), (dec len). split; [reflexivity|]. split; [apply location_shows|apply dec_decimal].
  - destruct H as [(b & Hb & ->) (b' & Hb' & ->)].
    eexists _, _, _, _, _, _, _. split; [reflexivity|].
    split; [exists b; split; [done|by apply structure_shows]|]. split; [exists b'; split; [done|by apply type_shows]|].
    split; [rewrite zero_padded_decimal; f_equal; by rewrite Nat2N.inj_add|].
    repeat (split; [apply two_digits_shows|]). apply two_digits_shows.
Qed.
Lemma entry_coded t d e : dev_shape t d -> holds_bytes d -> In e (fst (w_iter (open_world t d))) -> length (de_name e) <= 16 /\ extra_coded (de_extra e).
Proof.
  intros Hd Hb Hin. assert (w_dev (open_world t d) = d) as Hw by apply (open_cases t d Hd).
  destruct (iter_stored t (open_world t d) e) as (l & j & b & Hs); [by rewrite Hw|done|]. rewrite Hw in Hs.
  split; [apply (stored_fits t d e l j b Hd Hs)|].
  destruct Hs as (Hs & Hj & border & e0 & Hp & -> & _). pose proof (sector_bytes d l b Hb Hs) as Hby.
  unfold dirent_parse in Hp. destruct (negb _); [done|]. apply Ok_inj in Hp. subst e0. cbn [set_border de_extra].
  assert (forall i, (slice ENTRY_EXTRA_OFFSET EXTRA_SIZE (slice (32 * j) 32 b)) !!! i < 256) as Hi.
  { intros i. assert (Forall is_byte (slice ENTRY_EXTRA_OFFSET EXTRA_SIZE (slice (32 * j) 32 b))) as Hf by (unfold slice; by repeat apply Forall_take, Forall_drop).
    rewrite list_lookup_total_alt. destruct (_ !! i) eqn:E; [|cbn; lia]. rewrite Forall_lookup in Hf. exact (Hf _ _ E). }
  destruct (entry_scheme _ _); cbn [extra_from_bytes extra_coded]; try done.
  all: split; eexists; (split; [|reflexivity]); apply Hi.
Qed.
Lemma entry_verbose e : length (de_name e) <= 16 -> extra_coded (de_extra e) -> verbose_line e (show_entry true e).
Proof.
  intros Hn Hx. exists (show_entry false (set_border false e)), (show_extra (de_extra e)), (if de_border e then str " (GEOS border)" else []).
  split; [|split; [by apply entry_file_line|split; [by apply extra_shows|reflexivity]]].
  unfold show_entry. cbn [set_border de_size de_name de_attr de_border]. rewrite <- !app_assoc. reflexivity.
Qed.

(** ** The listing with one flag *)
Theorem verbose_layout t d h es n : dev_shape t d -> holds_bytes d ->
  w_header (open_world t d) = Some h -> w_directory (open_world t d) = Ok es -> w_blocks_free (open_world t d) = Ok n ->
  exists first lines number, print_dir t 1 d [] = (text_of (first :: lines ++ [number ++ str " blocks free."]), Ok tt)
    /\ disk_line h first /\ Forall2 verbose_line es lines /\ decimal number = Some (N.of_nat n).
Proof.
  intros Hd Hb Hh He Hn. exists (header_line h), (List.map (show_entry true) es), (dec n). split; [by eapply listing_ok; try lia|].
  split; [apply title_shows|]. split; [|apply dec_decimal]. apply Forall2_fmap_r.
  assert (Forall (fun e => length (de_name e) <= 16 /\ extra_coded (de_extra e)) es) as H.
  { unfold w_directory, all_or_error in He. pose proof (fun e => entry_coded t d e Hd Hb) as Hc. destruct (w_iter (open_world t d)) as [es' r].
    destruct r as [[]| | |]; try discriminate He. injection He as ->. apply Forall_forall. intros e Hin%elem_of_list_In. by apply Hc. }
  clear He. induction H as [|e es [H1 H2] H IH]; constructor; [by apply entry_verbose|done].
Qed.

(** ** The lines under a file *)
Definition prints (P : list (list N) -> Prop) (m : printing unit) : Prop :=
  forall out out', m out = (out', Ok tt) -> exists ls, out' = out ++ text_of ls /\ P ls.
Lemma text_of_app a b : text_of (a ++ b) = text_of a ++ text_of b.
Proof. unfold text_of. by rewrite map_app, concat_app. Qed.
Lemma prints_weaken (P Q : list (list N) -> Prop) m : prints P m -> (forall ls, P ls -> Q ls) -> prints Q m.
Proof. intros H HQ out out' E. destruct (H out out' E) as (ls & -> & Hp). exists ls. auto. Qed.
Lemma prints_ret (P : list (list N) -> Prop) : P [] -> prints P (ret tt).
Proof. intros H out out' E. injection E as <-. exists []. by rewrite app_nil_r. Qed.
Lemma prints_line (P : list (list N) -> Prop) s : P [s] -> prints P (println s).
Proof. intros H out out' E. injection E as <-. exists [s]. split; [|done]. unfold text_of. cbn. by rewrite app_nil_r. Qed.
Lemma prints_text (P : list (list N) -> Prop) s ls : s = text_of ls -> P ls -> prints P (print s).
Proof. intros -> H out out' E. injection E as <-. by exists ls. Qed.
Lemma prints_seq (P Q R : list (list N) -> Prop) a (b : printing unit) : prints P a -> prints Q b ->
  (forall x y, P x -> Q y -> R (x ++ y)) -> prints R (do_ a in b).
Proof.
  intros Ha Hb HR out out' E. unfold sbind in E. destruct (a out) as [o [[]| | |]] eqn:Ea; try discriminate E.
  destruct (Ha _ _ Ea) as (x & -> & Hx). destruct (Hb _ _ E) as (y & -> & Hy). exists (x ++ y). split; [|auto]. by rewrite text_of_app, app_assoc.
Qed.
Lemma prints_lift {A} (P : list (list N) -> Prop) (r : res A) (k : A -> printing unit) :
  (forall a, r = Ok a -> prints P (k a)) -> prints P (do! a := lift r in k a).
Proof. intros H out out' E. unfold sbind, lift in E. destruct r as [a| | |]; try discriminate E. exact (H a eq_refl out out' E). Qed.

Lemma prints_position e : prints (position_lines e) (show_entry_position e).
Proof.
  unfold show_entry_position, position_lines. destruct (de_pos e) as [p|]; [|by apply prints_ret].
  apply prints_line. exists (show_position p). split; [reflexivity|apply position_shows].
Qed.
Lemma prints_chain d e : prints (fun ls => exists line, ls = [line] /\ chain_line d e line)
  (do! ls := lift (chain_locations d (de_first e)) in println (str "Occupied sectors: " ++ show_locations ls)).
Proof.
  apply prints_lift. intros locs E. apply prints_line. eexists. split; [reflexivity|]. exists locs. split; [done|].
  exists (show_locations locs). split; [reflexivity|apply locations_show].
Qed.
Lemma last_present_spec records : forall i,
  match last_present i records with
  | Some n => i < n /\ (exists l, records !! (n - S i) = Some (Some l)) /\ forall j l, n - i <= j -> records !! j <> Some (Some l)
  | None => forall j l, records !! j <> Some (Some l)
  end.
Proof.
  induction records as [|r rs IH]; intros i; cbn [last_present]; [intros j l; by rewrite lookup_nil|].
  specialize (IH (S i)). destruct (last_present (S i) rs) as [n|].
  - destruct IH as (H1 & (l & H2) & H3). split; [lia|]. split.
    + exists l. replace (n - S i) with (S (n - S (S i))) by lia. exact H2.
    + intros [|j] l' Hj; [lia|]. apply (H3 j l'). lia.
  - destruct r as [l|].
    + split; [lia|]. split; [exists l; by replace (S i - S i) with 0 by lia|]. intros [|j] l' Hj; [lia|]. apply IH.
    + intros [|j] l'; [done|apply IH].
Qed.
Lemma available_shown records : shown_records records (available_records records).
Proof.
  unfold available_records, shown_records. pose proof (last_present_spec records 0) as H. destruct (last_present 0 records) as [n|].
  - destruct H as (H1 & (l & H2) & H3). left. exists l. split; [done|]. split; [done|]. intros i l' Hi. apply H3. lia.
  - right. split; [done|]. exact H.
Qed.
Lemma shown_bound records n : shown_records records n -> n <= length records.
Proof. intros [(l & H1 & H2 & _)|(-> & _)]; [|lia]. apply lookup_lt_Some in H2. lia. Qed.
Lemma prints_records d n total : forall records i, i <= n -> n <= i + length records ->
  prints (fun ls => exists lines rest, ls = lines ++ rest /\ length lines = n - i
    /\ (forall j line, lines !! j = Some line -> exists number locs, decimal number = Some (N.of_nat (i + j))
          /\ match records !! j with Some (Some l) => chain_locations d l = Ok locs | _ => locs = [] end
          /\ sector_line (chars "Record " ++ number ++ chars " sectors: ") locs line)
    /\ if n <? i + length records
       then exists number, rest = [number ++ chars " unavailable records follow..."] /\ decimal number = Some (N.of_nat (total - n))
       else rest = []) (show_records d i n total records).
Proof.
  induction records as [|r rs IH]; intros i Hi Hn; cbn [show_records].
  - apply prints_ret. exists [], []. split; [done|]. cbn [length] in *. split; [cbn; lia|]. split; [intros j line; by rewrite lookup_nil|].
    destruct (Nat.ltb_spec n (i + 0)); [lia|done].
  - destruct (Nat.leb_spec n i) as [Hle|Hlt].
    + apply prints_line. exists [], [dec (total - n) ++ str " unavailable records follow..."]. split; [done|]. split; [cbn; lia|].
      split; [intros j line; by rewrite lookup_nil|]. cbn [length]. destruct (Nat.ltb_spec n (i + S (length rs))); [|lia].
      exists (dec (total - n)). split; [reflexivity|apply dec_decimal].
    + apply prints_lift. intros locs E. eapply prints_seq; [apply (prints_line (fun x => x = [str "Record " ++ dec i ++ str " sectors: " ++ show_locations locs])); reflexivity| |].
      { apply IH; cbn [length] in Hn; lia. }
      intros x y -> (lines & rest & -> & Hl & Hs & Hr). exists ((str "Record " ++ dec i ++ str " sectors: " ++ show_locations locs) :: lines), rest.
      split; [done|]. split; [cbn [length]; lia|]. split.
      * intros [|j] line Hj.
        -- injection Hj as <-. exists (dec i), locs. rewrite Nat.add_0_r. split; [apply dec_decimal|]. split.
           ++ change ((r :: rs) !! 0) with (Some r). destruct r; [done|]. by apply Ok_inj in E.
           ++ exists (show_locations locs). split; [|apply locations_show]. by rewrite <- !app_assoc.
        -- destruct (Hs j line Hj) as (number & locs' & H1 & H2 & H3). exists number, locs'. replace (i + S j) with (S i + j) by lia. done.
      * cbn [length]. replace (i + S (length rs)) with (S i + length rs) by lia. done.
Qed.
Lemma prints_vlir v d e records : prints (vlir_lines v d e records)
  (let available := available_records records in
   if v then do_ (println (str "VLIR record sector: " ++ show_location (de_first e))) in show_records d 0 available (length records) records
   else println (str "VLIR records: " ++ dec available)).
Proof.
  cbv zeta. pose proof (available_shown records) as Hs. pose proof (shown_bound _ _ Hs) as Hn. set (n := available_records records) in *. destruct v.
  - eapply prints_seq; [apply (prints_line (fun x => x = [str "VLIR record sector: " ++ show_location (de_first e)])); reflexivity|apply (prints_records d n (length records) records 0); lia|].
    intros x y -> (lines & rest & -> & Hl & Hr & Ht). exists n. split; [done|].
    exists (show_location (de_first e)), lines, rest. split; [reflexivity|]. split; [apply location_shows|]. split; [lia|]. split; [exact Hr|]. exact Ht.
  - apply prints_line. exists n. split; [done|]. exists (dec n). split; [reflexivity|apply dec_decimal].
Qed.
Lemma prints_info t d f : holds_bytes d -> dev_shape t d -> prints (info_part d (gf_entry f))
  (do! info := lift (geos_file_info d f) in
   match info with Some i => do_ (println (str "GEOS info block:")) in print (show_info i) | None => ret tt end).
Proof.
  intros Hb Hd. apply prints_lift. intros info E. unfold geos_file_info in E. unfold info_part.
  destruct (entry_info_location (gf_entry f)) as [[l|]| | |] eqn:El; try discriminate E; cbn [rbind] in E.
  - destruct (sector d l) as [b| | |] eqn:Es; try discriminate E. cbn [rbind] in E. apply Ok_inj in E as <-.
    destruct (info_shown b) as (texts & Ht & Hshow); [by eapply sector_Ok_length|by eapply sector_bytes|].
    eapply prints_seq; [apply (prints_line (fun x => x = [str "GEOS info block:"])); reflexivity|eapply (prints_text (fun y => y = _)); [exact Hshow|reflexivity]|].
    intros x y -> ->. exists b, texts. done.
  - apply Ok_inj in E as <-. by apply prints_ret.
Qed.
Lemma prints_details t v d f : holds_bytes d -> dev_shape t d -> prints (details v d f) (file_details d f v).
Proof.
  intros Hb Hd. assert (forall f, prints (fun ls => exists pos body info, ls = pos ++ body ++ info
        /\ (if v then position_lines (gf_entry f) pos else pos = [])
        /\ match gf_vlir f with
           | Some records => vlir_lines v d (gf_entry f) records body
           | None => if v then exists line, body = [line] /\ chain_line d (gf_entry f) line else body = []
           end
        /\ info_part d (gf_entry f) info) (geos_details d f v)) as Hg.
  { clear f. intros f. unfold geos_details.
    apply (prints_seq (fun pos => if v then position_lines (gf_entry f) pos else pos = []) (fun ls => exists body info, ls = body ++ info
        /\ match gf_vlir f with
           | Some records => vlir_lines v d (gf_entry f) records body
           | None => if v then exists line, body = [line] /\ chain_line d (gf_entry f) line else body = []
           end
        /\ info_part d (gf_entry f) info)).
    - destruct v; [apply prints_position|by apply prints_ret].
    - eapply prints_seq; [|by eapply prints_info|].
      + instantiate (1 := fun body => match gf_vlir f with
           | Some records => vlir_lines v d (gf_entry f) records body
           | None => if v then exists line, body = [line] /\ chain_line d (gf_entry f) line else body = []
           end). destruct (gf_vlir f) as [records|]; [apply prints_vlir|]. destruct v; [apply prints_chain|by apply prints_ret].
      + intros x y Hx Hy. by exists x, y.
    - intros pos y Hp (body & info & -> & H1 & H2). by exists pos, body, info. }
  destruct f as [s e|f|f|f]; cbn [file_details details]; [| |apply Hg|apply Hg].
  - destruct v; [|by apply prints_ret]. eapply prints_seq; [apply prints_position|apply prints_chain|]. intros x y Hx (line & -> & Hl). by exists x, line.
  - destruct v; [|by apply prints_ret].
    eapply prints_seq; [apply prints_position| |].
    { eapply prints_seq; [apply (prints_line (fun x => exists line, x = [line] /\ sector_line (chars "Data sectors: ") (rf_data_sectors f) line))
        |apply (prints_line (fun x => exists line, x = [line] /\ sector_line (chars "Side sectors: ") (rf_side_sectors f) line))|].
      - eexists. split; [reflexivity|]. eexists. split; [reflexivity|apply locations_show].
      - eexists. split; [reflexivity|]. eexists. split; [reflexivity|apply locations_show].
      - intros x y (l1 & -> & H1) (l2 & -> & H2). instantiate (1 := fun ls => exists data side, ls = [data; side]
          /\ sector_line (chars "Data sectors: ") (rf_data_sectors f) data /\ sector_line (chars "Side sectors: ") (rf_side_sectors f) side). by exists l1, l2. }
    intros x y Hx (data & side & -> & H1 & H2). by exists x, data, side.
Qed.

(** ** The listing with two and more flags *)
Lemma directory_coded t d es : dev_shape t d -> holds_bytes d -> w_directory (open_world t d) = Ok es ->
  Forall (fun e => length (de_name e) <= 16 /\ extra_coded (de_extra e)) es.
Proof.
  intros Hd Hb He. unfold w_directory, all_or_error in He. pose proof (fun e => entry_coded t d e Hd Hb) as Hc. destruct (w_iter (open_world t d)) as [es' r].
  destruct r as [[]| | |]; try discriminate He. injection He as ->. apply Forall_forall. intros e Hin%elem_of_list_In. by apply Hc.
Qed.
Lemma prints_each (P : dirent -> list (list N) -> Prop) (body : dirent -> printing unit) es : Forall (fun e => prints (P e) (body e)) es ->
  prints (fun ls => exists blocks, ls = concat blocks /\ Forall2 P es blocks) (for_each body es).
Proof.
  induction 1 as [|e es He H IH]; cbn [for_each]; [apply prints_ret; by exists []|].
  eapply prints_seq; [exact He|exact IH|]. intros x y Hx (blocks & -> & Hf). exists (x :: blocks). split; [done|by constructor].
Qed.
Definition entry_body (t : disk_type) (v : nat) (d : dev) (e : dirent) : printing unit :=
  do_ (println (show_entry true e)) in
  do! f := lift (open_file (tool_open t false d) (de_name e)) in
  do_ (file_details (with_mode false d) f (2 <? v)) in
  println [].
Lemma print_dir_more t v d h es n : 2 <= v -> dev_shape t d ->
  w_header (open_world t d) = Some h -> w_directory (open_world t d) = Ok es -> w_blocks_free (open_world t d) = Ok n ->
  forall out, print_dir t v d out = (do_ (println (header_line h)) in do_ (for_each (entry_body t v d) es) in println (dec n ++ str " blocks free.")) out.
Proof.
  intros Hv Hd Hh He Hn out. unfold print_dir. set (w := open_world t d) in *. assert (w_dev w = d) as Hw by apply (open_cases t d Hd).
  assert (for_each (entry_body t v d) es = for_each (fun e =>
         if 0 <? v then
           do_ (println (show_entry true e)) in
           if 1 <? v then
             do! f := lift (open_file (tool_open t false d) (de_name e)) in
             do_ (file_details (w_dev (tool_open t false d)) f (0 <? v - 2)) in
             println []
           else ret tt
         else println (show_entry false e)) es) as ->.
  { f_equal. unfold entry_body. assert (w_dev (tool_open t false d) = with_mode false d) as ->. { rewrite tool_open_false. done. }
    destruct v as [|[|v]]; [lia|lia|]. replace (S (S v) - 2) with v by lia. by destruct v. }
  assert (w_iter (tool_open t false d) = (es, Ok tt)) as ->.
  { rewrite tool_open_false, mode_iter by done. fold w. unfold w_directory, all_or_error in He. destruct (w_iter w) as [es' r].
    destruct r as [[]| | |]; try discriminate He. by injection He as ->. }
  assert (w_blocks_free (tool_open t false d) = Ok n) as ->. { rewrite tool_open_false. exact Hn. }
  assert (show_disk (tool_open t false d) = header_line h) as ->. { rewrite tool_open_false. unfold show_disk, w_get_header. change (w_header (set_dev (with_mode false d) (open_world t d))) with (w_header w). by rewrite Hh. }
  reflexivity.
Qed.
Theorem details_layout t v d h es n out : 2 <= v -> dev_shape t d -> holds_bytes d ->
  w_header (open_world t d) = Some h -> w_directory (open_world t d) = Ok es -> w_blocks_free (open_world t d) = Ok n ->
  print_dir t v d [] = (out, Ok tt) ->
  exists first blocks number, out = text_of (first :: concat blocks ++ [number ++ str " blocks free."])
    /\ disk_line h first /\ Forall2 (file_block (2 <? v) t d) es blocks /\ decimal number = Some (N.of_nat n).
Proof.
  intros Hv Hd Hb Hh He Hn E. rewrite (print_dir_more t v d h es n) in E by done. pose proof (directory_coded t d es Hd Hb He) as Hes.
  assert (dev_shape t (with_mode false d)) as Hd' by (destruct Hd; by constructor). assert (holds_bytes (with_mode false d)) as Hb' by exact Hb.
  assert (prints (fun ls => exists blocks, ls = header_line h :: concat blocks ++ [dec n ++ str " blocks free."] /\ Forall2 (file_block (2 <? v) t d) es blocks)
    (do_ (println (header_line h)) in do_ (for_each (entry_body t v d) es) in println (dec n ++ str " blocks free."))) as H.
  { eapply prints_seq; [apply (prints_line (fun x => x = [header_line h])); reflexivity| |].
    { eapply prints_seq; [apply (prints_each (file_block (2 <? v) t d))|apply (prints_line (fun x => x = [dec n ++ str " blocks free."])); reflexivity|].
      - eapply Forall_impl; [exact Hes|]. intros e [H1 H2]. unfold entry_body.
        eapply prints_seq; [apply (prints_line (fun x => x = [show_entry true e])); reflexivity| |].
        { apply prints_lift. intros f Ef. eapply prints_seq; [by eapply prints_details|apply (prints_line (fun x => x = [[]])); reflexivity|].
          intros x y Hx ->. instantiate (1 := fun y => exists f more, open_file (tool_open t false d) (de_name e) = Ok f /\ y = more ++ [[]] /\ details (2 <? v) (with_mode false d) f more).
          by exists f, x. }
        intros x y -> (f & more & Ef & -> & Hm). exists f, (show_entry true e), more. split; [done|]. split; [done|]. split; [by apply entry_verbose|done].
      - intros x y (blocks & -> & Hf) ->. instantiate (1 := fun y => exists blocks, y = concat blocks ++ [dec n ++ str " blocks free."] /\ Forall2 (file_block (2 <? v) t d) es blocks).
        by exists blocks. }
    intros x y -> (blocks & -> & Hf). by exists blocks. }
  destruct (H _ _ E) as (ls & -> & blocks & -> & Hf). exists (header_line h), blocks, (dec n). split; [done|]. split; [apply title_shows|]. split; [done|apply dec_decimal].
Qed.

(** ** It succeeds when everything can be read *)
Definition succeeds (m : printing unit) : Prop := forall out, exists out', m out = (out', Ok tt).
Lemma succeeds_print s : succeeds (print s). Proof. intros out. eexists. reflexivity. Qed.
Lemma succeeds_println s : succeeds (println s). Proof. apply succeeds_print. Qed.
Lemma succeeds_ret : succeeds (ret tt). Proof. intros out. by exists out. Qed.
Lemma succeeds_seq a b : succeeds a -> succeeds b -> succeeds (do_ a in b).
Proof. intros Ha Hb out. destruct (Ha out) as (o & E). unfold sbind. rewrite E. apply Hb. Qed.
Lemma succeeds_lift {A} (r : res A) k : (exists a, r = Ok a) -> (forall a, r = Ok a -> succeeds (k a)) -> succeeds (do! a := lift r in k a).
Proof. intros (a & E) Hk out. unfold sbind, lift. rewrite E. by apply Hk. Qed.
Lemma succeeds_position e : succeeds (show_entry_position e).
Proof. unfold show_entry_position. destruct (de_pos e); [apply succeeds_println|apply succeeds_ret]. Qed.
Lemma succeeds_records d n total : forall records i, (forall j l, records !! j = Some (Some l) -> chain_readable d l) -> succeeds (show_records d i n total records).
Proof.
  induction records as [|r rs IH]; intros i H; cbn [show_records]; [apply succeeds_ret|]. destruct (n <=? i); [apply succeeds_println|].
  apply succeeds_lift; [destruct r as [l|]; [exact (H 0 l eq_refl)|by eexists]|]. intros locs _. apply succeeds_seq; [apply succeeds_println|].
  apply IH. intros j l Hj. by apply (H (S j)).
Qed.
Lemma succeeds_details v d f : details_readable v d f -> succeeds (file_details d f v).
Proof.
  intros H. assert (forall f, details_readable v d (FGEOSVLIR f) -> succeeds (geos_details d f v)) as Hg.
  { clear f H. intros f [H1 H2]. unfold geos_details. apply succeeds_seq; [destruct v; [apply succeeds_position|apply succeeds_ret]|]. apply succeeds_seq.
    - destruct (gf_vlir f) as [records|].
      + destruct v; [|apply succeeds_println]. apply succeeds_seq; [apply succeeds_println|]. apply succeeds_records. by apply H1.
      + destruct v; [|apply succeeds_ret]. apply succeeds_lift; [by apply H1|]. intros locs _. apply succeeds_println.
    - apply succeeds_lift.
      + unfold geos_file_info. destruct (entry_info_location (gf_entry f)) as [[l|]| | |]; try contradiction; cbn [rbind]; [|by eexists].
        destruct H2 as (b & ->). by eexists.
      + intros [i|] _; [|apply succeeds_ret]. apply succeeds_seq; [apply succeeds_println|apply succeeds_print]. }
  destruct f as [s e|f|f|f]; cbn [file_details]; [| |by apply Hg|by apply Hg].
  - destruct v; [|apply succeeds_ret]. apply succeeds_seq; [apply succeeds_position|]. apply succeeds_lift; [by apply H|]. intros locs _. apply succeeds_println.
  - destruct v; [|apply succeeds_ret]. apply succeeds_seq; [apply succeeds_position|]. apply succeeds_seq; apply succeeds_println.
Qed.
Theorem details_succeed t v d h es n : 2 <= v -> dev_shape t d ->
  w_header (open_world t d) = Some h -> w_directory (open_world t d) = Ok es -> w_blocks_free (open_world t d) = Ok n ->
  (forall e, In e es -> exists f, open_file (tool_open t false d) (de_name e) = Ok f /\ details_readable (2 <? v) (with_mode false d) f) ->
  exists out, print_dir t v d [] = (out, Ok tt).
Proof.
  intros Hv Hd Hh He Hn Hf. rewrite (print_dir_more t v d h es n) by done. apply succeeds_seq; [apply succeeds_println|]. apply succeeds_seq; [|apply succeeds_println].
  clear He. induction es as [|e es IH]; cbn [for_each]; [apply succeeds_ret|]. apply succeeds_seq; [|apply IH; intros e' He'; apply Hf; by right].
  destruct (Hf e) as (f & Ef & Hr); [by left|]. unfold entry_body. apply succeeds_seq; [apply succeeds_println|]. apply succeeds_lift; [by exists f|].
  intros f' Ef'. rewrite Ef in Ef'. apply Ok_inj in Ef' as <-. apply succeeds_seq; [by apply succeeds_details|apply succeeds_println].
Qed.

(** ** The report of "cdisk validate" *)
Lemma name_shows n : shows_name n (debug_name n).
Proof. unfold shows_name. rewrite debug_name_eq. reflexivity. Qed.
Lemma defect_shows v : shows_defect show_error v (show_validation v).
Proof.
  destruct v as [l|l|l n|l n1 n2|e n]; cbn [shows_defect show_validation].
  - eexists. split; [reflexivity|apply location_shows].
  - eexists. split; [reflexivity|apply location_shows].
  - eexists _, _. split; [reflexivity|]. split; [apply location_shows|apply name_shows].
  - eexists _, _, _. split; [reflexivity|]. split; [apply location_shows|]. split; apply name_shows.
  - eexists. split; [reflexivity|apply name_shows].
Qed.
Lemma each_printed {X} (text : X -> list N) xs : forall out, for_each (fun x => println (text x)) xs out = (out ++ text_of (List.map text xs), Ok tt).
Proof.
  intros out. rewrite (for_each_print _ (fun x => text x ++ [10%N])); [|done]. unfold text_of. by rewrite map_map.
Qed.
Theorem report_text t d vs : cmd_validate t d = Ok vs ->
  (vs = [] -> print_validate t d [] = (text_of [str "Disk validates successfully."], Ok true))
  /\ (vs <> [] -> exists lines, print_validate t d [] = (text_of lines, Ok false) /\ Forall2 (shows_defect show_error) vs lines).
Proof.
  intros E. split; intros Hv; unfold print_validate, sbind, lift; rewrite E.
  - subst vs. reflexivity.
  - exists (List.map show_validation vs). rewrite each_printed. split; [by destruct vs|]. apply Forall2_fmap_r. clear. induction vs; constructor; [apply defect_shows|done].
Qed.

(** ** Hex dumps *)
Lemma cell_shows b : b < 256 -> shows_cell b (hex02 b ++ [32%N]).
Proof. intros Hb. exists (hex02 b). split; [done|]. split; [done|]. by apply hex02_shows. Qed.
Lemma cells_show bs : Forall is_byte bs -> Forall2 shows_cell bs (List.map (fun b => hex02 b ++ [32%N]) bs).
Proof. induction 1 as [|b bs Hb H IH]; constructor; [by apply cell_shows|done]. Qed.
Lemma hex4_shows n : 4 <= length (List.map N.of_nat (hex4 n)) /\ hexadecimal (List.map N.of_nat (hex4 n)) = Some (N.of_nat n).
Proof.
  unfold hex4. split; [rewrite map_length, app_length, repeat_length; lia|].
  rewrite map_app, map_repeat_N. pose proof (hex_digits_value (S n) n (pow_fuel n)) as Hv.
  assert (hexadecimal (repeat 48%N (4 - length (hex_digits (S n) n)) ++ List.map N.of_nat (hex_digits (S n) n))
    = hex_from 0 (repeat 48%N (4 - length (hex_digits (S n) n)) ++ List.map N.of_nat (hex_digits (S n) n))) as ->.
  { unfold hexadecimal. destruct (_ ++ _) eqn:E; [|done]. apply (f_equal length) in E. rewrite app_length, repeat_length, map_length in E. cbn [length] in E. lia. }
  by rewrite hex_zeros.
Qed.
Lemma map_gap k : List.map N.of_nat (List.concat (repeat [32; 32; 32] k)) = repeat 32%N (3 * k).
Proof.
  induction k as [|k IH]; [done|]. replace (3 * S k) with (S (S (S (3 * k)))) by lia. cbn [repeat List.concat app List.map]. by rewrite IH.
Qed.
Lemma map_cells row : List.map N.of_nat (List.concat (List.map (fun b => hex2 b ++ [32]) row)) = List.concat (List.map (fun b => hex02 b ++ [32%N]) row).
Proof. induction row as [|b row IH]; [done|]. cbn [List.map List.concat]. rewrite map_app, IH. done. Qed.
Lemma row_shows prefix o row : Forall is_byte row -> dump_row prefix o row (List.map N.of_nat (hex_row prefix o row)).
Proof.
  intros Hb. exists (List.map N.of_nat (hex4 o)), (List.map (fun b => hex02 b ++ [32%N]) row).
  destruct (hex4_shows o) as [H1 H2]. split; [|split; [done|split; [done|by apply cells_show]]].
  unfold hex_row. rewrite !map_app. rewrite (map_cells row), (map_gap (16 - length row)), map_map.
  do 5 f_equal. apply map_ext. intros b. unfold ascii_or_dot. by destruct ((32 <=? b) && (b <=? 126)).
Qed.
Lemma slice_drop {A} (b : list A) i n k : slice i n (drop k b) = slice (k + i) n b.
Proof. unfold slice. by rewrite drop_drop. Qed.
Lemma loop_shows prefix fuel : forall o b, b <> [] -> Forall is_byte b -> length b <= fuel ->
  exists ls, List.map N.of_nat (hexdump_loop fuel prefix o b) ++ [10%N] = text_of ls /\ length ls = (length b + 15) / 16
    /\ forall i line, ls !! i = Some line -> dump_row prefix (o + 16 * i) (slice (16 * i) 16 b) line.
Proof.
  induction fuel as [|fuel IH]; intros o b Hn Hb Hf; [destruct b; cbn in Hf; [done|lia]|].
  cbn [hexdump_loop]. destruct b as [|x b0]; [done|]. set (b := x :: b0) in *.
  assert (1 <= length b) as H1 by (unfold b; cbn [length]; lia).
  pose proof (row_shows prefix o (take 16 b) ltac:(by apply Forall_take)) as Hrow. rewrite !map_app, <- !app_assoc.
  destruct (Nat.ltb_spec 16 (length b)) as [Hlt|Hge].
  - destruct (IH (o + 16) (drop 16 b)) as (ls & E & Hl & Hls).
    + intros E%(f_equal length). rewrite drop_length in E. cbn [length] in E. lia.
    + by apply Forall_drop.
    + rewrite drop_length. lia.
    + exists (List.map N.of_nat (hex_row prefix o (take 16 b)) :: ls). split; [|split].
      * rewrite E. unfold text_of. cbn [List.map List.concat]. by rewrite <- app_assoc.
      * cbn [length]. rewrite Hl, drop_length. replace (length b + 15) with (length b - 16 + 15 + 1 * 16) by lia. rewrite Nat.div_add by lia. lia.
      * intros [|i] line Hi.
        -- injection Hi as <-. rewrite Nat.add_0_r. exact Hrow.
        -- specialize (Hls i line Hi). rewrite slice_drop in Hls. replace (o + 16 * S i) with (o + 16 + 16 * i) by lia. replace (16 * S i) with (16 + 16 * i) by lia. exact Hls.
  - rewrite drop_ge by lia. exists [List.map N.of_nat (hex_row prefix o (take 16 b))]. split; [|split].
    + assert (hexdump_loop fuel prefix (o + 16) [] = []) as -> by (by destruct fuel). unfold text_of. cbn [List.map List.concat app]. by rewrite app_nil_r.
    + cbn [length]. symmetry. apply Nat.le_antisymm; [apply Nat.lt_succ_r, Nat.div_lt_upper_bound; lia|apply Nat.div_le_lower_bound; lia].
    + intros [|i] line Hi; [|discriminate Hi]. injection Hi as <-. rewrite Nat.add_0_r. exact Hrow.
Qed.
Theorem hexdump_shows prefix b : Forall is_byte b ->
  exists ls, List.map N.of_nat (hexdump prefix b) ++ [10%N] = text_of ls /\ dump_rows prefix b ls.
Proof.
  intros Hb. unfold hexdump. destruct b as [|x b0].
  - exists [List.map N.of_nat (prefix ++ hex4 0 ++ [58; 32])]. split; [unfold text_of; cbn [List.map List.concat]; by rewrite app_nil_r|].
    unfold dump_rows. rewrite map_app. reflexivity.
  - destruct (loop_shows prefix (length (x :: b0)) 0 (x :: b0)) as (ls & E & Hl & Hls); [done|done|lia|]. exists ls. split; [exact E|]. split; [exact Hl|exact Hls].
Qed.

(** ** The dump of an image *)
Lemma text_blocks {X} (P : X -> list (list N) -> Prop) (text : X -> list N) xs : (forall x, In x xs -> exists ls, text x = text_of ls /\ P x ls) ->
  exists blocks, List.concat (List.map text xs) = text_of (concat blocks) /\ Forall2 P xs blocks.
Proof.
  induction xs as [|x xs IH]; intros H; [by exists []|]. destruct (H x) as (ls & E & Hp); [by left|].
  destruct IH as (blocks & E' & Hf); [intros y Hy; apply H; by right|]. exists (ls :: blocks). split; [|by constructor].
  cbn [List.map List.concat concat]. by rewrite E, E', text_of_app.
Qed.
Lemma text_lines {X} (P : X -> list N -> Prop) (text : X -> list N) xs : (forall x, In x xs -> exists l, text x = l ++ [10%N] /\ P x l) ->
  exists ls, List.concat (List.map text xs) = text_of ls /\ Forall2 P xs ls.
Proof.
  induction xs as [|x xs IH]; intros H; [by exists []|]. destruct (H x) as (l & E & Hp); [by left|].
  destruct IH as (ls & E' & Hf); [intros y Hy; apply H; by right|]. exists (l :: ls). split; [|by constructor].
  cbn [List.map List.concat]. rewrite E, E'. reflexivity.
Qed.
Lemma sector_shows t d l : dev_shape t d -> holds_bytes d -> In l (all_sectors t (g_tracks (d_geom d))) ->
  exists ls, sector_text l (content d l) = text_of ls /\ sector_dump d l ls.
Proof.
  intros Hd Hb Hl. assert (exists b, sector d l = Ok b) as (b & Es).
  { apply (sector_Ok_iff t); [done|]. apply (valid_loc_on_disk t); [apply Hd|]. unfold all_sectors in Hl. apply in_concat in Hl as (x & Hx & Hl). apply in_map_iff in Hx as (tr & <- & Htr%in_seq).
    apply in_map_iff in Hl as (s & <- & Hs%in_seq). split; cbn [fst snd]; lia. }
  destruct (hexdump_shows [] b) as (rows & E & Hr); [by eapply sector_bytes|].
  eexists (_ :: _ :: rows). split; [|exists (zero_padded 2 (dec (fst l))), (zero_padded 2 (dec (snd l))), rows, b; split; [reflexivity|]; split; [apply two_digits_shows|]; split; [apply two_digits_shows|done]].
  unfold sector_text, content. rewrite Es, E. change (text_of (?a :: ?c :: rows)) with ((a ++ [10%N]) ++ (c ++ [10%N]) ++ text_of rows).
  cbn [app]. rewrite <- !app_assoc. reflexivity.
Qed.
Lemma offset_before t d k : dev_shape t d -> k < g_tracks (d_geom d) -> sector_offset (g_layouts (d_geom d) !!! S k) = length (all_sectors t k).
Proof.
  intros Hd. pose proof (allowed_geom_ok _ _ (ds_geom _ _ Hd)) as Hok. induction k as [|k IH]; intros Hk; [apply (go_zero _ Hok)|].
  rewrite (go_next _ Hok) by lia. rewrite IH by lia. rewrite (allowed_sectors t) by (apply Hd || lia).
  unfold all_sectors. rewrite (seq_S k 1), map_app, concat_app, app_length. cbn [List.map List.concat]. rewrite app_nil_r, map_length, seq_length. done.
Qed.
Lemma slice_bytes (b : list nat) o n : o + n <= length b -> List.map (fun i => b !!! i) (seq o n) = slice o n b.
Proof.
  intros H. apply list_eq. intros i. unfold slice. destruct (decide (i < n)) as [Hi|Hi].
  - rewrite lookup_take, lookup_drop by done. rewrite (list_lookup_fmap (fun i => b !!! i)). rewrite lookup_seq_lt by done. cbn.
    symmetry. apply list_lookup_lookup_total_lt. lia.
  - rewrite !lookup_ge_None_2; [done|rewrite take_length; lia|]. rewrite map_length, seq_length. lia.
Qed.
Lemma error_row_shows t d k : dev_shape t d -> Forall is_byte (d_etable d) -> g_errors (d_geom d) = true -> In k (seq 1 (g_tracks (d_geom d))) ->
  exists l, error_row d k = l ++ [10%N] /\ error_row_line t d k l.
Proof.
  intros Hd Hb He Hk%in_seq. pose proof (allowed_geom_ok _ _ (ds_geom _ _ Hd)) as Hok. destruct k as [|k]; [lia|].
  assert (sector_offset (g_layouts (d_geom d) !!! S k) + sectors (g_layouts (d_geom d) !!! S k) <= length (d_etable d)) as Hle.
  { rewrite (ds_etable _ _ Hd), He. unfold sector_count. destruct (sector_offset_mono (d_geom d) Hok (S k) (g_tracks (d_geom d))) as [E|?]; [lia..|rewrite <- E; lia|lia]. }
  pose proof (slice_bytes _ _ _ Hle) as Hs. rewrite (offset_before t) in Hs by (done || lia). rewrite (allowed_sectors t) in Hs by (apply Hd || lia).
  eexists. split; cycle 1.
  - exists (zero_padded 2 (dec (S k))), (List.map (fun b => hex02 b ++ [32%N]) (error_bytes t d (S k))). split; [reflexivity|]. split; [apply two_digits_shows|].
    apply cells_show. unfold error_bytes, slice. by apply Forall_take, Forall_drop.
  - unfold error_row, error_bytes. rewrite (offset_before t) by (done || lia). rewrite (allowed_sectors t) by (apply Hd || lia).
    replace (S k - 1) with k by lia. rewrite <- Hs, map_map. rewrite <- !app_assoc. reflexivity.
Qed.
Theorem dump_shows t d : dev_shape t d -> holds_bytes d -> Forall is_byte (d_etable d) ->
  exists blocks errors, cmd_dump t None d [] = (text_of (concat blocks ++ errors), Ok tt)
    /\ Forall2 (sector_dump d) (all_sectors t (g_tracks (d_geom d))) blocks /\ error_dump t d errors.
Proof.
  intros Hd Hb He. unfold cmd_dump. rewrite dump_dev_of by done. rewrite (dump_text t) by by apply mode_shape.
  destruct (text_blocks (sector_dump d) (fun l => sector_text l (content d l)) (all_sectors t (g_tracks (d_geom d)))) as (blocks & E & Hf); [intros l Hl; by apply (sector_shows t)|].
  change (g_tracks (d_geom (with_mode true d))) with (g_tracks (d_geom d)).
  change (fun l => sector_text l (content (with_mode true d) l)) with (fun l => sector_text l (content d l)). rewrite E.
  change (error_text (with_mode true d)) with (error_text d).
  assert (exists errors, error_text d = text_of errors /\ error_dump t d errors) as (errors & Ee & Hee).
  { unfold error_text, error_dump. destruct (g_errors (d_geom d)) eqn:Eg; [|by exists []].
    destruct (text_lines (error_row_line t d) (error_row d) (seq 1 (g_tracks (d_geom d)))) as (rows & Er & Hr); [intros k Hk; by apply error_row_shows|].
    exists ([] :: str "Error table:" :: rows). split; [|by exists rows]. rewrite Er. change (text_of (?a :: ?c :: rows)) with ((a ++ [10%N]) ++ (c ++ [10%N]) ++ text_of rows). by rewrite <- !app_assoc. }
  exists blocks, errors. rewrite Ee, text_of_app. done.
Qed.
Lemma records_show rs : forall i, Forall (Forall is_byte) rs ->
  exists blocks, records_text i rs = text_of (concat blocks) /\ length blocks = length rs
    /\ forall j r ls, rs !! j = Some r -> blocks !! j = Some ls -> record_dump (i + j) r ls.
Proof.
  induction rs as [|r rs IH]; intros i Hb; [exists []; split; [done|]; split; [done|]; intros j r ls Hj; by rewrite lookup_nil in Hj|].
  apply Forall_cons in Hb as [Hr Hb]. destruct (IH (S i) Hb) as (blocks & E & Hl & Hd). destruct (hexdump_shows [] r Hr) as (rows & Er & Hrows).
  exists (((str "Record: " ++ dec i) :: rows) :: blocks). split; [|split].
  - cbn [records_text concat]. rewrite E, Er, text_of_app. change (text_of (?a :: rows)) with ((a ++ [10%N]) ++ text_of rows). by rewrite <- !app_assoc.
  - cbn [length]. by rewrite Hl.
  - intros [|j] r' ls Hj Hls.
    + injection Hj as <-. injection Hls as <-. exists (dec i), rows. rewrite Nat.add_0_r. split; [reflexivity|]. split; [apply dec_decimal|done].
    + replace (i + S j) with (S i + j) by lia. by apply (Hd j).
Qed.
Theorem file_dump_shows t d name f rs : dev_shape t d -> open_file (tool_open t true d) (from_str_lossy name) = Ok f ->
  all_records (with_mode true d) f rs -> Forall (Forall is_byte) rs ->
  exists blocks, cmd_dump t (Some name) d []
      = (text_of ((chars "Filename: """ ++ petscii_display (de_name (file_entry f)) ++ chars """") :: concat blocks), Ok tt)
    /\ length blocks = length rs /\ forall j r ls, rs !! j = Some r -> blocks !! j = Some ls -> record_dump j r ls.
Proof.
  intros Hd Hf Hr Hb. destruct (records_show rs 0 Hb) as (blocks & E & Hl & Hdump). exists blocks. split; [|by split].
  unfold cmd_dump. rewrite Hf, bind_lift, dump_dev_of by done. rewrite (file_dump_text _ _ rs) by done. rewrite E. reflexivity.
Qed.
