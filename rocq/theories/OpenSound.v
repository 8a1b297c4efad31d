(** An image in order, opened, is described by its table of files. *)
From Verif Require Import Base ListFacts Layout Block Bam Format Petscii GeosTypes DirEntry Header World Chain Directory File
  Spec SpecCodec GeomFacts FlatProofs DevFacts CodecProofs EntryProofs Rel GeosFile SpecChain ChainProofs SpecBam AllocProofs BamState Evolve Holds
  View Dirs Ops Count OpWrite OpFile FormatProofs SpecFiles RelProofs SpecValidate ValidateProofs SectorProofs Opening SpecKinds Session SpecDisk Refine Tables SpecialFiles.
Ltac Zify.zify_post_hook ::= Z.div_mod_to_equations.

(** ** Chains *)

Lemma list_choice {A} (P : nat -> A -> Prop) n :
  (forall i, i < n -> exists x, P i x) -> exists xs, length xs = n /\ forall i x, xs !! i = Some x -> P i x.
Proof.
  induction n as [|n IH]; intros H.
  - exists []. split; [done|]. intros i x. by rewrite lookup_nil.
  - destruct IH as (xs & Hl & Hx); [intros i Hi; apply H; lia|]. destruct (H n) as [x Px]; [lia|].
    exists (xs ++ [x]). split; [rewrite app_length; simpl; lia|]. intros i y Hy.
    apply lookup_app_Some in Hy as [Hy|[Hi Hy]]; [by apply Hx|].
    apply list_lookup_singleton_Some in Hy as [Hy <-]. by replace i with n by lia.
Qed.

Lemma sector_bytes d l b : holds_bytes d -> sector d l = Ok b -> Forall is_byte b.
Proof. intros Hb Hs. rewrite <- (block_at_ok _ _ _ Hs). by apply block_at_bytes. Qed.

Lemma drop_concat {A} n (cs : list (list A)) i :
  (forall j c, S j < length cs -> cs !! j = Some c -> length c = n) -> i < length cs ->
  drop (n * i) (concat cs) = concat (drop i cs).
Proof.
  revert cs. induction i as [|i IH]; intros cs Hc Hi; [by rewrite Nat.mul_0_r|].
  destruct cs as [|c cs]; [simpl in Hi; lia|]. cbn [concat drop length] in *.
  rewrite drop_app_ge, (Hc 0 c) by (try rewrite (Hc 0 c); simpl in *; try done; lia).
  replace (n * S i - n) with (n * i) by lia. apply IH; [|lia].
  intros j c' Hj Hc'. apply (Hc (S j)); [lia|done].
Qed.

Lemma sound_links t d start ls :
  dev_shape t d -> sound_chain d start ls ->
  exists e, e <> 0 /\ links d ls (0, e) /\ forall l, last ls = Some l -> ends d l e.
Proof.
  intros Hd (Hnd & Hh & Hp & l & e & Hl & He). exists e. split; [by destruct He as (?&?&?&?&?)|]. split.
  - intros i x Hx. destruct (ls !! S i) as [y|] eqn:E; cbn [default].
    + destruct (Hp i x y Hx E) as (b & Hb & H0 & H1 & _). by exists b.
    + rewrite last_lookup in Hl. assert (i = pred (length ls)) as ->.
      { apply lookup_lt_Some in Hx. apply lookup_ge_None in E. lia. }
      rewrite Hx in Hl. injection Hl as <-. destruct He as (b & Hb & H0 & H1 & _). by exists b.
  - intros x Hx. rewrite Hl in Hx. by injection Hx as <-.
Qed.

Lemma sound_holds t d start ls :
  dev_shape t d -> holds_bytes d -> sound_chain d start ls -> holds d ls (data_of d ls).
Proof.
  intros Hd Hby Hs. destruct (sound_links t d start ls Hd Hs) as (e & He & Hl & _).
  pose proof Hs as (_ & _ & Hp & _).
  set (f := fun l => match sector d l with Ok b => sector_data b | _ => [] end).
  assert (forall i l, ls !! i = Some l -> exists b, sector d l = Ok b /\ length b = 256 /\ f l = sector_data b) as Hf.
  { intros i l Hi. destruct (Hl i l Hi) as (b & Hb & _). exists b. split; [done|]. unfold f. rewrite Hb.
    split; [by eapply sector_Ok_length|done]. }
  assert (forall i l, ls !! i = Some l -> S i < length ls -> length (f l) = 254 /\ exists b, sector d l = Ok b /\ f l = drop 2 b) as Hfull.
  { intros i l Hi HS. destruct (Hf i l Hi) as (b & Hb & Hlb & ->).
    destruct (lookup_lt_is_Some_2 ls (S i) HS) as [l' Hl']. destruct (Hp i l l' Hi Hl') as (b' & Hb' & H0 & _ & Hne).
    rewrite Hb in Hb'. apply Ok_inj in Hb'. subst b'. unfold sector_data, used_part.
    destruct (Nat.eqb_spec (b !!! 0) 0); [lia|]. split; [rewrite drop_length; lia|by exists b]. }
  assert (forall i, i < length ls -> drop (254 * i) (data_of d ls) = concat (map f (drop i ls))) as Hdrop.
  { intros i Hi. unfold data_of. fold f. change (map f ls) with (f <$> ls). rewrite drop_concat; [by rewrite <- fmap_drop| |by rewrite fmap_length].
    intros j c Hj Hc. rewrite fmap_length in Hj. rewrite list_lookup_fmap in Hc.
    destruct (ls !! j) as [l|] eqn:E; [|done]. injection Hc as <-. by apply (Hfull j). }
  split; [intros ->; by destruct Hs as (_ & ? & _)|].
  intros i l Hi. destruct (Hf i l Hi) as (b & Hb & Hlb & Hfl). exists b. split; [done|].
  pose proof (lookup_lt_Some _ _ _ Hi) as Hilt. specialize (Hdrop i Hilt).
  rewrite (drop_S _ _ _ Hi) in Hdrop. cbn [map concat] in Hdrop.
  destruct (Hl i l Hi) as (b' & Hb' & H0 & H1). rewrite Hb in Hb'. apply Ok_inj in Hb'. subst b'.
  unfold block_is. destruct (ls !! S i) as [l'|] eqn:E; cbn [default] in H0, H1.
  - split; [done|]. split; [done|]. destruct (Hfull i l Hi) as (H254 & b' & Hb' & Hfd); [by apply lookup_lt_Some in E|].
    rewrite Hb in Hb'. apply Ok_inj in Hb'. subst b'. unfold slice. rewrite Hdrop, Hfd, take_app_alt; [done|].
    rewrite drop_length. lia.
  - cbn [fst snd] in *. apply lookup_ge_None in E.
    rewrite (drop_ge ls (S i)) in Hdrop by done. cbn [map concat] in Hdrop. rewrite app_nil_r in Hdrop.
    assert (is_byte e) as Heb. { rewrite <- H1. apply bytes_lookup_total. by eapply sector_bytes. }
    unfold is_byte in Heb.
    assert (f l = slice 2 (e - 1) b) as Hsl.
    { rewrite Hfl. unfold sector_data, used_part. rewrite H0, H1. cbn [Nat.eqb]. unfold slice.
      rewrite skipn_firstn_comm. f_equal. lia. }
    assert (length (f l) = e - 1) as Hlf. { rewrite Hsl. apply length_slice. lia. }
    assert (length (drop (254 * i) (data_of d ls)) = e - 1) as Hld by (by rewrite Hdrop).
    rewrite drop_length in Hld.
    assert (254 * i <= length (data_of d ls)) as Hle.
    { destruct (decide (i = 0)) as [->|Hi0]; [lia|].
      destruct (lookup_lt_is_Some_2 ls (i - 1)) as [l1 Hl1]; [lia|].
      assert (drop (254 * (i - 1)) (data_of d ls) = f l1 ++ f l) as Hd1.
      { unfold data_of. fold f. change (map f ls) with (f <$> ls). rewrite drop_concat; [|..].
        - rewrite <- fmap_drop, (drop_S _ _ _ Hl1). replace (S (i - 1)) with i by lia.
          rewrite (drop_S _ _ _ Hi), drop_ge by lia. cbn. by rewrite app_nil_r.
        - intros j c Hj Hc. rewrite fmap_length in Hj. rewrite list_lookup_fmap in Hc.
          destruct (ls !! j) as [l2|] eqn:E2; [|done]. injection Hc as <-. by apply (Hfull j).
        - rewrite fmap_length. lia. }
      apply (f_equal length) in Hd1. rewrite drop_length, app_length in Hd1.
      destruct (Hfull (i - 1) l1 Hl1) as [H254 _]; [lia|]. lia. }
    split; [done|]. split; [lia|]. split; [|lia]. rewrite Hld, Hdrop. done.
Qed.

(** ** Entries *)

Lemma linear_entry bytes e pos :
  length bytes = 32 -> Forall is_byte bytes -> dirent_parse bytes None = Ok e -> de_scheme e = SLinear ->
  exists x, dirent_parse bytes pos = Ok (mk_dirent (de_attr e) (de_first e) (de_name e) (XLinear x) (de_size e) pos SLinear false)
    /\ entry_ok (mk_dirent (de_attr e) (de_first e) (de_name e) (XLinear x) (de_size e) None SLinear false)
    /\ x = slice 21 9 bytes.
Proof.
  intros Hl Hb Hp Hs. pose proof (entry_rewrite bytes None Hl Hb) as (e' & Hp' & _ & _ & Hlast & _).
  rewrite Hp in Hp'. apply Ok_inj in Hp'. subst e'.
  unfold dirent_parse in Hp |- *. rewrite Hl in *. cbn [ENTRY_SIZE Nat.eqb negb] in *.
  apply Ok_inj in Hp. subst e. cbn [de_scheme de_attr de_first de_name de_size] in *. rewrite Hs.
  exists (slice 21 9 bytes). split; [done|]. split; [|done].
  assert (forall i, is_byte (bytes !!! i)) as Hbi by (intros; by apply bytes_lookup_total).
  split; cbn [de_scheme de_attr de_first de_name de_size de_extra fst snd].
  - apply attr_from_byte_ok, Hbi.
  - split; apply Hbi.
  - pose proof (from_padded_length (slice ENTRY_FILENAME_OFFSET ENTRY_FILENAME_LENGTH bytes) PADDING_BYTE) as Hf.
    rewrite length_slice in Hf; [exact Hf|]. rewrite Hl. apply Nat.leb_le. reflexivity.
  - done.
  - change (ENTRY_FILE_SIZE_OFFSET + 1) with 31. change ENTRY_FILE_SIZE_OFFSET with 30.
    pose proof (Hbi 30) as H30. pose proof (Hbi 31) as H31. unfold is_byte in *. lia.
  - split; [by rewrite length_slice by lia|]. rewrite !lookup_total_slice by lia. cbn [plus].
    set (at_ := attr_from_byte (bytes !!! ENTRY_FILE_ATTRIBUTE_OFFSET)) in *.
    assert (type_ok (fa_type at_)) as Hty by apply attr_from_byte_ok, Hbi.
    pose proof (attr_low_bits at_ Hty) as Hlow. unfold at_ in Hlow at 1. rewrite attr_byte_roundtrip in Hlow by apply Hbi.
    unfold entry_scheme, is_entry_geos in Hs. rewrite Hlow in Hs. destruct (decide (fa_type at_ = REL)); [done|].
    split; [done|]. cbn [ENTRY_EXTRA_OFFSET plus] in Hs.
    destruct (Nat.ltb_spec (type_to_byte (fa_type at_) mod 8) 4); [|by left]. right. cbn [andb] in Hs.
    destruct (Nat.leb_spec (bytes !!! 23) 1); [|right; lia]. left. rewrite andb_true_r in Hs.
    destruct (Nat.eqb_spec (bytes !!! 23) 0); cbn [negb orb] in Hs; [|by destruct (is_entry_vlir bytes)].
    destruct (Nat.eqb_spec (bytes !!! 24) 0); cbn [negb orb] in Hs; [done|by destruct (is_entry_vlir bytes)].
Qed.

Lemma geos_type_from_byte_ok b : is_byte b -> geos_type_ok (geos_type_from_byte b).
Proof. unfold is_byte. intros H. do 15 (destruct b as [|b]; [exact I|]). cbn. lia. Qed.

Lemma special_parsed bytes e pos :
  length bytes = 32 -> Forall is_byte bytes -> dirent_parse bytes None = Ok e -> de_scheme e <> SLinear ->
  dirent_parse bytes pos = Ok (mk_dirent (de_attr e) (de_first e) (de_name e) (de_extra e) (de_size e) pos (de_scheme e) false)
  /\ entry_ok (mk_dirent (de_attr e) (de_first e) (de_name e) (de_extra e) (de_size e) None (de_scheme e) false).
Proof.
  intros Hl Hb Hp Hs. pose proof (entry_rewrite bytes None Hl Hb) as (e' & Hp' & _ & _ & Hlast & _).
  rewrite Hp in Hp'. apply Ok_inj in Hp'. subst e'.
  unfold dirent_parse in Hp |- *. rewrite Hl in *. cbn [ENTRY_SIZE Nat.eqb negb] in *.
  apply Ok_inj in Hp. subst e. cbn [de_scheme de_attr de_first de_name de_size de_extra] in *.
  split; [done|].
  assert (forall i, is_byte (bytes !!! i)) as Hbi by (intros; by apply bytes_lookup_total).
  split; cbn [de_scheme de_attr de_first de_name de_size de_extra fst snd].
  - apply attr_from_byte_ok, Hbi.
  - split; apply Hbi.
  - pose proof (from_padded_length (slice ENTRY_FILENAME_OFFSET ENTRY_FILENAME_LENGTH bytes) PADDING_BYTE) as Hf.
    rewrite length_slice in Hf; [exact Hf|]. rewrite Hl. apply Nat.leb_le. reflexivity.
  - done.
  - change (ENTRY_FILE_SIZE_OFFSET + 1) with 31. change ENTRY_FILE_SIZE_OFFSET with 30.
    pose proof (Hbi 30) as H30. pose proof (Hbi 31) as H31. unfold is_byte in *. lia.
  - set (at_ := attr_from_byte (bytes !!! ENTRY_FILE_ATTRIBUTE_OFFSET)) in *.
    assert (type_ok (fa_type at_)) as Hty by apply attr_from_byte_ok, Hbi.
    pose proof (attr_low_bits at_ Hty) as Hlow. unfold at_ in Hlow at 1. rewrite attr_byte_roundtrip in Hlow by apply Hbi.
    unfold entry_scheme, is_entry_geos in Hs |- *. rewrite Hlow in Hs |- *. destruct (decide (fa_type at_ = REL)) as [Er|Er].
    { unfold extra_from_bytes. split; [done|]. apply length_slice. unfold slice, ENTRY_EXTRA_OFFSET, EXTRA_SIZE. rewrite take_length, drop_length. lia. }
    cbn [ENTRY_EXTRA_OFFSET plus] in Hs |- *. unfold is_entry_vlir in *. cbn [ENTRY_EXTRA_OFFSET plus] in Hs |- *.
    destruct (Nat.ltb_spec (type_to_byte (fa_type at_) mod 8) 4) as [Ht|Ht]; [|by destruct Hs]. cbn [andb] in *.
    destruct (Nat.leb_spec (bytes !!! 23) 1) as [H23|H23]; [|by rewrite andb_false_r in Hs]. rewrite andb_true_r in *.
    assert (forall i, i < 9 -> slice 21 EXTRA_SIZE bytes !!! i = bytes !!! (21 + i)) as Hsl.
    { intros i Hi. apply lookup_total_slice; unfold EXTRA_SIZE; lia. }
    change ENTRY_EXTRA_OFFSET with 21. unfold extra_from_bytes.
    pose proof (geos_type_from_byte_ok _ (Hbi 24)) as Hg.
    destruct (Nat.eqb_spec (bytes !!! 23) 1) as [E1|E1].
    + rewrite E1. cbn [Nat.eqb negb orb]. rewrite !(Hsl 2), !(Hsl 3) by lia. cbn [plus]. rewrite E1. cbn [structure_from_byte]. done.
    + assert (bytes !!! 23 = 0) as E0 by lia. rewrite E0 in *. cbn [Nat.eqb negb orb] in *. cbn [structure_from_byte].
      destruct (Nat.eqb_spec (bytes !!! 24) 0) as [Eg|Eg]; [by destruct Hs|]. cbn [negb]. rewrite !(Hsl 2), !(Hsl 3) by lia. cbn [plus]. rewrite E0.
      split; [done|]. split; [|done]. intros Hn. apply Eg. rewrite <- (geos_type_roundtrip (bytes !!! 24)), Hn. done.
Qed.

(** The entry is used for the first sector, the extra fields and the scheme only. *)
Lemma found_same d e e' ls k :
  de_first e' = de_first e -> de_extra e' = de_extra e -> de_scheme e' = de_scheme e -> de_scheme e <> SLinear ->
  (exists x, file_at d 0 e = Ok x /\ file_occupied d x = Ok ls /\ reads_as d x k) ->
  exists x, file_at d 0 e' = Ok x /\ file_occupied d x = Ok ls /\ reads_as d x k.
Proof.
  intros Hf Hx Hs Hns (x & E & Ho & Hr). destruct (file_at_like d 0 0 e e' x Hns Hs Hf Hx E) as (y & Ey & Hl).
  exists y. split; [done|]. split; [by rewrite <- (like_occupied d x y Hl)|]. by eapply like_reads.
Qed.

Section sound.
  Context (t : disk_type) (d : dev) (dirs : list location) (chains : list (list location)) (a : astate).
  Context (S : sound_image t d dirs chains a).

  (** The file in a slot. *)
  Definition slot_file (i : nat) (o : option mfile) : Prop :=
    abs_slot o = as_slots a !!! i /\ chain_of o = chains !!! i
    /\ (exists b, sector d ((border_of t d ++ dirs) !!! (i / 8)) = Ok b /\ slot_is b (slot_off i) o)
    /\ match o with
       | Some f => file_ok f /\ contents t d f /\ mf_size f = length (mf_chain f)
                   /\ (mf_special f = None -> length (mf_chain f) = blocks_for 1 (length (mf_data f)))
       | None => True
       end.

  Lemma slot_file_exists i : i < 8 * length (border_of t d ++ dirs) -> exists o, slot_file i o.
  Proof.
    intros Hi. destruct (si_lengths _ _ _ _ _ S) as [H1 H2].
    destruct (lookup_lt_is_Some_2 (as_slots a) i) as [o Ho]; [lia|].
    destruct (lookup_lt_is_Some_2 chains i) as [ls Hls]; [lia|].
    destruct (si_slots _ _ _ _ _ S i o ls Ho Hls) as (l & b & Hl & Hb & e & He & Hm).
    pose proof (sector_Ok_length _ _ _ _ (si_shape _ _ _ _ _ S) Hb) as Hlb.
    pose proof (sector_bytes d l b (si_bytes _ _ _ _ _ S) Hb) as Hbb.
    assert (length (slice (32 * (i mod 8)) 32 b) = 32) as Hls32 by (apply length_slice; lia).
    assert (Forall is_byte (slice (32 * (i mod 8)) 32 b)) as Hsb.
    { unfold slice. by apply Forall_take, Forall_drop. }
    unfold slot_file. rewrite (list_lookup_total_correct _ _ _ Ho), (list_lookup_total_correct _ _ _ Hls),
      (list_lookup_total_correct _ _ _ Hl). destruct o as [f|].
    - destruct Hm as (Hns & Hsz & Hm). destruct (a_special f).
      { destruct Hm as (Hns' & Hss & ->). cbn [a_kind].
        destruct (special_parsed _ e None Hls32 Hsb He Hns') as [_ Hok].
        exists (Some (mk_mfile (de_attr e) (de_name e) [] (length ls) ls (raw_of d ls) (Some (mk_special (de_first e) (de_extra e) (de_scheme e) (a_kind f))))).
        split; [done|]. split; [done|]. split.
        - exists b. split; [done|]. intros p. destruct (special_parsed _ e p Hls32 Hsb He Hns') as [Hp _].
          unfold slot_off. rewrite Hp, Hsz. done.
        - split; [|split; [|done]].
          + split; [|done]. unfold mf_entry, mf_first, mf_extras, mf_scheme. cbn. rewrite <- Hsz. done.
          + unfold contents. cbn [mf_special mf_chain mf_data sp_scheme]. split; [done|]. split; [done|].
            intros d' Hd' _ Hs'. destruct Hss as (x & Ex & Hox & Hrx).
            destruct (file_local t d d' (si_shape _ _ _ _ _ S) Hd' 0 e x ls Hns' Ex Hox Hs') as (E1 & E2 & E3).
            apply (found_same d' e); [done..|]. exists x. split; [done|]. split; [done|]. by apply E3. }
      destruct Hm as (Hsch & Hch & -> & Hw).
      destruct (linear_entry _ e None Hls32 Hsb He Hsch) as (x & _ & Hok & Hx).
      exists (Some (mk_mfile (de_attr e) (de_name e) x (length ls) ls (data_of d ls) None)).
      assert (hd (0, 0) ls = de_first e) as Hhd. { destruct Hch as (_ & Hh & _). destruct ls; [done|]. by injection Hh. }
      split; [done|]. split; [done|]. split.
      + exists b. split; [done|]. intros p. destruct (linear_entry _ e p Hls32 Hsb He Hsch) as (x' & Hp & _ & Hx').
        unfold slot_off. rewrite Hp. unfold mf_entry. cbn. rewrite Hhd, <- Hsz. congruence.
      + split; [|split; [|done]]; [|by eapply sound_holds; [apply S|apply S|]].
        split; [|done]. unfold mf_entry. cbn. rewrite Hhd, <- Hsz. done.
    - destruct Hm as [Hsc ->]. exists None. split; [done|]. split; [done|]. split; [|done].
      exists b. split; [done|]. cbn. unfold dirent_parse in He. rewrite Hls32 in He. cbn [ENTRY_SIZE Nat.eqb negb] in He.
      apply Ok_inj in He. subst e. cbn [de_attr] in Hsc. rewrite <- Hsc. f_equal. f_equal.
      unfold slot_off, ENTRY_FILE_ATTRIBUTE_OFFSET. symmetry. apply lookup_total_slice; lia.
  Qed.

  Lemma sound_related : exists m b, related t a (start t d) m 0 b /\ tidy a.
  Proof.
    destruct (list_choice slot_file (8 * length (border_of t d ++ dirs)) slot_file_exists) as (slots & Hlen & Hslots).
    destruct (si_header _ _ _ _ _ S) as (h & Hh & Hlab).
    destruct (si_map _ _ _ _ _ S) as (b & Hm & Hcon & Hfree).
    destruct (si_lengths _ _ _ _ _ S) as [H1 H2]. pose proof (si_shape _ _ _ _ _ S) as Hd.
    destruct (si_fresh _ _ _ _ _ S) as (Hdirs & Hbp & Hhs & Hws & Hsy).
    set (m := mk_mdisk h dirs slots).
    assert (border m = border_of t d) as Hbd by (unfold border, border_of; by rewrite Hh).
    assert (md_secs m = border_of t d ++ dirs) as Hsecs by (unfold md_secs; by rewrite Hbd).
    assert (abs_slots m = as_slots a) as Habs.
    { apply list_eq. intros i. unfold abs_slots. change (map abs_slot (md_slots m)) with (abs_slot <$> slots).
      rewrite list_lookup_fmap. destruct (slots !! i) as [o|] eqn:E; cbn.
      - destruct (Hslots i o E) as (-> & _). symmetry. apply list_lookup_lookup_total_lt. apply lookup_lt_Some in E. lia.
      - apply lookup_ge_None in E. symmetry. apply lookup_ge_None. lia. }
    assert (map chain_of slots = chains) as Hchains.
    { apply list_eq. intros i. change (map chain_of slots) with (chain_of <$> slots).
      rewrite list_lookup_fmap. destruct (slots !! i) as [o|] eqn:E; cbn.
      - destruct (Hslots i o E) as (_ & -> & _). symmetry. apply list_lookup_lookup_total_lt. apply lookup_lt_Some in E. lia.
      - apply lookup_ge_None in E. symmetry. apply lookup_ge_None. lia. }
    assert (files_used slots = concat chains) as Hused by (unfold files_used; by rewrite Hchains).
    destruct (open_cases t d Hd) as (Hty & Hdev & [(_ & Hno & _)|(h' & b' & Hhr & Hbr & Hwb & Hop)]); [congruence|].
    assert (h' = h) as ->. { pose proof (op_header _ _ _ _ _ Hop). congruence. }
    assert (bool_decide (is_Some (h_geos h)) = is_geos m) as Hgeo by (unfold is_geos; cbn [m md_header]; by destruct (h_geos h)).
    rewrite Hgeo in Hop. fold (m_format t m) in Hop.
    rewrite (opened_map _ _ _ _ _ Hop) in Hm. apply Ok_inj in Hm.
    assert (forall l, In l dirs -> dir_loc t l) as Hdl.
    { intros l Hl. destruct (si_dir_area _ _ _ _ _ S l Hl) as [Hbs Htr]. split; [done|]. split; [done|]. intros Hsys.
      assert (system_sector t l) as Hss.
      { split; [done|]. destruct Hsys as [[_ Hs]|Hs]; [left|by right]. split; [done|]. destruct t; cbn in *; lia. }
      pose proof (si_first _ _ _ _ _ S l Hl Hss) as Hhead. destruct (si_dir _ _ _ _ _ S) as (_ & Hhead' & _).
      rewrite Hhead in Hhead'. injection Hhead' as ->. destruct Hsys as [[_ Hs]|[Ht Hs]].
      - cbn in Hs. destruct t; cbn in Hs; lia.
      - rewrite Ht in Hs. done. }
    assert (forall l, In l (concat chains) -> data_loc t l) as Hda.
    { intros l Hl. destruct (si_area _ _ _ _ _ S l Hl) as (Hbs & Htr & Hre). split; [done|]. split; [done|].
      intros [[Hs _]|Hs]; done. }
    assert (view t d m) as V.
    { split; rewrite ?Hbd, ?Hsecs; try done.
      - apply S.
      - apply Forall_forall. intros l Hl%elem_of_list_In. destruct (si_border _ _ _ _ _ S l Hl) as [Hbs Hns]. split; [done|].
        intros Hsys. apply Hns. split; [done|]. destruct Hsys as [[Htr Hs]|Hs]; [left|by right]. split; [done|]. destruct t; cbn in *; lia.
      - unfold used. rewrite Hsecs. cbn [m md_slots]. rewrite Hused, <- app_assoc. apply S.
      - apply Forall_forall. intros l Hl%elem_of_list_In. by apply Hdl.
      - destruct (si_dir _ _ _ _ _ S) as (_ & Hhead' & _). cbn [m md_dir]. rewrite Hhead'. by destruct t.
      - destruct (sound_links t d _ dirs Hd (si_dir _ _ _ _ _ S)) as (e & He & Hl & Hend).
        destruct (si_dir_end _ _ _ _ _ S) as (l & Hla & Hen). pose proof (Hend l Hla) as Hen'.
        destruct Hen as (x & Hx & _ & Hx1 & _). destruct Hen' as (x' & Hx' & _ & Hx1' & _).
        rewrite Hx in Hx'. apply Ok_inj in Hx'. subst x'. cbn [m md_dir]. replace 255 with e by lia. exact Hl.
      - intros i o Hi. destruct (Hslots i o Hi) as (_ & _ & Hb & _). unfold slot_loc. rewrite Hsecs. exact Hb.
      - intros i f Hi. destruct (Hslots i _ Hi) as (_ & _ & _ & Hf1 & Hf2 & _). split; [done|]. split; [|done].
        apply Forall_forall. intros l Hl. apply Hda. rewrite <- Hused. apply elem_of_list_In, files_used_in. eauto. }
    assert (forall i f, slot_at m i = Some f -> slots !! i = Some (Some f)) as Hat by (intros i f Hf; by apply slot_at_Some in Hf).
    exists m, b. split.
    { split; cbn [start s_world s_handles s_writers].
      - destruct (op_bam _ _ _ _ _ Hop) as (c & Hc & Hcell). rewrite Hwb in Hc. injection Hc as <-.
        split; rewrite ?Hdev; try done.
        + exact (op_fmt _ _ _ _ _ Hop).
        + by rewrite <- Hm.
        + split; [done| |].
          * by rewrite <- Hm.
          * intros l Hl. rewrite <- is_free_b, (Hfree l Hl). unfold used. rewrite Hsecs. cbn [m md_slots]. rewrite Hused.
            rewrite not_elem_of_app, !elem_of_list_In. split.
            -- intros (Hs & Hn1 & Hn2). split; [|split; [done|by intros []]]. intros Hsy'. apply Hs. split; [done|].
               destruct Hsy' as [[Ht' Hs']|Hs']; [left|by right]. split; [done|]. destruct t; cbn in *; lia.
            -- intros (Hs & [Hn1 Hn2] & _). split; [|done]. intros [_ [[Ht' Hs']|Hs']]; [|apply Hs; by right].
               destruct (decide (l = first_dir t)) as [->|Hne].
               ++ apply Hn1, in_or_app. right. destruct (si_dir _ _ _ _ _ S) as (_ & Hhead' & _). destruct dirs as [|x xs]; [done|]. left.
                  injection Hhead' as ->. by destruct t.
               ++ apply Hs. left. split; [done|]. assert (snd l <> sys_sectors t); [|destruct t; cbn in *; lia].
                  intros He. apply Hne. unfold first_dir. rewrite <- Ht', <- He. by destruct l.
      - intros i j f g Hf Hg' En. apply (si_names _ _ _ _ _ S i j (abs_file f) (abs_file g)); [| |done];
          rewrite <- Habs; by apply abs_lookup.
      - intros i f Hf. apply Hat in Hf. by destruct (Hslots i _ Hf) as (_ & _ & _ & _ & _ & -> & _).
      - done.
      - done.
      - rewrite Hbp. unfold border_at, abs_border. by rewrite Hbd.
      - done.
      - rewrite Hhs. constructor.
      - rewrite Hws. constructor.
      - rewrite Hws. intros k1 k2 x1 x2 Hx1. by rewrite lookup_nil in Hx1.
      - intros _. unfold disk_bam. rewrite Hdev, (view_format _ _ _ V). rewrite <- Hm.
        destruct (read_other_format d (native_format t) (m_format t m) b' eq_refl Hbr) as [-> _]. done. }
    split; rewrite ?Hws; try by (intros ? ? ?; rewrite ?lookup_nil).
    - intros i f Hf Hsp _. rewrite <- Habs in Hf. apply abs_lookup_inv in Hf as (g & Hg' & ->). apply Hat in Hg'.
      destruct (Hslots i _ Hg') as (_ & _ & _ & _ & _ & _ & Hw). apply Hw.
      apply (plain_kind t d m i g V); [|done]. by apply slot_at_Some.
  Qed.
End sound.
