(** Directory entries and headers as bytes. *)
From Verif Require Import Base ListFacts Layout Block Petscii GeosTypes DirEntry Header Spec SpecCodec GeomFacts FlatProofs CodecProofs.
Ltac Zify.zify_post_hook ::= Z.div_mod_to_equations.

(** The 32 bytes of an entry, by fields. *)
Definition entry_bytes (b0 b1 attr t s : nat) (name extra : list nat) (lo hi : nat) : list nat :=
  [b0; b1; attr; t; s] ++ name ++ extra ++ [lo; hi].

Lemma entry_bytes_all bytes :
  length bytes = 32 ->
  bytes = entry_bytes (bytes !!! 0) (bytes !!! 1) (bytes !!! 2) (bytes !!! 3) (bytes !!! 4)
            (slice 5 16 bytes) (slice 21 9 bytes) (bytes !!! 30) (bytes !!! 31).
Proof. intros H. destruct_list bytes. reflexivity. Qed.

Lemma dirent_to_bytes_eq e bytes name x :
  length bytes = 32 ->
  write_bytes_with_padding (de_name e) 16 PADDING_BYTE = Some name -> length name = 16 ->
  extra_to_bytes (de_extra e) (slice 21 9 bytes) = Ok x -> length x = 9 ->
  dirent_to_bytes e bytes =
    Ok (entry_bytes (bytes !!! 0) (bytes !!! 1) (attr_to_byte (de_attr e))
          (fst (de_first e)) (snd (de_first e)) name x (de_size e mod 256) (de_size e / 256)).
Proof.
  intros Hlen Hname Hnl Hx Hxl. unfold dirent_to_bytes.
  rewrite Hlen. change (negb (32 =? ENTRY_SIZE)) with false. cbn match.
  unfold ENTRY_FILENAME_LENGTH. rewrite Hname.
  unfold ENTRY_FILENAME_OFFSET, ENTRY_FIRST_SECTOR_OFFSET, ENTRY_FILE_ATTRIBUTE_OFFSET,
    ENTRY_EXTRA_OFFSET, ENTRY_FILE_SIZE_OFFSET, EXTRA_SIZE.
  rewrite !slice_splice_other
    by (rewrite ?length_splice; simpl; rewrite ?length_splice; simpl; lia).
  rewrite Hx. cbn [rbind]. f_equal.
  destruct_list bytes. destruct_list name. destruct_list x. reflexivity.
Qed.

Lemma parse_entry_bytes b0 b1 a t s name x lo hi pos :
  length name = 16 -> length x = 9 ->
  dirent_parse (entry_bytes b0 b1 a t s name x lo hi) pos =
    let at_ := attr_from_byte a in
    let bytes := entry_bytes b0 b1 a t s name x lo hi in
    Ok (mk_dirent at_ (t, s) (from_padded_bytes name PADDING_BYTE)
          (extra_from_bytes (entry_scheme at_ bytes) x) (hi * 256 + lo) pos
          (entry_scheme at_ bytes) false).
Proof.
  intros Hn Hx. destruct_list name. destruct_list x. reflexivity.
Qed.

Lemma length_write_padding s n pad bytes :
  write_bytes_with_padding s n pad = Some bytes -> length bytes = n.
Proof.
  unfold write_bytes_with_padding. destruct (Nat.ltb_spec n (length s)); [done|].
  intros [= <-]. rewrite app_length, repeat_length. lia.
Qed.

(** *** Rewriting an unchanged entry *)

Lemma extra_rewrite sch x :
  length x = 9 -> extra_to_bytes (extra_from_bytes sch x) x = Ok x.
Proof.
  intros Hx. destruct_list x. destruct sch; try reflexivity.
  - unfold extra_from_bytes, extra_to_bytes. f_equal. cbn.
    by rewrite structure_roundtrip, geos_type_roundtrip.
  - unfold extra_from_bytes, extra_to_bytes. f_equal. cbn.
    by rewrite structure_roundtrip, geos_type_roundtrip.
Qed.

Lemma attr_value_spec a : type_ok (fa_type a) -> attr_to_byte a = attr_value a.
Proof.
  destruct a as [t u r l c]. intros Ht.
  destruct t as [| | | | |b]; try (destruct u, r, l, c; vm_compute; reflexivity).
  simpl in Ht. do 5 (destruct b as [|b]; [lia|]).
  do 11 (destruct b as [|b]; [destruct u, r, l, c; vm_compute; reflexivity|]). lia.
Qed.

Lemma attr_from_byte_ok b : b < 256 -> type_ok (fa_type (attr_from_byte b)).
Proof.
  intros Hb. unfold attr_from_byte. cbn [fa_type].
  assert (byte_and b 15 < 16) as H.
  { apply Nat.ltb_lt. revert b Hb. apply (forall_lt_dec (fun b => byte_and b 15 <? 16)).
    vm_compute. reflexivity. }
  destruct (byte_and b 15) as [|[|[|[|[|x]]]]]; simpl; try exact I; lia.
Qed.

Lemma extra_value_parse sch x : length x = 9 -> extra_value (extra_from_bytes sch x) = x.
Proof.
  intros Hx. destruct_list x. destruct sch; try reflexivity.
  - unfold extra_from_bytes, extra_value. cbn.
    by rewrite structure_roundtrip, geos_type_roundtrip.
  - unfold extra_from_bytes, extra_value. cbn.
    by rewrite structure_roundtrip, geos_type_roundtrip.
Qed.

Lemma padded_value bytes pad :
  from_padded_bytes bytes pad ++ repeat pad (length bytes - length (from_padded_bytes bytes pad))
  = bytes.
Proof.
  pose proof (from_padded_repad bytes pad) as H. unfold write_bytes_with_padding in H.
  destruct (_ <? _); [done|]. by injection H.
Qed.

Theorem entry_rewrite bytes pos :
  length bytes = 32 -> Forall is_byte bytes ->
  exists e, dirent_parse bytes pos = Ok e /\ dirent_to_bytes e bytes = Ok bytes
    /\ entry_value e = drop 2 bytes /\ last (de_name e) <> Some PADDING_BYTE
    /\ de_pos e = pos.
Proof.
  intros Hlen Hb. pose proof (entry_bytes_all bytes Hlen) as Hall.
  set (name := slice 5 16 bytes) in *. set (x := slice 21 9 bytes) in *.
  assert (length name = 16) as Hn by (apply length_slice; lia).
  assert (length x = 9) as Hx by (apply length_slice; lia).
  pose proof (parse_entry_bytes (bytes !!! 0) (bytes !!! 1) (bytes !!! 2) (bytes !!! 3)
    (bytes !!! 4) name x (bytes !!! 30) (bytes !!! 31) pos Hn Hx) as Hp.
  rewrite <- Hall in Hp. eexists. split; [exact Hp|].
  pose proof (bytes_lookup_total bytes 30 Hb) as H30. unfold is_byte in H30.
  assert (bytes !!! 2 < 256) as H2 by (by apply bytes_lookup_total).
  split; [|split; [|split; [|done]]].
  2: { unfold entry_value. cbn [de_attr de_first de_name de_extra de_size fst snd].
    rewrite <- attr_value_spec by (by apply attr_from_byte_ok).
    rewrite attr_byte_roundtrip by done. rewrite extra_value_parse by done.
    rewrite (app_assoc (from_padded_bytes _ _)). rewrite <- Hn at 2.
    change 160 with PADDING_BYTE. rewrite padded_value.
    replace ((bytes !!! 31 * 256 + bytes !!! 30) mod 256) with (bytes !!! 30) by lia.
    replace ((bytes !!! 31 * 256 + bytes !!! 30) / 256) with (bytes !!! 31) by lia.
    symmetry. exact (f_equal (drop 2) Hall). }
  2: { intros Hl. by apply from_padded_last in Hl. }
  rewrite (dirent_to_bytes_eq _ bytes name x); cbn [de_attr de_first de_name de_extra de_size fst snd]; try done.
  - rewrite attr_byte_roundtrip by done.
    replace ((bytes !!! 31 * 256 + bytes !!! 30) mod 256) with (bytes !!! 30) by lia.
    replace ((bytes !!! 31 * 256 + bytes !!! 30) / 256) with (bytes !!! 31) by lia.
    by rewrite <- Hall.
  - rewrite <- Hn. apply from_padded_repad.
  - by apply extra_rewrite.
Qed.

(** *** Writing an entry and reading it back *)

Lemma attr_low_bits a :
  type_ok (fa_type a) -> byte_and (attr_to_byte a) 7 = type_to_byte (fa_type a) mod 8.
Proof.
  destruct a as [t u r l c]. simpl. intros Ht.
  destruct t as [| | | | |b]; try (destruct u, r, l, c; vm_compute; reflexivity).
  simpl in Ht. do 5 (destruct b as [|b]; [lia|]).
  do 11 (destruct b as [|b]; [destruct u, r, l, c; vm_compute; reflexivity|]). lia.
Qed.

Lemma entry_scheme_bytes b0 b1 a t s name x lo hi :
  type_ok (fa_type a) -> length name = 16 -> length x = 9 ->
  entry_scheme a (entry_bytes b0 b1 (attr_to_byte a) t s name x lo hi) =
    if decide (fa_type a = REL) then SRelative
    else if (type_to_byte (fa_type a) mod 8 <? 4)
            && (negb (x !!! 2 =? 0) || negb (x !!! 3 =? 0)) && (x !!! 2 <=? 1)
    then if x !!! 2 =? 1 then SGEOSVLIR else SGEOSSequential
    else SLinear.
Proof.
  intros Ht Hn Hx. unfold entry_scheme. case_decide; [done|].
  destruct_list name. destruct_list x.
  unfold is_entry_geos, is_entry_vlir.
  change (entry_bytes _ _ _ _ _ _ _ _ _ !!! ENTRY_FILE_ATTRIBUTE_OFFSET) with (attr_to_byte a).
  rewrite attr_low_bits by done. reflexivity.
Qed.

Theorem entry_write_read e bytes :
  length bytes = 32 -> entry_ok e -> record_length_kept e bytes ->
  exists bytes', dirent_to_bytes e bytes = Ok bytes' /\ length bytes' = 32
    /\ bytes' = take 2 bytes ++ entry_value e
    /\ forall pos, dirent_parse bytes' pos =
         Ok (mk_dirent (de_attr e) (de_first e) (de_name e) (de_extra e) (de_size e) pos
               (de_scheme e) false).
Proof.
  intros Hlen [Ht Hf Hn Hne Hsz Hx] Hr.
  destruct (padded_roundtrip (de_name e) 16 PADDING_BYTE Hn) as (name & Hname & Hnl & Hback).
  { intros y Hy ->. by apply Hne. }
  assert (exists x, extra_to_bytes (de_extra e) (slice 21 9 bytes) = Ok x /\ length x = 9
     /\ entry_scheme (de_attr e) (entry_bytes (bytes !!! 0) (bytes !!! 1) (attr_to_byte (de_attr e))
          (fst (de_first e)) (snd (de_first e)) name x (de_size e mod 256) (de_size e / 256))
        = de_scheme e
     /\ extra_from_bytes (de_scheme e) x = de_extra e) as (x & Hxb & Hxl & Hsch & Hxback).
  { unfold record_length_kept in Hr.
    destruct (de_scheme e) eqn:Es, (de_extra e) as [unused|side len unused|info st ft y mo d h mi] eqn:Ee;
      try done.
    - destruct Hx as (Hl & Hrel & Hx). exists unused. unfold extra_to_bytes.
      rewrite Hl. repeat split; try done.
      rewrite entry_scheme_bytes by done. rewrite decide_False by done.
      destruct (Nat.ltb_spec (type_to_byte (fa_type (de_attr e)) mod 8) 4); [|done]. simpl.
      destruct Hx as [?|[[-> ->]|?]]; [lia|done|].
      destruct (Nat.leb_spec (unused !!! 2) 1); [lia|]. by rewrite andb_false_r.
    - destruct Hx as (Hrel & Hl). destruct side as [st ss].
      exists ([st; ss; len] ++ unused). unfold extra_to_bytes. rewrite Hl. simpl Nat.eqb. cbn match.
      split; [|split; [|split]].
      + f_equal. destruct_list bytes. destruct_list unused. cbn in Hr. subst. reflexivity.
      + simpl. by rewrite Hl.
      + rewrite entry_scheme_bytes by (try done; simpl; by rewrite Hl).
        by rewrite decide_True.
      + destruct_list unused. reflexivity.
    - destruct st; try done. destruct Hx as (Hft & Hnz & Hrel & Hlow). destruct info as [it is].
      eexists. unfold extra_to_bytes. split; [done|]. split; [done|]. split.
      + rewrite entry_scheme_bytes by done. rewrite decide_False by done.
        destruct (Nat.ltb_spec (type_to_byte (fa_type (de_attr e)) mod 8) 4); [|lia].
        cbn. destruct (Nat.eqb_spec (geos_type_to_byte ft) 0) as [E|]; [|done].
        destruct ft; try done. simpl in *. lia.
      + unfold extra_from_bytes. cbn. by rewrite geos_type_roundtrip'.
    - destruct st; try done. destruct Hx as (Hft & Hrel & Hlow). destruct info as [it is].
      eexists. unfold extra_to_bytes. split; [done|]. split; [done|]. split.
      + rewrite entry_scheme_bytes by done. rewrite decide_False by done.
        destruct (Nat.ltb_spec (type_to_byte (fa_type (de_attr e)) mod 8) 4); [|lia]. done.
      + unfold extra_from_bytes. cbn. by rewrite geos_type_roundtrip'. }
  exists (entry_bytes (bytes !!! 0) (bytes !!! 1) (attr_to_byte (de_attr e))
          (fst (de_first e)) (snd (de_first e)) name x (de_size e mod 256) (de_size e / 256)).
  split; [by apply dirent_to_bytes_eq|]. split; [|split].
  - unfold entry_bytes. rewrite !app_length, Hnl, Hxl. done.
  - unfold entry_value. rewrite <- Hxback, extra_value_parse by done.
    rewrite <- attr_value_spec by done.
    rewrite (app_assoc (de_name e)).
    assert (de_name e ++ repeat 160 (16 - length (de_name e)) = name) as ->
      by (pose proof (padded_value name PADDING_BYTE) as Hpv; rewrite Hnl, Hback in Hpv; exact Hpv).
    assert (take 2 bytes = [bytes !!! 0; bytes !!! 1]) as ->
      by (clear -Hlen; destruct_list bytes; reflexivity).
    reflexivity.
  - intros pos. rewrite parse_entry_bytes by done. cbn zeta.
    destruct (attr_roundtrip (de_attr e) Ht) as [Hattr _]. rewrite Hattr, Hsch, Hback, Hxback.
    destruct (de_first e) as [t s]. cbn [fst snd].
    replace (de_size e / 256 * 256 + de_size e mod 256) with (de_size e) by lia. done.
Qed.

(** The record length is lost: an entry of a relative file written into a slot
    that held other bytes. *)
Definition rel_entry : dirent :=
  mk_dirent (mk_attr REL false false false true) (17, 0) [65; 66]
    (XRelative (17, 10) 100 (repeat 0 6)) 3 None SRelative false.

Lemma rel_entry_ok : entry_ok rel_entry.
Proof. split; simpl; unfold is_byte; try lia; try done. Qed.

Theorem entry_write_read_fails :
  exists e bytes bytes' e', length bytes = 32 /\ entry_ok e
    /\ dirent_to_bytes e bytes = Ok bytes' /\ dirent_parse bytes' None = Ok e'
    /\ de_extra e' <> de_extra e.
Proof.
  exists rel_entry, (repeat 0 32). eexists. eexists.
  split; [done|]. split; [apply rel_entry_ok|].
  split; [vm_compute; reflexivity|]. split; [vm_compute; reflexivity|]. simpl. done.
Qed.

(** ** Headers *)

Lemma fold_pad_length os (b : list nat) :
  Forall (fun o => o < length b) os ->
  length (fold_left (fun b o => splice o [PADDING_BYTE] b) os b) = length b.
Proof.
  revert b. induction os as [|o os IH]; intros b H; [done|]. inversion_clear H. simpl.
  rewrite IH; rewrite length_splice; simpl; try lia; done.
Qed.

Lemma fold_pad_lookup os (b : list nat) i :
  Forall (fun o => o < length b) os ->
  fold_left (fun b o => splice o [PADDING_BYTE] b) os b !!! i
  = if decide (i ∈ os) then PADDING_BYTE else b !!! i.
Proof.
  revert b. induction os as [|o os IH]; intros b H; [done|]. inversion_clear H. cbn [fold_left].
  rewrite IH by (rewrite length_splice; simpl; [done|lia]).
  rewrite lookup_total_splice by (simpl; lia). cbn [length].
  destruct (decide (i ∈ os)).
  - by rewrite decide_True by (by right).
  - destruct (decide (i = o)) as [->|].
    + rewrite decide_True by lia. rewrite decide_True by left. by rewrite Nat.sub_diag.
    + rewrite decide_False by lia. rewrite decide_False; [done|].
      rewrite elem_of_cons. tauto.
Qed.

Lemma fold_pad_bytes os (b : list nat) :
  Forall is_byte b ->
  Forall is_byte (fold_left (fun b o => splice o [PADDING_BYTE] b) os b).
Proof.
  revert b. induction os as [|o os IH]; intros b Hb; [done|]. apply IH.
  apply forall_bytes_splice; [|done]. repeat constructor; unfold is_byte, PADDING_BYTE; lia.
Qed.

Definition hf (t : disk_type) : header_format := header_fmt (native_format t).

(** Name the result of each splice into a block, innermost first, keeping its
    length and its bytes. *)
Ltac name_splice :=
  match goal with
  | |- context [splice ?o ?d ?l] =>
      is_var l;
      let Hl := fresh "Hl" in let Hi := fresh "Hi" in let Hb := fresh "Hb" in
      let b := fresh "b" in
      assert (length (splice o d l) = 256) as Hl
        by (rewrite length_splice; cbn [length]; lia);
      assert (forall i, splice o d l !!! i
                = if decide (o <= i < o + length d) then d !!! (i - o) else l !!! i) as Hi
        by (intros i; apply lookup_total_splice; cbn [length]; lia);
      assert (Forall is_byte d -> Forall is_byte l -> Forall is_byte (splice o d l)) as Hb
        by (intros; by apply forall_bytes_splice);
      cbn [length] in Hi;
      set (b := splice o d l) in *; clearbody b
  end.

Ltac byte_at Hnl :=
  repeat match goal with
  | Hi : forall i, ?b !!! i = _ |- context [?b !!! _] => rewrite Hi
  end;
  rewrite ?Hnl;
  repeat match goal with
  | |- context [decide (_ ∈ _)] => rewrite decide_False by (rewrite elem_of_list_In; simpl; lia)
  | |- context [decide ?P] => first [rewrite (decide_True _ _ (P := P)) by lia | rewrite (decide_False _ _ (P := P)) by lia]
  end.

Lemma header_render_spec t h block name :
  length block = 256 ->
  write_bytes_with_padding (h_disk_name h) DISK_NAME_SIZE PADDING_BYTE = Some name ->
  exists block', header_render h (hf t) block = Ok block' /\ length block' = 256
    /\ block' !!! 0 = fst (h_first_directory h) /\ block' !!! 1 = snd (h_first_directory h)
    /\ block' !!! 2 = h_disk_format_type h
    /\ (t = D71 -> block' !!! 3 = 128)
    /\ slice (hf_disk_name_offset (hf t)) 16 block' = name
    /\ block' !!! hf_disk_id_offset (hf t) = fst (h_disk_id h)
    /\ block' !!! (hf_disk_id_offset (hf t) + 1) = snd (h_disk_id h)
    /\ block' !!! hf_directory_dos_version_offset (hf t) = h_directory_dos_version h
    /\ block' !!! hf_directory_format_type_offset (hf t) = h_directory_format_type h
    /\ (forall o, In o (hf_padding_offsets (hf t)) -> block' !!! o = 160)
    /\ (forall i, ~ header_field t i -> block' !!! i = block !!! i)
    /\ (Forall is_byte block -> Forall is_byte name ->
        is_byte (fst (h_first_directory h)) -> is_byte (snd (h_first_directory h)) ->
        is_byte (h_disk_format_type h) -> is_byte (fst (h_disk_id h)) ->
        is_byte (snd (h_disk_id h)) -> is_byte (h_directory_dos_version h) ->
        is_byte (h_directory_format_type h) -> Forall is_byte block').
Proof.
  intros Hlen Hname. pose proof (length_write_padding _ _ _ _ Hname) as Hnl.
  unfold header_render. rewrite Hname. unfold DISK_NAME_SIZE in Hnl.
  eexists. split; [reflexivity|].
  destruct t; cbn [hf header_fmt native_format d64_format d71_format d81_format
    d64_header d71_header d81_header hf_first_directory_offset hf_disk_format_type_offset
    hf_disk_name_offset hf_disk_id_offset hf_directory_dos_version_offset
    hf_directory_format_type_offset hf_padding_offsets hf_double_sided_flag_expectation].
  all: repeat name_splice.
  all: match goal with |- context [fold_left ?f ?os ?b] =>
         assert (Forall (fun o => o < length b) os) as Hos
           by (repeat (apply List.Forall_cons; [lia|]); apply List.Forall_nil);
         pose proof (fold_pad_length os b Hos) as Hfl;
         pose proof (fun i => fold_pad_lookup os b i Hos) as Hfi;
         pose proof (fold_pad_bytes os b) as Hfb;
         set (block' := fold_left f os b) in *; clearbody block'
       end.
  all: split; [lia|].
  all: repeat match goal with |- _ /\ _ => split end.
  all: try (byte_at Hnl; reflexivity).
  all: try (intros Hd; first [discriminate Hd | byte_at Hnl; reflexivity]).
  all: try (apply list_eq_total; rewrite length_slice by lia; [lia|];
            intros i Hi'; rewrite lookup_total_slice by lia;
            byte_at Hnl; f_equal; lia).
  all: try (intros o Ho; rewrite Hfi; by rewrite decide_True by (by apply elem_of_list_In)).
  all: try (intros i Hi'; unfold header_field in Hi'; byte_at Hnl; reflexivity).
  all: intros; apply Hfb;
    repeat match goal with Hb : _ -> _ -> Forall is_byte ?b |- Forall is_byte ?b => apply Hb; clear Hb end;
    try done; repeat (apply List.Forall_cons; [first [done | unfold is_byte; lia]|]);
    apply List.Forall_nil.
Qed.

Lemma header_slice_kept t (block block' : list nat) o n :
  length block = 256 -> length block' = 256 -> o + n <= 256 ->
  (forall i, ~ header_field t i -> block' !!! i = block !!! i) ->
  (forall i, o <= i < o + n -> ~ header_field t i) ->
  slice o n block' = slice o n block.
Proof.
  intros Hl Hl' Ho Hk Hf. apply list_eq_total; rewrite !length_slice by lia; [done|].
  intros i Hi. rewrite !lookup_total_slice by done. apply Hk, Hf. lia.
Qed.

Lemma geos_header_kept t (block block' : list nat) :
  length block = 256 -> length block' = 256 ->
  (forall i, ~ header_field t i -> block' !!! i = block !!! i) ->
  geos_header_new block' = geos_header_new block.
Proof.
  intros Hl Hl' Hk.
  assert (forall i, 171 <= i < 256 -> ~ header_field t i) as Hf
    by (intros i Hi; destruct t; simpl; lia).
  unfold geos_header_new, geos_signature_offset, geos_id_offset, geos_id_size, geos_border_offset.
  rewrite (header_slice_kept t block block' 173 (length geos_signature))
    by (try done; simpl; try lia; intros; apply Hf; simpl in *; lia).
  rewrite (header_slice_kept t block block' 173 16)
    by (try done; simpl; try lia; intros; apply Hf; lia).
  rewrite !Hk by (apply Hf; lia). done.
Qed.

(** ** Writing and reading the header *)

Lemma header_location_valid t g :
  In g (allowed_geometries t) -> valid_loc g (hf_location (hf t)) = true.
Proof.
  intros Hg. assert (forallb (fun g => valid_loc g (hf_location (hf t))) (allowed_geometries t) = true)
    as H by (destruct t; vm_compute; reflexivity).
  rewrite forallb_forall in H. by apply H.
Qed.

Lemma header_read_block t d block :
  sector d (hf_location (hf t)) = Ok block -> (t = D71 -> block !!! 3 = 128) ->
  header_read d (hf t) =
    Ok (mk_header (block !!! 0, block !!! 1) (block !!! 2)
          (slice (hf_disk_name_offset (hf t)) 16 block)
          (block !!! hf_disk_id_offset (hf t), block !!! (hf_disk_id_offset (hf t) + 1))
          (block !!! hf_directory_dos_version_offset (hf t))
          (block !!! hf_directory_format_type_offset (hf t))
          (geos_header_new block)).
Proof.
  intros Hs Hd. unfold header_read. rewrite Hs.
  destruct t; cbn -[slice geos_header_new lookup_total]; try done.
  rewrite Hd by done. done.
Qed.

Lemma slice_snoc (l : list nat) o n :
  o + n < length l -> slice o (S n) l = slice o n l ++ [l !!! (o + n)].
Proof.
  intros H. apply list_eq_total.
  - rewrite app_length, !length_slice by lia. simpl. lia.
  - rewrite length_slice by lia. intros i Hi. rewrite lookup_total_slice by lia.
    destruct (decide (i < n)).
    + rewrite lookup_total_app_l by (rewrite length_slice; lia).
      by rewrite lookup_total_slice by lia.
    + rewrite lookup_total_app_r by (rewrite length_slice; lia).
      rewrite length_slice by lia. replace i with n by lia. by rewrite Nat.sub_diag.
Qed.

Lemma padded_roundtrip' s :
  length s <= 16 ->
  exists name, write_bytes_with_padding s 16 PADDING_BYTE = Some name /\ length name = 16
    /\ name = s ++ repeat 160 (16 - length s).
Proof.
  intros Hn. unfold write_bytes_with_padding.
  destruct (Nat.ltb_spec 16 (length s)); [lia|]. eexists. split; [done|]. split; [|done].
  rewrite app_length, repeat_length. lia.
Qed.

Lemma header_render_layout t h block block' :
  length block = 256 -> header_render h (hf t) block = Ok block' ->
  length (h_disk_name h) <= 16 ->
  let '(o, v) := header_tail t h in slice o (length v) block' = v.
Proof.
  intros Hlen Hr Hn.
  destruct (padded_roundtrip' (h_disk_name h) Hn) as (name & Hname & Hnl & Hv).
  destruct (header_render_spec t h block name Hlen Hname)
    as (b & Hb & Hl & H0 & H1 & H2 & H3 & Hsl & Hi1 & Hi2 & Hdv & Hft & Hpad & _).
  rewrite Hr in Hb. apply Ok_inj in Hb. subst b. unfold header_tail. rewrite <- Hv.
  destruct t; cbn [hf header_fmt native_format d64_format d71_format d81_format
    d64_header d71_header d81_header hf_first_directory_offset hf_disk_format_type_offset
    hf_disk_name_offset hf_disk_id_offset hf_directory_dos_version_offset
    hf_directory_format_type_offset hf_padding_offsets hf_double_sided_flag_expectation Nat.add] in *;
  rewrite !app_length, Hnl; cbn [length Nat.add];
  first [do 11 (rewrite slice_snoc by lia); rewrite Hsl | do 9 (rewrite slice_snoc by lia); rewrite Hsl];
  rewrite <- !app_assoc; cbn [app Nat.add];
  rewrite ?Hi1, ?Hi2, ?Hdv, ?Hft; rewrite !Hpad by (simpl; tauto); reflexivity.
Qed.
