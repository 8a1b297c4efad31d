(** No call changes the size or the layout of the image, or stores anything but
    bytes in it, whatever the image holds. *)
From Verif Require Import Base ListFacts Layout Block Bam Format Petscii GeosTypes DirEntry Header World Chain Directory Writer Rel GeosFile
  File Validate Spec SpecCodec SpecChain SpecBam SpecFiles GeomFacts DevFacts CodecProofs EntryProofs BamProofs ChainProofs AllocProofs AllocAny
  View Dirs SpecValidate Opening OpenSound Session SpecDisk RelProofs SectorProofs AnyDir Robust RobustOps.

(** [m] keeps [I], and its value has [Q]. *)
Definition value_in {A} (Q : A -> Prop) (r : res A) : Prop := match r with Ok a => Q a | _ => True end.
Definition keep {S A} (I : S -> Prop) (m : st S A) (Q : A -> Prop) : Prop :=
  forall s, I s -> I (fst (m s)) /\ value_in Q (snd (m s)).

Lemma keep_bind {S A B} (I : S -> Prop) (m : st S A) (f : A -> st S B) Q R :
  keep I m Q -> (forall a, Q a -> keep I (f a) R) -> keep I (sbind m f) R.
Proof.
  intros Hm Hf s Hs. destruct (Hm s Hs) as [H1 H2]. unfold sbind. destruct (m s) as [s' [a| | |]]; cbn [fst snd value_in] in *; try done.
  by apply Hf.
Qed.
Lemma keep_seq {S A B} (I : S -> Prop) (m : st S A) (f : st S B) Q R :
  keep I m Q -> keep I f R -> keep I (sbind m (fun _ => f)) R.
Proof. intros Hm Hf. eapply keep_bind; [exact Hm|]. by intros _ _. Qed.
Lemma keep_ret {S A} (I : S -> Prop) (a : A) (Q : A -> Prop) : Q a -> keep I (ret a) Q. Proof. by intros H s. Qed.
Lemma keep_fail {S A} (I : S -> Prop) e Q : keep I (fail (A := A) e) Q. Proof. by intros s. Qed.
Lemma keep_panic {S A} (I : S -> Prop) Q : keep I (panic (A := A)) Q. Proof. by intros s. Qed.
Lemma keep_lift {S A} (I : S -> Prop) (r : res A) (Q : A -> Prop) : value_in Q r -> keep I (lift r) Q. Proof. by intros H s. Qed.
Lemma keep_asks {S A} (I : S -> Prop) (f : S -> res A) Q : (forall s, I s -> value_in Q (f s)) -> keep I (asks f) Q.
Proof. intros H s Hs. split; [done|by apply H]. Qed.
Lemma keep_gets {S A} (I : S -> Prop) (f : S -> A) (Q : A -> Prop) : (forall s, I s -> Q (f s)) -> keep I (gets f) Q.
Proof. intros H s Hs. split; [done|by apply H]. Qed.
Lemma keep_modify {S} (I : S -> Prop) (f : S -> S) : (forall s, I s -> I (f s)) -> keep I (modify f) (fun _ => True).
Proof. intros H s Hs. split; [by apply H|done]. Qed.
Lemma keep_for {S X} (I : S -> Prop) (body : X -> st S unit) xs :
  (forall x, In x xs -> keep I (body x) (fun _ => True)) -> keep I (for_each body xs) (fun _ => True).
Proof.
  induction xs as [|x xs IH]; intros H; [by apply keep_ret|]. cbn [for_each]. eapply keep_seq; [by apply H; left|].
  apply IH. intros y Hy. apply H. by right.
Qed.
Lemma keep_weaken {S A} (I : S -> Prop) (m : st S A) (Q R : A -> Prop) : keep I m Q -> (forall a, Q a -> R a) -> keep I m R.
Proof. intros H HQ s Hs. destruct (H s Hs) as [H1 H2]. split; [done|]. destruct (snd (m s)); cbn in *; auto. Qed.
Lemma value_any {A} (r : res A) : value_in (fun _ => True) r. Proof. by destruct r. Qed.

(** ** What is kept *)

Definition block_ok (b : list nat) : Prop := length b = 256 /\ Forall is_byte b.
Definition loc_ok (l : location) : Prop := fst l < 256 /\ snd l < 256.

Record dev_kept (t : disk_type) (d0 d : dev) : Prop := {
  kp_shape : dev_shape t d;
  kp_bytes : holds_bytes d;
  kp_geom : d_geom d = d_geom d0;
  kp_etable : d_etable d = d_etable d0;
  kp_writable : d_writable d = d_writable d0
}.

Definition extra_ok (x : extra) : Prop :=
  match x with
  | XLinear u => Forall is_byte u
  | XRelative side _ u => loc_ok side /\ Forall is_byte u
  | XGEOS info s ft y mo da ho mi => loc_ok info /\ Forall is_byte [structure_to_byte s; geos_type_to_byte ft; y; mo; da; ho; mi]
  end.
Record entry_ok (e : dirent) : Prop := {
  eo_type : type_to_byte (fa_type (de_attr e)) < 256;
  eo_first : loc_ok (de_first e);
  eo_name : Forall is_byte (de_name e);
  eo_extra : extra_ok (de_extra e);
  eo_size : de_size e < N.to_nat 65536
}.

Definition cell_ok (t : disk_type) (b : bam) : Prop :=
  (exists ge, b_format b = set_geos ge (native_format t)) /\ Forall (fun e => e_free e < 256) (b_entries b).
Definition header_ok (h : header) : Prop :=
  loc_ok (h_first_directory h) /\ Forall is_byte (h_disk_name h) /\ loc_ok (h_disk_id h)
  /\ Forall is_byte [h_disk_format_type h; h_directory_dos_version h; h_directory_format_type h].

Record world_kept (t : disk_type) (d0 : dev) (w : world) : Prop := {
  wk_type : w_type w = t;
  wk_dev : dev_kept t d0 (w_dev w);
  wk_cells : Forall (cell_ok t) (w_cells w);
  wk_header : forall h, w_header w = Some h -> header_ok h
}.
Definition writer_ok (k : writer) : Prop := entry_ok (cw_entry k) /\ block_ok (cw_block k).

Ltac bytes := repeat match goal with
  | |- Forall is_byte (splice _ _ _) => apply forall_bytes_splice
  | |- Forall is_byte (slice _ _ _) => apply forall_bytes_slice
  | |- Forall is_byte (repeat _ _) => apply forall_bytes_repeat
  | |- Forall is_byte (_ :: _) => apply Forall_cons_2
  | |- Forall is_byte [] => apply Forall_nil_2
  | |- is_byte (_ !!! _) => apply bytes_lookup_total
  | |- is_byte _ => unfold is_byte; (done || lia)
  | |- Forall is_byte _ => assumption
  end.

Lemma or_byte b mask : b < 256 -> mask < 256 -> byte_or b mask < 256.
Proof.
  intros Hb Hm. unfold byte_or. destruct (decide (N.lor (N.of_nat b) (N.of_nat mask) = 0%N)) as [->|Hne]; [cbn; lia|].
  assert (N.lor (N.of_nat b) (N.of_nat mask) < 2 ^ 8)%N; [|lia]. apply N.log2_lt_pow2; [lia|]. rewrite N.log2_lor.
  apply N.max_lub_lt.
  - destruct (decide (b = 0)) as [->|]; [done|]. apply N.log2_lt_pow2; lia.
  - destruct (decide (mask = 0)) as [->|]; [done|]. apply N.log2_lt_pow2; lia.
Qed.
Lemma and_byte b mask : mask < 256 -> byte_and b mask < 256.
Proof.
  intros Hm. unfold byte_and. assert (N.land (N.of_nat b) (N.of_nat mask) <= N.of_nat mask)%N; [|lia].
  apply N.ldiff_le, N.bits_inj_0. intros n. rewrite N.ldiff_spec, N.land_spec. by destruct (N.testbit (N.of_nat b) n), (N.testbit (N.of_nat mask) n).
Qed.
Lemma attr_byte a : type_to_byte (fa_type a) < 256 -> attr_to_byte a < 256.
Proof.
  intros H. unfold attr_to_byte. set (b0 := type_to_byte _) in *. clearbody b0.
  assert (forall (c : bool) b m, b < 256 -> m < 256 -> (if c then byte_or b m else b) < 256) as Hi by (intros [] b m ? ?; [by apply or_byte|done]).
  repeat apply Hi; try lia; done.
Qed.
Lemma attr_type_ok b : b < 256 -> type_to_byte (fa_type (attr_from_byte b)) < 256.
Proof.
  intros Hb. unfold attr_from_byte. cbn [fa_type]. pose proof (and_byte b 15 ltac:(lia)) as H. revert H. generalize (byte_and b 15). intros n Hn.
  do 5 (destruct n as [|n]; [cbn; lia|]). cbn [type_to_byte]. done.
Qed.

Lemma extra_from_ok s x : length x = 9 -> Forall is_byte x -> extra_ok (extra_from_bytes s x).
Proof.
  intros Hl Hx. destruct s; cbn [extra_from_bytes extra_ok]; try done.
  - split; [split; cbn; by apply bytes_lookup_total|by apply forall_bytes_slice].
  - rewrite structure_roundtrip, geos_type_roundtrip. split; [split; cbn; by apply bytes_lookup_total|]. bytes.
  - rewrite structure_roundtrip, geos_type_roundtrip. split; [split; cbn; by apply bytes_lookup_total|]. bytes.
Qed.
Lemma parse_ok bs pos e : Forall is_byte bs -> dirent_parse bs pos = Ok e -> entry_ok e.
Proof.
  intros Hb. unfold dirent_parse. destruct (Nat.eqb_spec (length bs) ENTRY_SIZE) as [Hl|]; [|done]. cbn [negb]. intros H%Ok_inj. subst e.
  change ENTRY_SIZE with 32 in Hl.
  split; cbn [de_attr de_first de_name de_extra de_size].
  - by apply attr_type_ok, bytes_lookup_total.
  - split; by apply bytes_lookup_total.
  - unfold from_padded_bytes. apply Forall_take. by apply forall_bytes_slice.
  - apply extra_from_ok; [rewrite length_slice; unfold ENTRY_EXTRA_OFFSET, EXTRA_SIZE; [done|lia]|by apply forall_bytes_slice].
  - pose proof (bytes_lookup_total bs (ENTRY_FILE_SIZE_OFFSET + 1) Hb). pose proof (bytes_lookup_total bs ENTRY_FILE_SIZE_OFFSET Hb). lia.
Qed.
Lemma extra_to_ok x bs y : length bs = 9 -> Forall is_byte bs -> extra_ok x -> extra_to_bytes x bs = Ok y -> length y = 9 /\ Forall is_byte y.
Proof.
  intros Hl Hb Hx. destruct x as [u|side len u|]; cbn [extra_ok extra_to_bytes] in *.
  - change EXTRA_SIZE with 9. destruct (Nat.eqb_spec (length u) 9); [|done]. intros H%Ok_inj. by subst y.
  - destruct (Nat.eqb_spec (length u) 6) as [H6|]; [|done]. intros H%Ok_inj. subst y. destruct Hx as [[H1 H2] Hu]. split.
    + rewrite !length_splice; rewrite ?length_splice; cbn [length]; lia.
    + bytes.
  - intros H%Ok_inj. subst y. destruct Hx as [[H1 H2] Hx]. split; [done|]. apply Forall_cons_2; [done|]. by apply Forall_cons_2.
Qed.
Lemma to_bytes_ok e bs y : length bs = 32 -> Forall is_byte bs -> entry_ok e -> dirent_to_bytes e bs = Ok y -> length y = 32 /\ Forall is_byte y.
Proof.
  intros Hl Hb [H1 [H2 H3] H4 H5 H6] E. unfold dirent_to_bytes in E. rewrite Hl in E. cbn [ENTRY_SIZE Nat.eqb negb] in E.
  destruct (write_bytes_with_padding (de_name e) ENTRY_FILENAME_LENGTH PADDING_BYTE) as [name|] eqn:En; [|done].
  pose proof (length_write_padding _ _ _ _ En) as Hln. change ENTRY_FILENAME_LENGTH with 16 in Hln.
  assert (Forall is_byte name) as Hname.
  { unfold write_bytes_with_padding in En. destruct (_ <? _); [done|]. injection En as <-. apply Forall_app; split; [done|]. apply forall_bytes_repeat.
    unfold PADDING_BYTE, is_byte. lia. }
  set (b1 := splice ENTRY_FILE_ATTRIBUTE_OFFSET [attr_to_byte (de_attr e)] bs) in E.
  assert (block1 : length b1 = 32 /\ Forall is_byte b1).
  { split; [unfold b1; rewrite length_splice; cbn; lia|]. unfold b1. pose proof (attr_byte _ H1). bytes. }
  destruct block1 as [L1 B1]. set (b2 := splice ENTRY_FIRST_SECTOR_OFFSET _ b1) in E.
  assert (block2 : length b2 = 32 /\ Forall is_byte b2).
  { split; [unfold b2; rewrite length_splice; cbn; lia|]. unfold b2. bytes. }
  destruct block2 as [L2 B2]. set (b3 := splice ENTRY_FILENAME_OFFSET name b2) in E.
  assert (block3 : length b3 = 32 /\ Forall is_byte b3).
  { split; [unfold b3; rewrite length_splice; rewrite ?Hln; cbn; lia|]. unfold b3. bytes. }
  destruct block3 as [L3 B3].
  destruct (extra_to_bytes (de_extra e) (slice ENTRY_EXTRA_OFFSET EXTRA_SIZE b3)) as [x| | |] eqn:Ex; [|done..]. cbn [rbind] in E. apply Ok_inj in E. subst y.
  assert (length (slice ENTRY_EXTRA_OFFSET EXTRA_SIZE b3) = 9) as L9 by (rewrite length_slice; unfold ENTRY_EXTRA_OFFSET, EXTRA_SIZE; [done|lia]).
  destruct (extra_to_ok _ _ _ L9 (forall_bytes_slice _ _ _ B3) H5 Ex) as [Lx Bx].
  assert (de_size e / 256 < 256 /\ de_size e mod 256 < 256) as [D1 D2].
  { split; [apply Nat.div_lt_upper_bound; lia|apply Nat.mod_upper_bound; lia]. }
  split.
  - rewrite length_splice; rewrite length_splice; cbn; lia.
  - bytes.
Qed.

Lemma on_disk_byte t g l : In g (allowed_geometries t) -> on_disk t (g_tracks g) l -> fst l < 256 /\ snd l < 256.
Proof.
  intros Hg [H1 H2]. assert (g_tracks g <= 80) by (clear - Hg; destruct t; cbn in Hg; repeat destruct Hg as [<-|Hg]; cbn; try lia; done).
  split; [lia|]. assert (spec_sectors t (fst l) <= 40); [|lia]. destruct t; cbn; unfold zone; repeat case_match; lia.
Qed.

Section kept.
  Context (t : disk_type) (d0 : dev).
  Notation dk := (dev_kept t d0).

  Lemma kept_sector l : keep dk (asks (fun d => sector d l)) block_ok.
  Proof.
    apply keep_asks. intros d H. destruct (sector_cases t d l (kp_shape _ _ _ H)) as [(b & Hb & Hl & _)|[-> _]]; [|done]. rewrite Hb.
    split; [done|]. by apply (sector_bytes d l b (kp_bytes _ _ _ H)).
  Qed.
  Lemma kept_mut l f : (forall b, block_ok b -> block_ok (f b)) -> keep dk (sector_mut l f) (fun _ => loc_ok l).
  Proof.
    intros Hf d H. pose proof (kp_shape _ _ _ H) as Hd. destruct (d_writable d) eqn:Hw; [|rewrite sector_mut_ro by done; done].
    destruct (sector_cases t d l Hd) as [(b & Hb & Hl & Hv)|[_ Hv]].
    - rewrite (sector_mut_upd d l f b Hw Hb). cbn [fst snd value_in].
      assert (block_ok (f b)) as [F1 F2]. { apply Hf. split; [done|]. by apply (sector_bytes d l b (kp_bytes _ _ _ H)). }
      split; [|].
      + destruct H as [H1 H2 H3 H4 H5]. split; cbn [upd d_geom d_etable d_writable]; try done; [by apply upd_shape|].
        unfold holds_bytes, upd. cbn [d_blocks]. apply Forall_insert; done.
      + apply (valid_loc_on_disk t) in Hv as [V1 V2]; [|apply Hd]. destruct (on_disk_byte t (d_geom d) l (ds_geom _ _ Hd) (conj V1 V2)). done.
    - rewrite (sector_mut_invalid t) by done. done.
  Qed.

  Lemma splice_ok o x b : block_ok b -> Forall is_byte x -> o + length x <= 256 -> block_ok (splice o x b).
  Proof. intros [H1 H2] Hx Ho. split; [rewrite length_splice; lia|by apply forall_bytes_splice]. Qed.
  Lemma pad_ok os b : Forall (fun o => o < 256) os -> block_ok b -> block_ok (fold_left (fun b o => splice o [PADDING_BYTE] b) os b).
  Proof.
    revert b. induction os as [|o os IH]; intros b Ho Hb; cbn [fold_left]; [done|]. apply Forall_cons in Ho as [H1 H2].
    apply IH; [done|]. apply splice_ok; [done| |cbn; lia]. apply Forall_cons_2; [|by apply Forall_nil_2]. unfold PADDING_BYTE, is_byte. lia.
  Qed.

  Lemma fold_ok (f : nat -> list nat) off stride size n b :
    (forall i, length (f i) = size /\ Forall is_byte (f i)) -> (0 < n -> off + (n - 1) * stride + size <= 256) ->
    block_ok b -> block_ok (fold_left (fun b i => splice (off + i * stride) (f i) b) (seq 0 n) b).
  Proof.
    intros Hf Hn. assert (forall is b, Forall (fun i => off + i * stride + size <= 256) is ->
      block_ok b -> block_ok (fold_left (fun b i => splice (off + i * stride) (f i) b) is b)) as H.
    { induction is as [|i is IH]; intros x Hi Hx; cbn [fold_left]; [done|]. apply Forall_cons in Hi as [H1 H2]. apply IH; [done|].
      destruct (Hf i) as [F1 F2]. apply splice_ok; [done|done|lia]. }
    apply H. apply Forall_forall. intros i Hi%elem_of_seq. assert (i * stride <= (n - 1) * stride) by (apply Nat.mul_le_mono_r; lia). lia.
  Qed.
  Lemma bitmap_ok n m : length (bitmap_bytes n m) = n /\ Forall is_byte (bitmap_bytes n m).
  Proof.
    revert m. induction n as [|n IH]; intros m; cbn [bitmap_bytes]; [split; [done|by apply Forall_nil_2]|]. destruct (IH (N.shiftr m 8)) as [H1 H2].
    split; [cbn [length]; by rewrite H1|]. apply Forall_cons_2; [|done]. unfold is_byte. change 255%N with (N.ones 8). rewrite N.land_ones.
    assert (m mod 2 ^ 8 < 2 ^ 8)%N by (apply N.mod_lt; done). change (2 ^ 8)%N with 256%N in *. lia.
  Qed.
  Lemma entry_free_ok es i : Forall (fun e => e_free e < 256) es -> e_free (es !!! i) < 256.
  Proof.
    intros H. destruct (decide (i < length es)).
    - by apply (Forall_lookup_total_1 (fun e => e_free e < 256)).
    - rewrite list_lookup_total_alt, lookup_ge_None_2 by lia. cbn. lia.
  Qed.

  Lemma kept_flush b : cell_ok t b -> keep dk (bam_flush b) (fun _ => True).
  Proof.
    intros [[ge Hf] He]. unfold bam_flush. eapply keep_seq with (Q := fun _ => True); [apply keep_lift, value_any|].
    rewrite Hf. change (bam_sections (set_geos ge (native_format t))) with (bam_sections (native_format t)).
    pose proof (sections_ok t) as Hok. generalize 0 as prev. induction Hok as [|s ss Hs Hok IH]; intros prev; cbn [bam_write_sections]; [by apply keep_ret|].
    eapply keep_seq with (Q := fun _ => True); [|apply IH]. unfold bam_write_section.
    eapply keep_bind; [apply kept_sector|]. intros block Hbl. destruct (_ <? _); [apply keep_panic|].
    assert (forall x, block_ok x -> block_ok (render_bitmaps s prev (b_entries b) x)) as Hrb.
    { intros x Hx. apply fold_ok with (size := bs_bitmap_size s) (f := fun i => bitmap_bytes (bs_bitmap_size s) (e_map (b_entries b !!! (prev + i)))); [intros i; apply bitmap_ok| |done].
      intros Hpos. destruct Hs as [[? ?] ? Hb _ _ _]. rewrite Nat.mul_sub_distr_r. nia. }
    assert (forall x, block_ok x -> block_ok (render_counts s prev (b_entries b) x)) as Hrc.
    { intros x Hx. apply fold_ok with (size := 1) (f := fun i => [e_free (b_entries b !!! (prev + i))]); [| |done].
      2: { intros Hpos. destruct Hs as [_ ? _ Hc _ _]. rewrite Nat.mul_sub_distr_r. nia. }
      intros i. split; [done|]. apply Forall_cons_2; [by apply entry_free_ok|by apply Forall_nil_2]. }
    eapply keep_bind with (Q := block_ok).
    - destruct (decide _); [apply keep_ret; by apply Hrb|]. eapply keep_seq; [apply kept_mut|apply kept_sector]. intros _ _. by apply Hrb.
    - intros x Hx. eapply keep_weaken; [apply kept_mut|done]. intros _ _. by apply Hrc.
  Qed.

  Lemma kept_positioned e : entry_ok e -> keep dk (positioned_write e) (fun _ => True).
  Proof.
    intros He d Hk. unfold positioned_write. destruct (de_pos e) as [p|]; [|done].
    destruct (let? _ := check_writability d in _) as [bytes| | |] eqn:E; [|done..].
    unfold check_writability in E. destruct (d_writable d); [|done]. cbn [rbind] in E.
    destruct (sector d (p_loc p)) as [b| | |] eqn:Eb; [|done..]. cbn [rbind] in E.
    destruct (Nat.ltb_spec (length b) (p_off p + p_size p)) as [|Hle]; [done|].
    pose proof (sector_bytes d _ b (kp_bytes _ _ _ Hk) Eb) as Hby. pose proof (sector_Ok_length t d _ b (kp_shape _ _ _ Hk) Eb) as Hl.
    assert (p_size p = 32) as H32.
    { unfold dirent_to_bytes in E. rewrite length_slice in E by done. change ENTRY_SIZE with 32 in E. by destruct (Nat.eqb_spec (p_size p) 32). }
    destruct (to_bytes_ok e _ _ ltac:(rewrite length_slice by done; exact H32) (forall_bytes_slice _ _ _ Hby) He E) as [L B].
    destruct (kept_mut (p_loc p) (splice (p_off p) bytes)) with (s := d) as [K1 K2]; [|done|].
    - intros x Hx. apply splice_ok; [done|done|lia].
    - split; [done|]. by destruct (snd _).
  Qed.

  Lemma kept_header h : header_ok h -> keep dk (header_write h (header_fmt (native_format t))) (fun _ => True).
  Proof.
    intros ((H1 & H2) & H3 & (H4 & H5) & H6). apply Forall_cons in H6 as [H6 H7]. apply Forall_cons in H7 as [H7 H8]. apply Forall_cons in H8 as [H8 _].
    unfold header_write. eapply keep_bind; [apply kept_sector|]. intros b Hb. eapply keep_bind with (Q := block_ok).
    - apply keep_lift. unfold header_render. destruct (write_bytes_with_padding (h_disk_name h) DISK_NAME_SIZE PADDING_BYTE) as [name|] eqn:En; [|done].
      pose proof (length_write_padding _ _ _ _ En) as Hln. change DISK_NAME_SIZE with 16 in Hln.
      assert (Forall is_byte name) as Hname.
      { unfold write_bytes_with_padding in En. destruct (_ <? _); [done|]. injection En as <-. apply Forall_app; split; [done|]. apply forall_bytes_repeat.
        unfold PADDING_BYTE, is_byte. lia. }
      cbn [value_in]. apply pad_ok; [destruct t; cbn; repeat apply Forall_cons_2; try lia; apply Forall_nil_2|].
      assert (forall x, block_ok x -> block_ok (match hf_double_sided_flag_expectation (header_fmt (native_format t)) with
          | Some (offset, value) => splice offset [value] x | None => x end)) as Hds.
      { intros x Hx. destruct t; cbn; try done. apply splice_ok; [done|bytes|cbn; lia]. }
      apply Hds.
      repeat (apply splice_ok; [|first [exact Hname|bytes]|rewrite ?Hln; destruct t; cbn; lia]). done.
    - intros x Hx. eapply keep_weaken; [by apply kept_mut|done].
  Qed.

  (** ** The world *)
  Notation wk := (world_kept t d0).

  Lemma keep_dev {A} (m : st dev A) Q : keep dk m Q -> keep wk (on_dev m) Q.
  Proof.
    intros H w [H1 H2 H3 H4]. unfold on_dev, zoom. destruct (H (w_dev w) H2) as (A1 & A2). destruct (m (w_dev w)) as [d r]. cbn [fst snd] in *.
    split; [|done]. by split.
  Qed.
  Lemma kept_cell c : keep wk (asks (fun w => cell w c)) (cell_ok t).
  Proof. apply keep_asks. intros w H. unfold cell. destruct (w_cells w !! c) eqn:E; [|done]. by apply (Forall_lookup_1 _ _ _ _ (wk_cells _ _ _ H) E). Qed.
  Lemma set_cell_kept c b w : cell_ok t b -> wk w -> wk (set_cell c b w).
  Proof. intros Hb [H1 H2 H3 H4]. split; try done. cbn [w_cells set_cell]. by apply Forall_insert. Qed.
  Lemma kept_update c f : (forall b, cell_ok t b -> value_in (cell_ok t) (f b)) -> keep wk (update_cell c f) (fun _ => True).
  Proof.
    intros Hf. unfold update_cell. eapply keep_bind; [apply kept_cell|]. intros b Hb. eapply keep_bind; [apply keep_lift, Hf, Hb|].
    intros b' Hb'. apply keep_modify. intros w. by apply set_cell_kept.
  Qed.
  Lemma kept_flush_cell c : keep wk (flush_cell c) (fun _ => True).
  Proof. unfold flush_cell. eapply keep_bind; [apply kept_cell|]. intros b Hb. by apply keep_dev, kept_flush. Qed.

  Lemma count_bits_le n m : count_bits n m <= n.
  Proof. revert m. induction n as [|n IH]; intros m; cbn [count_bits]; [done|]. specialize (IH (N.shiftr m 1)). destruct (N.testbit m 0); lia. Qed.
  Lemma update_ok b l f : (forall e s, value_in (fun e' => e_free e' < 256) (f e s)) -> cell_ok t b -> value_in (cell_ok t) (bam_update b l f).
  Proof.
    intros Hf [H1 H2]. unfold bam_update. destruct (check_validity b); [|done..]. cbn [rbind]. destruct (bam_entry_at b (fst l)) as [e| | |]; [|done..]. cbn [rbind].
    specialize (Hf e (snd l)). destruct (f e (snd l)) as [e'| | |]; [|done..]. cbn [rbind value_in] in *. split; [done|]. cbn [b_entries]. by apply Forall_insert.
  Qed.
  Lemma allocate_ok b l : cell_ok t b -> value_in (cell_ok t) (bam_allocate b l).
  Proof. apply update_ok. intros e s. unfold entry_allocate. destruct (_ <? _); [|done]. cbn [value_in update_free_sectors e_free]. match goal with |- count_bits ?n ?m < _ => pose proof (count_bits_le n m) end. lia. Qed.
  Lemma release_ok b l : cell_ok t b -> value_in (cell_ok t) (bam_free b l).
  Proof. apply update_ok. intros e s. unfold entry_release. destruct (_ <? _); [|done]. cbn [value_in update_free_sectors e_free]. match goal with |- count_bits ?n ?m < _ => pose proof (count_bits_le n m) end. lia. Qed.
  Lemma kept_allocate c l : keep wk (update_cell c (fun b => bam_allocate b l)) (fun _ => True).
  Proof. apply kept_update. intros b. apply allocate_ok. Qed.
  Lemma kept_release c l : keep wk (update_cell c (fun b => bam_free b l)) (fun _ => True).
  Proof. apply kept_update. intros b. apply release_ok. Qed.

  Lemma kept_remove c s : keep wk (remove_chain c s) (fun _ => True).
  Proof.
    unfold remove_chain. eapply keep_bind with (Q := fun _ => True); [apply keep_asks; intros; apply value_any|]. intros ls _.
    eapply keep_seq; [|apply kept_flush_cell]. apply keep_for. intros l _. apply kept_release.
  Qed.
  Lemma deleted_ok e : entry_ok e -> entry_ok (deleted_entry e).
  Proof. intros [H1 H2 H3 H4 H5]. split; try done. cbn. lia. Qed.
  Lemma kept_delete f : entry_ok (file_entry f) -> keep wk (file_delete f) (fun _ => True).
  Proof.
    intros He. assert (keep wk (on_dev (positioned_write (deleted_entry (file_entry f)))) (fun _ => True)) as Hw.
    { by apply keep_dev, kept_positioned, deleted_ok. }
    assert (forall g : geos_file, keep wk (on_dev (positioned_write (deleted_entry (gf_entry g)))) (fun _ => True) -> keep wk (geos_delete g) (fun _ => True)) as Hg.
    { intros g H. unfold geos_delete. eapply keep_seq; [apply kept_remove|]. eapply keep_bind with (Q := fun _ => True); [apply keep_lift, value_any|].
      intros il _. eapply keep_seq with (Q := fun _ => True); [destruct il; [apply kept_release|by apply keep_ret]|].
      eapply keep_seq with (Q := fun _ => True); [|done]. destruct (gf_vlir g); [|by apply keep_ret]. apply keep_for. intros x _. apply kept_remove. }
    destruct f as [c e|f|f|f]; cbn [file_delete file_entry] in *; [| |by apply Hg..].
    - eapply keep_seq; [apply kept_remove|done].
    - unfold rel_delete. eapply keep_seq; [apply kept_remove|]. eapply keep_seq; [|done]. apply keep_for. intros l _. apply kept_release.
  Qed.

  Lemma asks_any {A} (f : world -> res A) : keep wk (asks f) (fun _ => True).
  Proof. apply keep_asks. intros. apply value_any. Qed.
  Lemma kept_mut_w l f : (forall b, block_ok b -> block_ok (f b)) -> keep wk (on_dev (sector_mut l f)) (fun _ => loc_ok l).
  Proof. intros H. by apply keep_dev, kept_mut. Qed.
  Lemma fresh_ok b : block_ok b -> block_ok (fresh_directory_sector b).
  Proof.
    intros [H1 H2]. unfold fresh_directory_sector. split; [rewrite app_length, repeat_length, H1; done|].
    apply Forall_app; split; [bytes|]. apply forall_bytes_repeat. unfold is_byte. lia.
  Qed.
  Lemma write_loc_ok l b : loc_ok l -> block_ok b -> block_ok (write_loc l b).
  Proof. intros [H1 H2] Hb. apply splice_ok; [done|bytes|cbn; lia]. Qed.


  (** Entries read from the image. *)
  Lemma stored_ok d e l j b : dk d -> stored d e l j b -> entry_ok e.
  Proof.
    intros Hk (Hs & Hj & border & e0 & Hp & -> & _). pose proof (sector_bytes d l b (kp_bytes _ _ _ Hk) Hs) as Hby.
    destruct (parse_ok _ _ _ (forall_bytes_slice _ _ _ Hby) Hp) as [H1 H2 H3 H4 H5]. by split.
  Qed.
  Lemma find_ok w name : wk w -> value_in entry_ok (w_find w name).
  Proof.
    intros H. destruct (w_find w name) as [e| | |] eqn:E; [|done..].
    destruct (find_stored t w name e (kp_shape _ _ _ (wk_dev _ _ _ H)) E) as (_ & _ & l & j & b & Hst). cbn [value_in].
    by apply (stored_ok (w_dev w) e l j b); [apply H|].
  Qed.
  Lemma open_entry_ok w e f : entry_ok e -> wk w -> open_file_from_entry w e = Ok f -> entry_ok (file_entry f).
  Proof.
    intros He H. unfold open_file_from_entry. destruct (w_get_bam w) as [c| | |]; [|done..]. cbn [rbind].
    assert (forall g, geos_new (w_dev w) c e = Ok g -> gf_entry g = e) as Hg.
    { intros g. unfold geos_new. destruct (entry_is_vlir e) as [[]| | |]; try done; cbn [rbind].
      - destruct (sector _ _); [|done..]. intros X%Ok_inj. by subst g.
      - intros X%Ok_inj. by subst g. }
    destruct (de_scheme e).
    - intros X%Ok_inj. by subst f.
    - destruct (rel_new (w_dev w) c e) as [r| | |] eqn:Er; [|done..]. intros X%Ok_inj. subst f.
      destruct (rel_new_parts t _ _ _ _ (kp_shape _ _ _ (wk_dev _ _ _ H)) Er) as (_ & Hr & _). cbn [file_entry]. by rewrite Hr.
    - destruct (geos_new (w_dev w) c e) as [r| | |] eqn:Er; [|done..]. intros X%Ok_inj. subst f. cbn [file_entry]. by rewrite (Hg r eq_refl).
    - destruct (geos_new (w_dev w) c e) as [r| | |] eqn:Er; [|done..]. intros X%Ok_inj. subst f. cbn [file_entry]. by rewrite (Hg r eq_refl).
  Qed.
  Lemma open_ok w name : wk w -> value_in (fun f => entry_ok (file_entry f)) (open_file w name).
  Proof.
    intros H. unfold open_file. pose proof (find_ok w name H) as Hf. destruct (w_find w name) as [e| | |]; [|done..]. cbn [rbind value_in] in *.
    destruct (open_file_from_entry w e) as [f| | |] eqn:E; [|done..]. by eapply open_entry_ok.
  Qed.

  Lemma kept_rename old new : Forall is_byte new -> keep wk (w_rename old new) (fun _ => True).
  Proof.
    intros Hn. unfold w_rename. eapply keep_bind; [apply keep_asks; intros w; apply find_ok|]. intros e [H1 H2 H3 H4 H5].
    eapply keep_seq with (Q := fun _ => True); [apply keep_lift, value_any|]. eapply keep_seq; [apply asks_any|].
    apply keep_dev, kept_positioned. by split.
  Qed.

  Lemma kept_slot : keep wk next_free_directory_entry (fun _ => True).
  Proof.
    unfold next_free_directory_entry. eapply keep_bind; [apply asks_any|]. intros f _. eapply keep_bind; [apply asks_any|]. intros [e|last] _; [by apply keep_ret|].
    eapply keep_bind; [apply asks_any|]. intros c _. eapply keep_bind; [apply asks_any|]. intros new _.
    eapply keep_bind; [apply kept_mut_w, fresh_ok|]. intros [] Hnew. eapply keep_bind; [apply asks_any|]. intros block _.
    eapply keep_bind with (Q := fun _ => True); [apply keep_lift, value_any|]. intros e _. eapply keep_seq; [apply kept_allocate|].
    eapply keep_seq; [apply kept_mut_w; intros b; by apply write_loc_ok|]. by apply keep_ret.
  Qed.

  Lemma kept_create name ft : Forall is_byte name -> type_to_byte ft < 256 -> keep wk (create_file name ft) (fun f => entry_ok (file_entry f)).
  Proof.
    intros Hn Hft. unfold create_file. eapply keep_seq with (Q := fun _ => True); [apply keep_lift, value_any|]. eapply keep_seq; [apply asks_any|].
    eapply keep_bind; [apply kept_slot|]. intros e _. eapply keep_bind; [apply asks_any|]. intros c _. eapply keep_bind; [apply asks_any|]. intros first _.
    eapply keep_seq; [apply kept_allocate|].
    eapply keep_bind; [apply kept_mut_w; intros b Hb; apply splice_ok; [done|bytes|cbn; lia]|]. intros [] Hfirst. cbn zeta.
    match goal with |- context [FLinear c ?x] => set (e' := x) end.
    assert (entry_ok e') as He'.
    { unfold e'. split; cbn; [done|done|done|bytes|lia]. }
    eapply keep_seq with (Q := fun _ => True); [|by apply keep_ret].
    intros w Hw. destruct (keep_dev _ _ (kept_positioned e' He') w Hw) as [K1 K2]. destruct (on_dev (positioned_write e') w) as [w' [u|err| |]]; cbn [fst snd value_in] in *; try done.
    assert (keep wk (do_ (update_cell c (fun b => bam_free b first)) in (fail err : st world unit)) (fun _ => True)) as K.
    { eapply keep_seq; [apply kept_release|apply keep_fail]. }
    by apply K.
  Qed.

  (** ** Writers *)
  Definition ww (s : world * writer) : Prop := wk (fst s) /\ writer_ok (snd s).
  Lemma keep_world {A} (m : st world A) Q : keep wk m Q -> keep ww (on_world m) Q.
  Proof.
    intros H [w k] [H1 H2]. unfold on_world, zoom. destruct (H w H1) as (A1 & A2). cbn [fst]. destruct (m w) as [w' r]. cbn [fst snd] in *. by split.
  Qed.
  Lemma kept_the : keep ww the_writer writer_ok.
  Proof. apply keep_gets. by intros [w k] [_ H]. Qed.
  Lemma kept_on_writer f : (forall k, writer_ok k -> writer_ok (f k)) -> keep ww (on_writer f) (fun _ => True).
  Proof. intros H. apply keep_modify. intros [w k] [H1 H2]. split; [done|by apply H]. Qed.

  Lemma kept_current : keep ww write_current_block (fun _ => True).
  Proof.
    unfold write_current_block. eapply keep_bind; [apply kept_the|]. intros k [_ Hk]. apply keep_world. eapply keep_weaken; [|done]. apply kept_mut_w. done.
  Qed.
  Lemma kept_increment : keep ww increment_entry_blocks (fun _ => True).
  Proof.
    unfold increment_entry_blocks. eapply keep_bind; [apply kept_the|]. intros k Hk.
    eapply keep_bind with (Q := entry_ok).
    { apply keep_world, keep_asks. intros w Hw. unfold positioned_read. destruct (de_pos (cw_entry k)) as [p|]; [|done].
      destruct (sector (w_dev w) (p_loc p)) as [b| | |] eqn:Eb; [|done..]. cbn [rbind]. destruct (_ <? _); [done|].
      destruct (dirent_parse _ _) as [e| | |] eqn:Ep; [|done..]. cbn [value_in]. eapply parse_ok; [|exact Ep]. apply forall_bytes_slice.
      apply (sector_bytes _ _ _ (kp_bytes _ _ _ (wk_dev _ _ _ Hw)) Eb). }
    intros e He. eapply keep_seq; [apply kept_on_writer; intros x [_ Hx]; by split|].
    destruct (Nat.ltb_spec (de_size e + 1) (N.to_nat 65536)) as [Hlt|_].
    2: { eapply keep_bind with (Q := fun _ => False); [by intros s|done]. }
    assert (entry_ok (set_size (de_size e + 1) e)) as He'. { destruct He. by split. }
    eapply keep_seq with (Q := fun _ => True); [by apply keep_lift|]. eapply keep_seq; [apply kept_on_writer; intros x [_ Hx]; by split|].
    by apply keep_world, keep_dev, kept_positioned.
  Qed.
  Lemma kept_next : keep ww allocate_next_block (fun n => n = 254).
  Proof.
    unfold allocate_next_block. eapply keep_seq; [apply kept_current|]. eapply keep_bind; [apply kept_the|]. intros k [Hke Hkb].
    eapply keep_bind; [apply keep_world, asks_any|]. intros next _.
    eapply keep_bind with (Q := block_ok).
    { apply keep_lift. unfold link_to_bytes. destruct (_ <? _); [done|]. destruct (_ && _); [|done]. cbn [value_in]. destruct Hkb as [L B].
      apply splice_ok; [|bytes|cbn; lia]. split; [rewrite app_length, take_length, repeat_length, L; done|].
      apply Forall_app; split; [by apply Forall_take|]. apply forall_bytes_repeat. unfold is_byte. lia. }
    intros fresh Hfresh. eapply keep_seq; [apply kept_on_writer; intros x [Hx _]; by split|].
    eapply keep_bind; [apply keep_world, kept_mut_w; done|]. intros [] Hnext. eapply keep_seq; [apply keep_world, kept_allocate|].
    eapply keep_seq; [apply kept_increment|].
    eapply keep_seq with (Q := fun _ => True).
    - intros s Hs. destruct (keep_world _ _ (kept_mut_w (cw_loc k) (write_loc next) (fun b => write_loc_ok next b Hnext)) s Hs) as [K1 K2].
      destruct (on_world _ s) as [s' [u|err| |]]; cbn [fst snd value_in] in *; try done.
      assert (keep ww (do_ (on_world (update_cell (cw_bam k) (fun b => bam_free b next))) in (fail err : wst unit)) (fun _ => True)) as K.
      { eapply keep_seq; [apply keep_world, kept_release|apply keep_fail]. }
      by apply K.
    - eapply keep_seq; [apply kept_on_writer; intros x [Hx1 Hx2]; by split|]. by apply keep_ret.
  Qed.
  Lemma kept_loop fuel : forall buf, Forall is_byte buf -> keep ww (write_loop fuel buf) (fun _ => True).
  Proof.
    induction fuel as [|fuel IH]; intros buf Hbuf; (destruct buf as [|x buf]; [by apply keep_ret|]); [by intros s|].
    cbn [write_loop]. set (buf' := x :: buf) in *. clearbody buf'. eapply keep_bind; [apply kept_the|]. intros k [Hke Hkb].
    eapply keep_bind with (Q := fun link => match link with Tail n => 2 <= n <= 256 | Next _ => True end).
    { apply keep_lift. unfold link_new. destruct (_ =? 0); [|done]. destruct (Nat.ltb_spec (cw_block k !!! 1) 1); [done|]. cbn [value_in].
      pose proof (bytes_lookup_total (cw_block k) 1 (proj2 Hkb)). lia. }
    intros link Hlink. eapply keep_bind with (Q := fun p => fst p + snd p <= 256).
    { destruct link as [l|n]; [apply keep_panic|]. destruct (_ =? _); [|apply keep_ret; cbn; unfold BLOCK_SIZE; lia].
      eapply keep_bind; [apply kept_next|]. intros r ->. apply keep_ret. done. }
    intros [offset remaining] Hor. cbn [fst snd] in Hor. cbn zeta. eapply keep_bind; [apply kept_the|]. intros k' [_ Hkb'].
    eapply keep_bind with (Q := block_ok).
    { apply keep_lift. unfold link_to_bytes. destruct (_ <? 2); [done|]. destruct (_ && _) eqn:E; [|done]. cbn [value_in].
      apply andb_true_iff in E as [E1%Nat.leb_le E2%Nat.leb_le]. apply splice_ok; [|bytes|cbn; lia].
      apply splice_ok; [done|by apply Forall_take|]. rewrite take_length. lia. }
    intros block Hblock. eapply keep_seq; [apply kept_on_writer; intros y [Hy _]; by split|]. apply IH. by apply Forall_drop.
  Qed.
  Lemma kept_write buf : Forall is_byte buf -> keep ww (writer_write buf) (fun _ => True).
  Proof.
    intros Hb. unfold writer_write. eapply keep_seq; [apply kept_on_writer; intros y [H1 H2]; by split|]. eapply keep_seq; [by apply kept_loop|]. by apply keep_ret.
  Qed.
  Lemma kept_writer_flush : keep ww writer_flush (fun _ => True).
  Proof.
    unfold writer_flush. eapply keep_bind; [apply kept_the|]. intros k Hk. destruct (cw_dirty k); [|by apply keep_ret].
    eapply keep_seq; [apply kept_current|]. eapply keep_seq; [apply keep_world, kept_flush_cell|]. eapply keep_seq with (Q := fun _ => True).
    - apply keep_world, keep_dev, keep_asks. intros d _. apply value_any.
    - apply kept_on_writer. intros y [H1 H2]. by split.
  Qed.
  Lemma kept_drop k w : wk w -> writer_ok k -> wk (writer_drop k w).
  Proof. intros Hw Hk. unfold writer_drop. by destruct (kept_writer_flush (w, k) (conj Hw Hk)) as [[H _] _]. Qed.
  Lemma tail_ok d fuel : forall l b, dk d -> block_ok b -> value_in (fun p => block_ok (snd p)) (tail_loop fuel d l b).
  Proof.
    induction fuel as [|fuel IH]; intros l b Hk Hb; cbn [tail_loop]; [done|].
    destruct (link_new b) as [[l'|n]| | |]; [|done..]. cbn [rbind]. destruct (sector d l') as [b'| | |] eqn:Eb; [|done..]. cbn [rbind]. apply IH; [done|].
    split; [by apply (sector_Ok_length t d _ b' (kp_shape _ _ _ Hk) Eb)|by apply (sector_bytes _ _ _ (kp_bytes _ _ _ Hk) Eb)].
  Qed.
  Lemma kept_file_writer d f : dk d -> entry_ok (file_entry f) -> value_in writer_ok (file_writer d f).
  Proof.
    intros Hk He. destruct f as [c e|f|f|f]; cbn [file_writer file_entry] in *; [|done|unfold geos_writer; by case_match..].
    unfold writer_new, find_tail, find_tail_fuel. destruct (sector d (de_first e)) as [b| | |] eqn:Eb; [|done..]. cbn [rbind].
    assert (block_ok b) as Hb. { split; [by apply (sector_Ok_length t d _ b (kp_shape _ _ _ Hk) Eb)|by apply (sector_bytes _ _ _ (kp_bytes _ _ _ Hk) Eb)]. }
    pose proof (tail_ok d (length (d_blocks d) + 1) (de_first e) b Hk Hb) as H. destruct (tail_loop _ _ _ _) as [[l x]| | |]; [|done..]. by split.
  Qed.

  (** ** Opening and formatting *)
  Lemma initialize_kept w : wk w -> wk (initialize w).
  Proof.
    intros [H1 H2 H3 H4]. unfold initialize, native. rewrite H1. pose proof (kp_shape _ _ _ H2) as Hd. pose proof (kp_bytes _ _ _ H2) as Hby.
    set (h := res_ok (header_read (w_dev w) (header_fmt (native_format t)))).
    assert (forall x, h = Some x -> header_ok x) as Hh.
    { intros x. unfold h, header_read. destruct (sector (w_dev w) _) as [b| | |] eqn:Eb; [|done..]. cbn [rbind].
      pose proof (sector_bytes _ _ _ Hby Eb) as Hb. match goal with |- context [rbind ?y _] => destruct y end; [|done..].
      cbn [rbind res_ok]. intros [= <-]. repeat split; cbn; try (by apply bytes_lookup_total); [by apply forall_bytes_slice|bytes]. }
    assert (forall b f, (f = native_format t \/ f = set_geos true (native_format t)) -> bam_read (w_dev w) (native_format t) = Ok b -> cell_ok t (bam_set_format f b)) as Hb.
    { intros b f Hf Hr. unfold bam_read in Hr. destruct (bam_read_sections _ _) as [es| | |] eqn:Es; [|done..]. apply Ok_inj in Hr. subst b. split.
      - destruct Hf as [->| ->]; [exists false; cbn; by rewrite set_geos_false|by exists true].
      - cbn [bam_set_format b_entries]. revert es Es. generalize (bam_sections (native_format t)). induction l as [|s ss IH]; intros es; cbn [bam_read_sections].
        + intros [= <-]. by apply Forall_nil_2.
        + destruct (bam_read_section (w_dev w) s) as [es1| | |] eqn:E1; [|done..]. cbn [rbind]. destruct (bam_read_sections (w_dev w) ss) as [es2| | |]; [|done..]. cbn [rbind].
          intros X%Ok_inj. subst es. apply Forall_app; split; [|by apply IH]. unfold bam_read_section in E1.
          destruct (sector (w_dev w) (bs_free_location s)) as [fb| | |] eqn:Efb; [|done..]. cbn [rbind] in E1.
          match type of E1 with (let? _ := ?y in _) = _ => destruct y end; [|done..]. apply Ok_inj in E1. subst es1. apply Forall_forall. intros e He.
          apply elem_of_list_In, in_map_iff in He as (k & <- & _). cbn [entry_from_bytes e_free]. apply bytes_lookup_total. by apply (sector_bytes _ _ _ Hby Efb). }
    assert (forall o w', wk w' -> (forall b, o = Some b -> cell_ok t b) -> wk (set_bam o w')) as Hs.
    { intros o w' [K1 K2 K3 K4] Ho. unfold set_bam. destruct o as [b|].
      - destruct (w_bam w') as [c|]; [by apply set_cell_kept; [apply Ho|split]|]. split; try done. cbn [w_cells]. apply Forall_app; split; [done|].
        apply Forall_cons_2; [by apply Ho|by apply Forall_nil_2].
      - destruct (w_bam w') as [c|]; [|by split]. split; try done. cbn [w_cells]. apply Forall_alter; [done|]. by intros b _ [? ?]. }
    assert (forall f w', wk w' -> wk (set_fmt f w')) as Hfm by (intros f w' []; by split).
    apply Hfm, Hs.
    - split; try done.
    - intros b. destruct h as [x|]; [|done]. destruct (bam_read (w_dev w) (native_format t)) as [b'| | |] eqn:Eb; [|done..]. cbn [res_ok].
      intros [= <-]. apply Hb; [|done]. destruct (h_geos x); auto.
  Qed.
  Lemma open_kept d : dk d -> wk (open_world t d).
  Proof. intros H. unfold open_world. apply initialize_kept. split; [done|done|by apply Forall_nil_2|done]. Qed.

  Lemma allocate_list_ok ls : forall b, cell_ok t b -> value_in (cell_ok t) (allocate_list b ls).
  Proof.
    induction ls as [|l ls IH]; intros b Hb; cbn [allocate_list]; [done|]. pose proof (allocate_ok b l Hb) as H. destruct (bam_allocate b l); [|done..]. cbn [rbind]. by apply IH.
  Qed.
  Lemma bam_new_ok : cell_ok t (bam_new (native_format t)).
  Proof. split; [exists false; cbn; by rewrite set_geos_false|]. destruct t; cbn; repeat apply Forall_cons_2; try apply Forall_nil_2; cbn; lia. Qed.
  Lemma set_bam_kept b w : cell_ok t b -> wk w -> wk (set_bam (Some b) w).
  Proof.
    intros Hb [K1 K2 K3 K4]. unfold set_bam. destruct (w_bam w) as [c|]; [by apply set_cell_kept; [|split]|]. split; try done. cbn [w_cells].
    apply Forall_app; split; [done|]. apply Forall_cons_2; [done|by apply Forall_nil_2].
  Qed.
  Lemma kept_format name id : Forall is_byte name -> loc_ok id -> keep wk (write_format name id) (fun _ => True).
  Proof.
    intros Hn Hid. unfold write_format. eapply keep_bind with (Q := fun df => df = native_format t).
    { apply keep_gets. intros w Hw. unfold native. by rewrite (wk_type _ _ _ Hw). }
    intros df ->. eapply keep_bind with (Q := fun _ => True); [by apply keep_gets|]. intros g _.
    eapply keep_seq.
    { apply keep_dev, keep_for. intros l _. eapply keep_weaken; [apply kept_mut|done]. intros b [L B]. split; [by rewrite repeat_length|]. bytes. }
    eapply keep_seq; [apply kept_mut_w; intros b Hb; apply splice_ok; [done|bytes|cbn; lia]|]. cbn zeta.
    set (h := header_new _ _ name id). assert (header_ok h) as Hh.
    { unfold h. repeat split; cbn [header_new h_first_directory h_disk_name h_disk_id h_disk_format_type h_directory_dos_version h_directory_format_type];
        try (destruct t; cbn; lia); try apply Hid; [done|]. destruct t; cbn; bytes. }
    eapply keep_seq; [apply keep_dev, kept_header, Hh|].
    eapply keep_seq with (Q := fun _ => True).
    { apply keep_modify. intros w []. split; try done. cbn [w_header set_header]. by intros ? [= <-]. }
    eapply keep_bind; [apply keep_lift, allocate_list_ok, bam_new_ok|]. intros b Hb.
    eapply keep_seq; [apply keep_dev, kept_flush, Hb|].
    eapply keep_seq; [apply keep_modify; intros w; by apply set_bam_kept|].
    eapply keep_seq with (Q := fun _ => True); [apply keep_dev, keep_asks; intros; apply value_any|].
    apply keep_modify. intros w. apply initialize_kept.
  Qed.

  (** ** Sessions *)
  Record session_kept (s : session) : Prop := {
    sk_world : wk (s_world s);
    sk_handles : Forall (fun f => entry_ok (file_entry f)) (s_handles s);
    sk_writers : forall k x, s_writers s !! k = Some (Some x) -> writer_ok x
  }.
  Definition op_bytes (o : op) : Prop :=
    match o with
    | OCreate name ft => Forall is_byte name /\ match ft with FUnknown b => is_byte b | _ => True end
    | OWrite _ buf => Forall is_byte buf
    | ORename _ new => Forall is_byte new
    | OFormat name id => Forall is_byte name /\ is_byte (fst id) /\ is_byte (snd id)
    | _ => True
    end.
  Lemma writers_insert (ks : list (option writer)) (k : nat) o : (forall (i : nat) x, ks !! i = Some (Some x) -> writer_ok x) -> (forall x, o = Some x -> writer_ok x) ->
    forall (i : nat) x, <[k := o]> ks !! i = Some (Some x) -> writer_ok x.
  Proof. intros H Ho i x. rewrite list_lookup_insert_Some. intros [(_ & E & _)|[_ E]]; [by apply Ho|by eapply H]. Qed.
  Lemma call_kept s o : op_bytes o -> session_kept s -> session_kept (fst (call s o)).
  Proof.
    intros Ho [Hw Hh Hk]. assert (forall w, wk w -> session_kept (set_world w s)) as Hset by (intros w ?; by split).
    destruct o; cbn [call op_bytes] in *; try done.
    - destruct Ho as [Hn Hf]. assert (type_to_byte ft < 256) as Hft by (destruct ft; cbn; try lia; done).
      destruct (kept_create name ft Hn Hft (s_world s) Hw) as [K1 K2]. destruct (create_file name ft (s_world s)) as [w' [x| | |]]; cbn [fst snd value_in] in *; try by apply Hset.
      split; [done| |done]. cbn [s_handles]. apply Forall_app; split; [done|]. by apply Forall_cons_2; [|apply Forall_nil_2].
    - pose proof (open_ok (s_world s) name Hw) as K. destruct (open_file (s_world s) name) as [x| | |]; try done. split; [done| |done].
      cbn [fst s_handles]. apply Forall_app; split; [done|]. by apply Forall_cons_2; [|apply Forall_nil_2].
    - destruct (s_handles s !! h) as [x|] eqn:E; [|done]. pose proof (Forall_lookup_1 _ _ _ _ Hh E) as Hx.
      pose proof (kept_file_writer (w_dev (s_world s)) x (wk_dev _ _ _ Hw) Hx) as K. destruct (file_writer _ x) as [k| | |]; try done. split; [done|done|].
      cbn [fst s_writers]. intros i y Hy. apply lookup_app_Some in Hy as [Hy|[_ Hy]]; [by eapply Hk|]. by apply list_lookup_singleton_Some in Hy as [_ [= <-]].
    - destruct (s_writers s !! k) as [[x|]|] eqn:E; [|done..]. destruct (kept_write buf Ho (s_world s, x)) as [[K1 K2] _]; [split; [done|by eapply Hk]|].
      destruct (writer_write buf (s_world s, x)) as [[w' x'] r]. cbn [fst snd] in *. split; [done|done|]. cbn [s_writers]. apply writers_insert; [done|]. by intros ? [= <-].
    - destruct (s_writers s !! k) as [[x|]|] eqn:E; [|done..]. destruct (kept_writer_flush (s_world s, x)) as [[K1 K2] _]; [split; [done|by eapply Hk]|].
      destruct (writer_flush (s_world s, x)) as [[w' x'] r]. cbn [fst snd] in *. split; [done|done|]. cbn [s_writers]. apply writers_insert; [done|]. by intros ? [= <-].
    - destruct (s_writers s !! k) as [[x|]|] eqn:E; [|done..]. split; [apply kept_drop; [done|by eapply Hk]|done|]. cbn [fst s_writers]. by apply writers_insert.
    - by destruct (s_handles s !! h).
    - by destruct (s_handles s !! h).
    - destruct (s_handles s !! h) as [x|] eqn:E; [|done]. pose proof (Forall_lookup_1 _ _ _ _ Hh E) as Hx.
      destruct (kept_delete x Hx (s_world s) Hw) as [K _]. destruct (file_delete x (s_world s)). by apply Hset.
    - destruct (kept_rename old new Ho (s_world s) Hw) as [K _]. destruct (w_rename old new (s_world s)). by apply Hset.
    - by apply Hset, initialize_kept.
    - rewrite (wk_type _ _ _ Hw). split; cbn [fst s_world s_handles s_writers]; [apply open_kept, Hw|by apply Forall_nil_2|by intros ? ? ?].
    - destruct Ho as [Hn [Hi1 Hi2]]. destruct (kept_format name id Hn (conj Hi1 Hi2) (s_world s) Hw) as [K _]. destruct (write_format name id (s_world s)). by apply Hset.
  Qed.
  Lemma calls_kept os : forall s, Forall op_bytes os -> session_kept s -> session_kept (fst (calls s os)).
  Proof.
    induction os as [|o os IH]; intros s Ho Hs; [done|]. apply Forall_cons in Ho as [H1 H2]. cbn [calls]. pose proof (call_kept s o H1 Hs) as K.
    destruct (call s o) as [s' r]. specialize (IH s' H2 K). by destruct (calls s' os).
  Qed.
End kept.

Lemma dev_kept_refl t d : dev_shape t d -> holds_bytes d -> dev_kept t d d. Proof. by split. Qed.
Theorem calls_keep t d os :
  dev_shape t d -> holds_bytes d -> Forall op_bytes os -> dev_kept t d (w_dev (s_world (fst (calls (start t d) os)))).
Proof.
  intros Hd Hb Ho. apply wk_dev, (sk_world t d), calls_kept; [done|]. split; cbn; [by apply open_kept, dev_kept_refl|by apply Forall_nil_2|by intros ? ? ?].
Qed.

