(** C10: flushing and reading the BAM. *)
From Verif Require Import Base ListFacts Layout Block Bam Spec SpecBam GeomFacts FlatProofs DevFacts BitFacts.
Ltac Zify.zify_post_hook ::= Z.div_mod_to_equations.

(** ** Rendering loops *)

Lemma fold_splice (f : nat -> list nat) o st sz n (block : list nat) :
  (forall i, length (f i) = sz) -> sz <= st -> 0 < sz ->
  o + n * st <= length block + (st - sz) ->
  let r := fold_left (fun b i => splice (o + i * st) (f i) b) (seq 0 n) block in
  length r = length block
  /\ (forall i, i < n -> slice (o + i * st) sz r = f i)
  /\ (forall j, (forall i, i < n -> ~ (o + i * st <= j < o + i * st + sz)) -> r !!! j = block !!! j).
Proof.
  intros Hf Hst Hsz. induction n as [|n IH]; intros Hb; cbn zeta.
  { simpl. split; [done|]. split; [intros; lia|done]. }
  rewrite seq_S, fold_left_app. cbn [fold_left]. rewrite Nat.add_0_l.
  destruct IH as (Hl & Hs & Ho); [nia|].
  set (r := fold_left _ (seq 0 n) block) in *.
  assert (o + n * st + length (f n) <= length r) as Hbd by (rewrite Hl, Hf; nia).
  split; [rewrite length_splice by done; done|]. split.
  - intros i Hi. destruct (decide (i = n)) as [->|Hne].
    + apply slice_splice_same; [done|]. rewrite Hf in Hbd. done.
    + rewrite slice_splice_other; [apply Hs; lia|rewrite Hf; nia|done].
  - intros j Hj. rewrite lookup_total_splice by done. rewrite Hf.
    specialize (Hj n ltac:(lia)) as Hjn.
    destruct (decide (o + n * st <= j < o + n * st + sz)) as [|Hn]; [lia|].
    apply Ho. intros i Hi. apply Hj. lia.
Qed.

(** ** One section *)

(** Byte [i] of sector [l] belongs to the section. *)
Definition in_section (s : bam_section) (l : location) (i : nat) : Prop :=
  exists k, k < bs_tracks s
    /\ ((l = bs_bitmap_location s
         /\ bs_bitmap_offset s + k * bs_bitmap_stride s <= i
            < bs_bitmap_offset s + k * bs_bitmap_stride s + bs_bitmap_size s)
        \/ (l = bs_free_location s /\ i = bs_free_offset s + k * bs_free_stride s)).

Record section_ok (t : disk_type) (s : bam_section) : Prop := {
  so_size : 0 < bs_bitmap_size s <= bs_bitmap_stride s /\ bs_bitmap_size s <= 8;
  so_fst : 0 < bs_free_stride s;
  so_bits : bs_bitmap_offset s + bs_tracks s * bs_bitmap_stride s <= 256 + (bs_bitmap_stride s - bs_bitmap_size s);
  so_counts : bs_free_offset s + bs_tracks s * bs_free_stride s <= 256 + (bs_free_stride s - 1);
  so_apart : bs_bitmap_location s = bs_free_location s ->
    forall k k', k < bs_tracks s -> k' < bs_tracks s ->
      ~ (bs_bitmap_offset s + k * bs_bitmap_stride s <= bs_free_offset s + k' * bs_free_stride s
         < bs_bitmap_offset s + k * bs_bitmap_stride s + bs_bitmap_size s);
  so_valid : forall g, In g (allowed_geometries t) ->
      valid_loc g (bs_bitmap_location s) = true /\ valid_loc g (bs_free_location s) = true
}.

Lemma byte_slice_ext (a b : list nat) o n :
  (forall i, o <= i < o + n -> a !!! i = b !!! i) -> o + n <= length a -> o + n <= length b ->
  slice o n a = slice o n b.
Proof.
  intros H Ha Hb. apply list_eq_total; [by rewrite !length_slice|].
  intros i Hi. rewrite length_slice in Hi by done. rewrite !lookup_total_slice by done.
  apply H. lia.
Qed.

(** What a section says depends on its bytes only. *)
Lemma read_section_ext t d d' s :
  dev_shape t d -> dev_shape t d' -> section_ok t s ->
  (forall l i, in_section s l i -> image_byte d' l i = image_byte d l i) ->
  bam_read_section d' s = bam_read_section d s.
Proof.
  intros Hd Hd' Hs Hi. destruct (so_valid _ _ Hs _ (ds_geom _ _ Hd)) as [Hvb Hvf].
  destruct (so_valid _ _ Hs _ (ds_geom _ _ Hd')) as [Hvb' Hvf'].
  destruct (sector_valid t d _ Hd Hvb) as (bb & _ & Hbb & Hlb).
  destruct (sector_valid t d _ Hd Hvf) as (fb & _ & Hfb & Hlf).
  destruct (sector_valid t d' _ Hd' Hvb') as (bb' & _ & Hbb' & Hlb').
  destruct (sector_valid t d' _ Hd' Hvf') as (fb' & _ & Hfb' & Hlf').
  unfold bam_read_section. rewrite Hfb, Hfb'. cbn [rbind].
  assert ((if decide (bs_bitmap_location s = bs_free_location s) then Ok fb
           else sector d (bs_bitmap_location s)) = Ok bb) as ->.
  { case_decide as E; [|done]. rewrite E in Hbb. congruence. }
  assert ((if decide (bs_bitmap_location s = bs_free_location s) then Ok fb'
           else sector d' (bs_bitmap_location s)) = Ok bb') as ->.
  { case_decide as E; [|done]. rewrite E in Hbb'. congruence. }
  cbn [rbind]. f_equal. apply map_ext_in. intros k Hk. apply in_seq in Hk.
  unfold image_byte in Hi. f_equal.
  - specialize (Hi (bs_free_location s) (bs_free_offset s + k * bs_free_stride s)).
    rewrite Hfb, Hfb' in Hi. apply Hi. exists k. split; [lia|]. by right.
  - apply byte_slice_ext.
    + intros i Hio. specialize (Hi (bs_bitmap_location s) i). rewrite Hbb, Hbb' in Hi.
      apply Hi. exists k. split; [lia|]. by left.
    + pose proof (so_bits _ _ Hs). pose proof (so_size _ _ Hs). nia.
    + pose proof (so_bits _ _ Hs). pose proof (so_size _ _ Hs). nia.
Qed.

(** All that a device keeps apart from the contents of its sectors. *)
Definition same_frame (d d' : dev) : Prop :=
  d_writable d' = d_writable d /\ d_geom d' = d_geom d /\ d_etable d' = d_etable d.

Lemma same_frame_trans a b c : same_frame a b -> same_frame b c -> same_frame a c.
Proof. intros (?&?&?) (?&?&?). split; [congruence|]. split; congruence. Qed.
Lemma same_frame_refl d : same_frame d d. Proof. done. Qed.
Lemma upd_frame d l b : same_frame d (upd d l b). Proof. done. Qed.

Lemma image_byte_upd t d l b l' i :
  dev_shape t d -> valid_loc (d_geom d) l = true ->
  image_byte (upd d l b) l' i = if decide (l = l') then b !!! i else image_byte d l' i.
Proof.
  intros Hd Hv. unfold image_byte. rewrite (sector_upd t) by done. by case_decide.
Qed.

Lemma slice1 o (b : list nat) : o < length b -> slice o 1 b = [b !!! o].
Proof.
  intros H. apply list_eq_total; [rewrite length_slice by lia; done|].
  intros i Hi. rewrite length_slice in Hi by lia. rewrite lookup_total_slice by lia.
  replace i with 0 by lia. by rewrite Nat.add_0_r.
Qed.

(** The bytes of a section hold the given entries. *)
Definition section_written (d : dev) (s : bam_section) (prev : nat) (es : list bam_entry) : Prop :=
  forall k, k < bs_tracks s ->
    image_byte d (bs_free_location s) (bs_free_offset s + k * bs_free_stride s) = e_free (es !!! (prev + k))
    /\ forall j, j < bs_bitmap_size s ->
         image_byte d (bs_bitmap_location s) (bs_bitmap_offset s + k * bs_bitmap_stride s + j)
         = bitmap_bytes (bs_bitmap_size s) (e_map (es !!! (prev + k))) !!! j.

Lemma written_ext d d' s prev es :
  (forall l i, in_section s l i -> image_byte d' l i = image_byte d l i) ->
  section_written d s prev es -> section_written d' s prev es.
Proof.
  intros H Hw k Hk. destruct (Hw k Hk) as [H1 H2]. split.
  - rewrite H; [done|]. exists k. split; [done|]. by right.
  - intros j Hj. rewrite H; [by apply H2|]. exists k. split; [done|]. left. split; [done|lia].
Qed.

Lemma write_section_spec t s prev es d :
  dev_shape t d -> d_writable d = true -> section_ok t s ->
  prev + bs_tracks s <= length es ->
  Forall (fun e => (e_map e < 2 ^ (8 * N.of_nat (bs_bitmap_size s)))%N) (slice prev (bs_tracks s) es) ->
  exists d', bam_write_section s prev es d = (d', Ok tt)
    /\ dev_shape t d' /\ same_frame d d'
    /\ bam_read_section d' s = Ok (slice prev (bs_tracks s) es)
    /\ section_written d' s prev es
    /\ (forall l i, ~ in_section s l i -> image_byte d' l i = image_byte d l i)
    /\ (forall l, l <> bs_bitmap_location s -> l <> bs_free_location s -> sector d' l = sector d l)
    /\ (exists log, d_log d' = d_log d ++ log
          /\ Forall (fun w => fst w = bs_bitmap_location s \/ fst w = bs_free_location s) log).
Proof.
  intros Hd Hw Hs Hlen Hmaps.
  destruct (so_valid _ _ Hs _ (ds_geom _ _ Hd)) as [Hvb Hvf].
  destruct (sector_valid t d _ Hd Hvb) as (bb & _ & Hbb & Hlb).
  destruct (so_size _ _ Hs) as [[Hsz1 Hsz2] Hsz3]. pose proof (so_fst _ _ Hs) as Hfst.
  pose proof (so_bits _ _ Hs) as Hbits. pose proof (so_counts _ _ Hs) as Hcounts.
  unfold bam_write_section, sbind, asks. rewrite Hbb.
  destruct (Nat.ltb_spec (length es) (prev + bs_tracks s)); [lia|].
  destruct (fold_splice (fun i => bitmap_bytes (bs_bitmap_size s) (e_map (es !!! (prev + i))))
    (bs_bitmap_offset s) (bs_bitmap_stride s) (bs_bitmap_size s) (bs_tracks s) bb)
    as (Hl1 & Hin1 & Hout1); [intros; apply length_bitmap_bytes|done|done|lia|].
  fold (render_bitmaps s prev es bb) in Hl1, Hin1, Hout1.
  set (b1 := render_bitmaps s prev es bb) in *.
  assert (forall i, i < bs_tracks s -> slice prev (bs_tracks s) es !!! i = es !!! (prev + i)) as Hes.
  { intros i Hi. by apply lookup_total_slice. }
  assert (length (slice prev (bs_tracks s) es) = bs_tracks s) as Hles by (by apply length_slice).
  assert (forall k, k < bs_tracks s -> map_from_bytes (bitmap_bytes (bs_bitmap_size s) (e_map (es !!! (prev + k))))
            = e_map (es !!! (prev + k))) as Hrt.
  { intros k Hk. apply map_from_bitmap_bytes. rewrite <- Hes by done.
    rewrite Forall_forall in Hmaps. apply Hmaps. apply elem_of_list_lookup_total_2. lia. }
  (* both kinds of block updates in terms of the block the counts go into *)
  assert (forall fb, length fb = 256 ->
    let r := render_counts s prev es fb in
    length r = 256
    /\ (forall k, k < bs_tracks s -> r !!! (bs_free_offset s + k * bs_free_stride s) = e_free (es !!! (prev + k)))
    /\ (forall j, (forall k, k < bs_tracks s -> j <> bs_free_offset s + k * bs_free_stride s) -> r !!! j = fb !!! j))
    as Hrc.
  { intros fb Hfb.
    destruct (fold_splice (fun i => [e_free (es !!! (prev + i))])
      (bs_free_offset s) (bs_free_stride s) 1 (bs_tracks s) fb) as (Hl2 & Hin2 & Hout2);
      [done|lia|lia|lia|].
    fold (render_counts s prev es fb) in Hl2, Hin2, Hout2. cbn zeta. split; [lia|]. split.
    - intros k Hk. specialize (Hin2 k Hk). rewrite slice1 in Hin2 by nia. by injection Hin2.
    - intros j Hj. apply Hout2. intros k Hk. specialize (Hj k Hk). lia. }
  case_decide as Hloc.
  - (* one sector *)
    cbn [ret]. destruct (Hrc b1 ltac:(lia)) as (Hl2 & Hin2 & Hout2).
    set (b2 := render_counts s prev es b1) in *.
    rewrite (sector_mut_upd d (bs_free_location s) (fun _ => b2) bb);
      [|done|by rewrite <- Hloc].
    eexists. split; [done|]. split; [by apply upd_shape|]. split; [done|]. split.
    { unfold bam_read_section. rewrite (sector_upd_same t) by done. cbn [rbind].
      rewrite decide_True by done. cbn [rbind]. f_equal.
      apply list_eq_total; [by rewrite map_length, seq_length, Hles|].
      rewrite map_length, seq_length. intros k Hk. rewrite lookup_total_map_seq by done.
      rewrite Hes by done. cbn [Nat.add]. unfold entry_from_bytes. rewrite Hin2 by done.
      rewrite (byte_slice_ext b2 b1 (bs_bitmap_offset s + k * bs_bitmap_stride s)).
      - rewrite Hin1, Hrt by done. by destruct (es !!! (prev + k)).
      - intros i Hi. apply Hout2. intros k' Hk' ->. by apply (so_apart _ _ Hs Hloc k k').
      - nia.
      - nia. }
    split.
    { intros k Hk. rewrite !(image_byte_upd t) by done. rewrite Hloc, decide_True by done.
      split; [by apply Hin2|]. intros j Hj. rewrite (image_byte_upd t), decide_True by done.
      rewrite Hout2.
      - rewrite <- (Hin1 k Hk). by rewrite lookup_total_slice.
      - intros k' Hk' E. apply (so_apart _ _ Hs Hloc k k' Hk Hk'). lia. }
    split.
    { intros l i Hn. rewrite (image_byte_upd t) by done. case_decide as E; [subst l|done].
      unfold image_byte. rewrite <- Hloc, Hbb.
      rewrite Hout2.
      - apply Hout1. intros k Hk Hki. apply Hn. exists k. split; [done|]. by left.
      - intros k Hk ->. apply Hn. exists k. split; [done|]. by right. }
    split.
    { intros l Hl1' Hl2'. by rewrite (sector_upd_other t) by congruence. }
    { eexists. split; [done|]. constructor; [by right|done]. }
  - (* two sectors *)
    rewrite (sector_mut_upd d (bs_bitmap_location s) (fun _ => b1) bb) by done.
    set (d1 := upd d (bs_bitmap_location s) b1).
    assert (dev_shape t d1) as Hd1 by (apply upd_shape; [done|lia]).
    destruct (sector_valid t d1 _ Hd1 Hvf) as (fb & _ & Hfb & Hlf). rewrite Hfb.
    destruct (Hrc fb Hlf) as (Hl2 & Hin2 & Hout2). set (b2 := render_counts s prev es fb) in *.
    rewrite (sector_mut_upd d1 (bs_free_location s) (fun _ => b2) fb) by done.
    eexists. split; [done|]. split; [by apply upd_shape|]. split; [done|].
    assert (sector d (bs_free_location s) = Ok fb) as Hfb0.
    { unfold d1 in Hfb. by rewrite (sector_upd_other t) in Hfb. }
    split.
    { unfold bam_read_section. rewrite (sector_upd_same t) by done. cbn [rbind].
      rewrite decide_False by done. rewrite (sector_upd_other t) by (done || congruence).
      unfold d1. rewrite (sector_upd_same t) by done. cbn [rbind]. f_equal.
      apply list_eq_total; [by rewrite map_length, seq_length, Hles|].
      rewrite map_length, seq_length. intros k Hk. rewrite lookup_total_map_seq by done.
      rewrite Hes by done. cbn [Nat.add]. unfold entry_from_bytes. rewrite Hin2 by done.
      rewrite Hin1, Hrt by done. by destruct (es !!! (prev + k)). }
    split.
    { intros k Hk. rewrite (image_byte_upd t), decide_True by done.
      split; [by apply Hin2|]. intros j Hj. rewrite (image_byte_upd t) by done.
      rewrite decide_False by congruence.
      unfold d1. rewrite (image_byte_upd t), decide_True by done.
      rewrite <- (Hin1 k Hk). by rewrite lookup_total_slice. }
    split.
    { intros l i Hn. rewrite (image_byte_upd t) by done. case_decide as E.
      - subst l. unfold image_byte. rewrite Hfb0. apply Hout2.
        intros k Hk ->. apply Hn. exists k. split; [done|]. by right.
      - unfold d1. rewrite (image_byte_upd t) by done. case_decide as E'; [subst l|done].
        unfold image_byte. rewrite Hbb. apply Hout1.
        intros k Hk Hki. apply Hn. exists k. split; [done|]. by left. }
    split.
    { intros l Hl1' Hl2'. rewrite (sector_upd_other t) by (done || congruence).
      unfold d1. by rewrite (sector_upd_other t) by (done || congruence). }
    { eexists. unfold d1. cbn [upd d_log]. rewrite <- app_assoc. split; [done|].
      constructor; [by left|]. constructor; [by right|done]. }
Qed.

(** ** All sections *)

Definition apart (s s' : bam_section) : Prop :=
  forall l i, in_section s l i -> ~ in_section s' l i.

Definition bam_loc (ss : list bam_section) (l : location) : Prop :=
  exists s, In s ss /\ (l = bs_bitmap_location s \/ l = bs_free_location s).

Fixpoint sections_written (d : dev) (ss : list bam_section) (prev : nat) (es : list bam_entry) : Prop :=
  match ss with
  | [] => True
  | s :: ss => section_written d s prev es /\ sections_written d ss (prev + bs_tracks s) es
  end.

Lemma write_sections_spec t ss prev es d n :
  dev_shape t d -> d_writable d = true -> Forall (section_ok t) ss ->
  Forall (fun s => bs_bitmap_size s = n) ss ->
  ForallOrdPairs apart ss ->
  prev + bam_tracks ss <= length es ->
  Forall (fun e => (e_map e < 2 ^ (8 * N.of_nat n))%N) es ->
  exists d', bam_write_sections ss prev es d = (d', Ok tt)
    /\ dev_shape t d' /\ same_frame d d'
    /\ bam_read_sections d' ss = Ok (slice prev (bam_tracks ss) es)
    /\ sections_written d' ss prev es
    /\ (forall l i, (forall s, In s ss -> ~ in_section s l i) -> image_byte d' l i = image_byte d l i)
    /\ (forall l, ~ bam_loc ss l -> sector d' l = sector d l)
    /\ (exists log, d_log d' = d_log d ++ log /\ Forall (fun w => bam_loc ss (fst w)) log).
Proof.
  intros Hd Hw Hok. revert prev d Hd Hw. induction Hok as [|s ss Hs Hok IH]; intros prev d Hd Hw Hn Hap Hlen Hm.
  { exists d. split; [done|]. split; [done|]. split; [done|]. split; [done|].
    split; [done|]. split; [done|]. split; [done|]. exists []. by rewrite app_nil_r. }
  inversion Hap as [|? ? Hap1 Hap2]; subst. apply Forall_cons in Hn as [Hn1 Hn2].
  change (bam_tracks (s :: ss)) with (bs_tracks s + bam_tracks ss) in *.
  destruct (write_section_spec t s prev es d Hd Hw Hs) as (d1 & Hw1 & Hd1 & Hf1 & Hr1 & Hsw1 & Hb1 & Hl1 & log1 & Hlog1 & Hll1).
  { lia. }
  { rewrite Hn1. unfold slice. by apply Forall_take, Forall_drop. }
  destruct (IH (prev + bs_tracks s) d1) as (d2 & Hw2 & Hd2 & Hf2 & Hr2 & Hsw2 & Hb2 & Hl2 & log2 & Hlog2 & Hll2);
    [done|by destruct Hf1 as [-> _]|done|done|lia|done|].
  exists d2. cbn [bam_write_sections bam_read_sections]. unfold sbind. rewrite Hw1.
  split; [done|]. split; [done|]. split; [by eapply same_frame_trans|]. split.
  { rewrite (read_section_ext t d1 d2 s Hd1 Hd2 Hs).
    - rewrite Hr1. cbn [rbind]. rewrite Hr2. cbn [rbind]. f_equal. unfold slice.
      rewrite <- (drop_drop es (bs_tracks s) prev), take_take_drop. done.
    - intros l i Hi. apply Hb2. intros s' Hs'. rewrite Forall_forall in Hap1.
      by apply (Hap1 s' ltac:(by apply elem_of_list_In)). }
  split.
  { split; [|done]. eapply written_ext; [|exact Hsw1].
    intros l i Hi. apply Hb2. intros s' Hs'. rewrite Forall_forall in Hap1.
    by apply (Hap1 s' ltac:(by apply elem_of_list_In)). }
  split.
  { intros l i Hi. rewrite Hb2; [|intros s' Hs'; apply Hi; by right]. apply Hb1. apply Hi. by left. }
  split.
  { intros l Hl. rewrite Hl2; [apply Hl1|].
    - intros E. apply Hl. exists s. split; [by left|by left].
    - intros E. apply Hl. exists s. split; [by left|by right].
    - intros (s' & Hs' & E). apply Hl. exists s'. split; [by right|done]. }
  { exists (log1 ++ log2). rewrite Hlog2, Hlog1, app_assoc. split; [done|].
    apply Forall_app. split.
    - eapply Forall_impl; [exact Hll1|]. intros x Hx. exists s. split; [by left|done].
    - eapply Forall_impl; [exact Hll2|]. intros x (s' & Hs' & E). exists s'. split; [by right|done]. }
Qed.

(** ** The three formats *)

Lemma native_sections t : bam_sections (native_format t) =
  match t with D64 => d64_bam | D71 => d71_bam | D81 => d81_bam end.
Proof. by destruct t. Qed.

Ltac sect_valid :=
  let g := fresh in let H := fresh in
  intros g H; simpl in H; decompose [or] H; subst; try done; by vm_compute.

Lemma sections_ok t : Forall (section_ok t) (bam_sections (native_format t)).
Proof.
  destruct t; simpl; repeat (apply List.Forall_cons || apply List.Forall_nil);
    (split; simpl; [lia|lia|lia|lia| |]);
    try (intros; discriminate); try (intros; lia).
  all: intros g H; repeat (destruct H as [<-|H]; [split; reflexivity|]); destruct H.
Qed.

Lemma sections_apart t : ForallOrdPairs apart (bam_sections (native_format t)).
Proof.
  destruct t; simpl; repeat constructor.
  - intros l i (k & Hk & [[Hl Hi]|[Hl Hi]]) (k' & Hk' & [[Hl' Hi']|[Hl' Hi']]); simpl in *; subst;
      try discriminate; lia.
  - intros l i (k & Hk & [[Hl Hi]|[Hl Hi]]) (k' & Hk' & [[Hl' Hi']|[Hl' Hi']]); simpl in *; subst;
      try discriminate; lia.
Qed.

Lemma sections_size t : Forall (fun s => bs_bitmap_size s = bitmap_size t) (bam_sections (native_format t)).
Proof. destruct t; simpl; repeat constructor. Qed.

Lemma sections_tracks t : bam_tracks (bam_sections (native_format t)) = spec_tracks t.
Proof. by destruct t. Qed.

(** The bytes of the sections are the documented ones. *)
Lemma section_bytes t l i :
  (exists s, In s (bam_sections (native_format t)) /\ in_section s l i) <-> bam_byte t l i.
Proof.
  split.
  - intros (s & Hs & k & Hk & Hi). unfold bam_byte, count_at, bitmap_at.
    destruct t; simpl in Hs.
    + destruct Hs as [<-|[]]; simpl in *. exists (k + 1). split; [lia|].
      destruct Hi as [[-> Hi]|[-> ->]]; [right; split; [done|simpl; lia]|left; f_equal; lia].
    + destruct Hs as [<-|[<-|[]]]; simpl in *.
      * exists (k + 1). split; [lia|]. rewrite (proj2 (Nat.leb_le (k + 1) 35)) by lia.
        destruct Hi as [[-> Hi]|[-> ->]]; [right; split; [done|simpl; lia]|left; f_equal; lia].
      * exists (k + 36). split; [lia|]. rewrite (proj2 (Nat.leb_gt (k + 36) 35)) by lia.
        destruct Hi as [[-> Hi]|[-> ->]]; [right; split; [done|simpl; lia]|left; f_equal; lia].
    + destruct Hs as [<-|[<-|[]]]; simpl in *.
      * exists (k + 1). split; [lia|]. rewrite (proj2 (Nat.leb_le (k + 1) 40)) by lia.
        destruct Hi as [[-> Hi]|[-> ->]]; [right; split; [done|simpl; lia]|left; f_equal; lia].
      * exists (k + 41). split; [lia|]. rewrite (proj2 (Nat.leb_gt (k + 41) 40)) by lia.
        destruct Hi as [[-> Hi]|[-> ->]]; [right; split; [done|simpl; lia]|left; f_equal; lia].
  - intros (k & Hk & Hi). unfold count_at, bitmap_at in Hi. destruct t; simpl in *.
    + eexists. split; [by left|]. exists (k - 1). simpl. split; [lia|].
      destruct Hi as [[= -> ->]|[-> Hi]]; [right; split; [done|lia]|left; split; [done|simpl in *; lia]].
    + destruct (Nat.leb_spec k 35).
      * eexists. split; [by left|]. exists (k - 1). simpl. split; [lia|].
        destruct Hi as [[= -> ->]|[-> Hi]]; [right; split; [done|lia]|left; split; [done|simpl in *; lia]].
      * eexists. split; [right; by left|]. exists (k - 36). simpl. split; [lia|].
        destruct Hi as [[= -> ->]|[-> Hi]]; [right; split; [done|lia]|left; split; [done|simpl in *; lia]].
    + destruct (Nat.leb_spec k 40).
      * eexists. split; [by left|]. exists (k - 1). simpl. split; [lia|].
        destruct Hi as [[= -> ->]|[-> Hi]]; [right; split; [done|lia]|left; split; [done|simpl in *; lia]].
      * eexists. split; [right; by left|]. exists (k - 41). simpl. split; [lia|].
        destruct Hi as [[= -> ->]|[-> Hi]]; [right; split; [done|lia]|left; split; [done|simpl in *; lia]].
Qed.

Lemma written_entries t d es :
  sections_written d (bam_sections (native_format t)) 0 es ->
  forall track, 1 <= track <= spec_tracks t -> entry_on_disk t d track (es !!! (track - 1)).
Proof.
  intros H track Ht.
  assert (forall s prev k, In s (bam_sections (native_format t)) -> section_written d s prev es ->
    k < bs_tracks s -> prev + k = track - 1 ->
    count_at t track = (bs_free_location s, bs_free_offset s + k * bs_free_stride s) ->
    bitmap_at t track = (bs_bitmap_location s, bs_bitmap_offset s + k * bs_bitmap_stride s) ->
    entry_on_disk t d track (es !!! (track - 1))) as Hgen.
  { intros s prev k Hin Hs Hk Hp Hc Hb. destruct (Hs k Hk) as [H1 H2].
    pose proof (sections_size t) as Hsz. rewrite Forall_forall in Hsz.
    specialize (Hsz s ltac:(by apply elem_of_list_In)).
    unfold entry_on_disk. rewrite Hc, Hb, <- Hp. split; [exact H1|].
    cbn [fst snd]. intros b Hbs. rewrite <- Hsz in Hbs. rewrite H2 by lia.
    rewrite bitmap_bytes_bit by lia. f_equal. lia. }
  unfold count_at, bitmap_at in Hgen. destruct t; simpl in H, Ht.
  - destruct H as [H _]. eapply (Hgen _ 0 (track - 1)); [by left|exact H|simpl; lia|lia| |]; simpl; f_equal; lia.
  - destruct H as (H1 & H2 & _). destruct (Nat.leb_spec track 35).
    + eapply (Hgen _ 0 (track - 1)); [by left|exact H1|simpl; lia|lia| |]; simpl; f_equal; lia.
    + eapply (Hgen _ 35 (track - 36)); [right; by left|exact H2|simpl; lia|lia| |]; simpl; f_equal; lia.
  - destruct H as (H1 & H2 & _). destruct (Nat.leb_spec track 40).
    + eapply (Hgen _ 0 (track - 1)); [by left|exact H1|simpl; lia|lia| |]; simpl; f_equal; lia.
    + eapply (Hgen _ 40 (track - 41)); [right; by left|exact H2|simpl; lia|lia| |]; simpl; f_equal; lia.
Qed.

(** The sectors holding the BAM. *)
Lemma bam_locs t l :
  bam_loc (bam_sections (native_format t)) l <->
  In l match t with D64 => [(18, 0)] | D71 => [(18, 0); (53, 0)] | D81 => [(40, 1); (40, 2)] end.
Proof.
  unfold bam_loc. destruct t; simpl; split.
  - intros (s & [<-|[]] & [->| ->]); simpl; tauto.
  - intros [<-|[]]. eexists. split; [by left|]. by left.
  - intros (s & [<-|[<-|[]]] & [->| ->]); simpl; tauto.
  - intros [<-|[<-|[]]]; [eexists; split; [by left|by left]|eexists; split; [right; by left|by left]].
  - intros (s & [<-|[<-|[]]] & [->| ->]); simpl; tauto.
  - intros [<-|[<-|[]]]; [eexists; split; [by left|by left]|eexists; split; [right; by left|by left]].
Qed.

(** C10 *)
Theorem bam_flush_reload t d b :
  dev_shape t d -> d_writable d = true -> bam_shape t b ->
  exists d', bam_flush b d = (d', Ok tt)
    /\ bam_read d' (b_format b) = Ok b
    /\ (forall track, 1 <= track <= spec_tracks t -> entry_on_disk t d' track (track_entry b track))
    /\ (forall l i, ~ bam_byte t l i -> image_byte d' l i = image_byte d l i)
    /\ (forall l, ~ bam_loc (bam_sections (native_format t)) l -> sector d' l = sector d l)
    /\ dev_shape t d' /\ same_frame d d'
    /\ (exists log, d_log d' = d_log d ++ log
          /\ Forall (fun w => bam_loc (bam_sections (native_format t)) (fst w)) log).
Proof.
  intros Hd Hw [[g Hf] Hv Hl Hm].
  destruct (write_sections_spec t (bam_sections (native_format t)) 0 (b_entries b) d (bitmap_size t))
    as (d' & Hwr & Hd' & Hfr & Hr & Hsw & Hb & Hloc & Hlog);
    [done|done|apply sections_ok|apply sections_size|apply sections_apart| | |].
  { rewrite sections_tracks. lia. }
  { eapply Forall_impl; [exact Hm|]. simpl. tauto. }
  exists d'. unfold bam_flush, check_validity. rewrite Hv. unfold sbind, lift.
  assert (bam_sections (b_format b) = bam_sections (native_format t)) as Hsec by (by rewrite Hf).
  rewrite Hsec. split; [done|]. split.
  { unfold bam_read. rewrite Hsec, Hr. cbn [rbind]. rewrite sections_tracks.
    rewrite slice_full by done. destruct b; simpl in *. by subst. }
  split; [by apply written_entries|]. split.
  { intros l i Hn. apply Hb. intros s Hs Hi. apply Hn. apply section_bytes. eauto. }
  done.
Qed.
