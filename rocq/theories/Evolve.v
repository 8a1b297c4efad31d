(** The sequence of sector writes made by an operation, and the images that a
    crash between two of them leaves behind. *)
From Verif Require Import Base ListFacts Layout Block Bam GeosTypes Header Spec SpecBam GeomFacts FlatProofs DevFacts BitFacts
  BamProofs EntryProofs HeaderProofs SpecCodec.
Ltac Zify.zify_post_hook ::= Z.div_mod_to_equations.

(** The device after the given sector writes. *)
Definition replay (d : dev) (ws : list (location * list nat)) : dev :=
  fold_left (fun d w => upd d (fst w) (snd w)) ws d.

Lemma replay_app d a b : replay d (a ++ b) = replay (replay d a) b.
Proof. apply fold_left_app. Qed.

Lemma replay_log d ws : d_log (replay d ws) = d_log d ++ ws.
Proof.
  revert d. induction ws as [|[l b] ws IH]; intros d; [by rewrite app_nil_r|].
  change (replay d ((l, b) :: ws)) with (replay (upd d l b) ws). rewrite IH. simpl. by rewrite <- app_assoc.
Qed.

(** [d] becomes [d'] by sector writes, and [P] holds of all images on the way. *)
Definition evolves (P : dev -> Prop) (d d' : dev) : Prop :=
  exists ws, d' = replay d ws /\ forall n, P (replay d (take n ws)).

Lemma evolves_refl (P : dev -> Prop) d : P d -> evolves P d d.
Proof. intros H. exists []. split; [done|]. intros n. by rewrite take_nil. Qed.

Lemma evolves_one (P : dev -> Prop) d l b : P d -> P (upd d l b) -> evolves P d (upd d l b).
Proof. intros H H'. exists [(l, b)]. split; [done|]. intros [|n]; [done|]. simpl. by rewrite take_nil. Qed.

Lemma evolves_trans (P : dev -> Prop) d d' d'' : evolves P d d' -> evolves P d' d'' -> evolves P d d''.
Proof.
  intros (ws & -> & H1) (ws' & -> & H2). exists (ws ++ ws'). split; [by rewrite replay_app|].
  intros n. destruct (decide (n <= length ws)).
  - rewrite take_app_le by lia. apply H1.
  - rewrite take_app_ge by lia. rewrite replay_app. apply H2.
Qed.

Lemma evolves_impl (P Q : dev -> Prop) d d' : (forall x, P x -> Q x) -> evolves P d d' -> evolves Q d d'.
Proof. intros HPQ (ws & -> & H). exists ws. split; [done|]. intros n. by apply HPQ. Qed.

Lemma evolves_start P d d' : evolves P d d' -> P d.
Proof. intros (ws & _ & H). exact (H 0). Qed.

Lemma evolves_end P d d' : evolves P d d' -> P d'.
Proof. intros (ws & -> & H). specialize (H (length ws)). by rewrite firstn_all in H. Qed.

(** In terms of the log of the device. *)
Lemma evolves_log P d d' :
  evolves P d d' -> exists ws, d_log d' = d_log d ++ ws /\ d' = replay d ws
                    /\ forall n, P (replay d (take n ws)).
Proof. intros (ws & -> & H). exists ws. split; [apply replay_log|]. done. Qed.

(** ** Flushing the BAM changes only its own bytes, one sector at a time *)

(** A write of a BAM sector that leaves the bytes that do not belong to the BAM. *)
Definition bam_step (t : disk_type) (d : dev) (l : location) (b : list nat) : Prop :=
  length b = 256 /\ valid_loc (d_geom d) l = true
  /\ bam_loc (bam_sections (native_format t)) l
  /\ forall i, ~ bam_byte t l i -> b !!! i = image_byte d l i.

Definition bam_closed (t : disk_type) (P : dev -> Prop) : Prop :=
  forall d l b, dev_shape t d -> P d -> bam_step t d l b -> P (upd d l b).

Lemma write_section_steps t (P : dev -> Prop) s prev es d d' :
  bam_closed t P -> In s (bam_sections (native_format t)) ->
  dev_shape t d -> d_writable d = true -> P d ->
  bam_write_section s prev es d = (d', Ok tt) ->
  evolves P d d'.
Proof.
  intros HP Hin Hd Hw HPd Hwr.
  pose proof (sections_ok t) as Hok. rewrite Forall_forall in Hok.
  specialize (Hok s ltac:(by apply elem_of_list_In)).
  destruct (so_valid _ _ Hok _ (ds_geom _ _ Hd)) as [Hvb Hvf].
  destruct (sector_valid t d _ Hd Hvb) as (bb & _ & Hbb & Hlb).
  destruct (so_size _ _ Hok) as [[Hsz1 Hsz2] Hsz3]. pose proof (so_fst _ _ Hok) as Hfst.
  pose proof (so_bits _ _ Hok) as Hbits. pose proof (so_counts _ _ Hok) as Hcounts.
  unfold bam_write_section, sbind, asks in Hwr. rewrite Hbb in Hwr.
  destruct (Nat.ltb_spec (length es) (prev + bs_tracks s)); [done|].
  destruct (fold_splice (fun i => bitmap_bytes (bs_bitmap_size s) (e_map (es !!! (prev + i))))
    (bs_bitmap_offset s) (bs_bitmap_stride s) (bs_bitmap_size s) (bs_tracks s) bb)
    as (Hl1 & _ & Hout1); [intros; apply length_bitmap_bytes|done|done|lia|].
  fold (render_bitmaps s prev es bb) in Hl1, Hout1.
  set (b1 := render_bitmaps s prev es bb) in *.
  assert (forall fb, length fb = 256 ->
    let r := render_counts s prev es fb in
    length r = 256
    /\ (forall j, (forall k, k < bs_tracks s -> j <> bs_free_offset s + k * bs_free_stride s) -> r !!! j = fb !!! j))
    as Hrc.
  { intros fb Hfb.
    destruct (fold_splice (fun i => [e_free (es !!! (prev + i))])
      (bs_free_offset s) (bs_free_stride s) 1 (bs_tracks s) fb) as (Hl2 & _ & Hout2);
      [done|lia|lia|lia|].
    fold (render_counts s prev es fb) in Hl2, Hout2. cbn zeta. split; [lia|].
    intros j Hj. apply Hout2. intros k Hk. specialize (Hj k Hk). lia. }
  assert (forall i, ~ bam_byte t (bs_bitmap_location s) i -> b1 !!! i = bb !!! i) as Hk1.
  { intros i Hi. apply Hout1. intros k Hk Hki. apply Hi. apply section_bytes. exists s. split; [done|].
    exists k. split; [done|]. by left. }
  assert (forall fb i, length fb = 256 -> ~ bam_byte t (bs_free_location s) i ->
            render_counts s prev es fb !!! i = fb !!! i) as Hk2.
  { intros fb i Hfb Hi. apply (Hrc fb Hfb). intros k Hk ->. apply Hi. apply section_bytes. exists s.
    split; [done|]. exists k. split; [done|]. by right. }
  assert (bam_loc (bam_sections (native_format t)) (bs_bitmap_location s)) as Hb1 by (exists s; tauto).
  assert (bam_loc (bam_sections (native_format t)) (bs_free_location s)) as Hb2 by (exists s; tauto).
  case_decide as Hloc.
  - cbn [ret] in Hwr.
    rewrite (sector_mut_upd d (bs_free_location s) (fun _ => render_counts s prev es b1) bb) in Hwr;
      [|done|by rewrite <- Hloc].
    injection Hwr as <-. apply evolves_one; [done|]. apply HP; [done|done|].
    split; [apply Hrc; lia|]. split; [done|]. split; [done|]. intros i Hi.
    rewrite Hk2 by (done || lia). rewrite <- Hloc in Hi |- *. unfold image_byte. rewrite Hbb. by apply Hk1.
  - rewrite (sector_mut_upd d (bs_bitmap_location s) (fun _ => b1) bb) in Hwr by done.
    set (d1 := upd d (bs_bitmap_location s) b1) in Hwr.
    assert (dev_shape t d1) as Hd1 by (apply upd_shape; [done|lia]).
    destruct (sector_valid t d1 _ Hd1 Hvf) as (fb & _ & Hfb & Hlf). rewrite Hfb in Hwr.
    rewrite (sector_mut_upd d1 (bs_free_location s) (fun _ => render_counts s prev es fb) fb) in Hwr by done.
    injection Hwr as <-.
    assert (P d1) as HPd1.
    { apply HP; [done|done|]. split; [lia|]. split; [done|]. split; [done|]. intros i Hi.
      unfold image_byte. rewrite Hbb. by apply Hk1. }
    eapply evolves_trans; [by apply (evolves_one P d (bs_bitmap_location s) b1)|].
    apply evolves_one; [done|]. apply HP; [done|done|].
    split; [by apply Hrc|]. split; [done|]. split; [done|]. intros i Hi.
    rewrite Hk2 by done. unfold image_byte. by rewrite Hfb.
Qed.

Lemma write_sections_steps t (P : dev -> Prop) ss prev es d :
  bam_closed t P -> (forall s, In s ss -> In s (bam_sections (native_format t))) ->
  dev_shape t d -> d_writable d = true -> P d ->
  prev + bam_tracks ss <= length es ->
  Forall (fun e => (e_map e < 2 ^ (8 * N.of_nat (bitmap_size t)))%N) es ->
  evolves P d (fst (bam_write_sections ss prev es d)).
Proof.
  intros HP. revert prev d. induction ss as [|s ss IH]; intros prev d Hss Hd Hw HPd Hlen Hm.
  { by apply evolves_refl. }
  cbn [bam_write_sections]. unfold sbind.
  change (bam_tracks (s :: ss)) with (bs_tracks s + bam_tracks ss) in *.
  assert (In s (bam_sections (native_format t))) as Hin by (apply Hss; by left).
  pose proof (sections_ok t) as Hok. rewrite Forall_forall in Hok.
  specialize (Hok s ltac:(by apply elem_of_list_In)).
  pose proof (sections_size t) as Hsz. rewrite Forall_forall in Hsz.
  specialize (Hsz s ltac:(by apply elem_of_list_In)).
  destruct (write_section_spec t s prev es d Hd Hw Hok) as (d1 & Hw1 & Hd1 & Hf1 & _).
  { lia. }
  { rewrite Hsz. unfold slice. by apply Forall_take, Forall_drop. }
  rewrite Hw1. pose proof (write_section_steps t P s prev es d d1 HP Hin Hd Hw HPd Hw1) as Hev.
  eapply evolves_trans; [exact Hev|].
  apply IH; try done.
  - intros s' Hs'. apply Hss. by right.
  - by destruct Hf1 as [-> _].
  - by apply evolves_end in Hev.
  - lia.
Qed.

Lemma bam_flush_steps t (P : dev -> Prop) d b :
  bam_closed t P -> dev_shape t d -> d_writable d = true -> bam_shape t b -> P d ->
  evolves P d (fst (bam_flush b d)).
Proof.
  intros HP Hd Hw [[g Hf] Hv Hl Hm] HPd. unfold bam_flush, check_validity. rewrite Hv. unfold sbind, lift.
  assert (bam_sections (b_format b) = bam_sections (native_format t)) as -> by (by rewrite Hf).
  apply (write_sections_steps t); try done.
  - rewrite sections_tracks. lia.
  - eapply Forall_impl; [exact Hm|]. simpl. tauto.
Qed.

(** ** The header does not depend on the BAM bytes *)

Lemma header_loc_cases t : hf_location (hf t) = (dir_track t, 0).
Proof. by destruct t. Qed.

Lemma header_bytes_apart t i :
  bam_byte t (dir_track t, 0) i -> 4 <= i < 144 \/ 221 <= i.
Proof.
  intros (tr & Htr & Hi). unfold count_at, bitmap_at in Hi. destruct t; simpl in *.
  - destruct Hi as [[= ->]|[_ Hi]]; lia.
  - destruct (Nat.leb_spec tr 35); simpl in Hi.
    + destruct Hi as [[= ->]|[_ Hi]]; lia.
    + destruct Hi as [[= ->]|[[= ?] Hi]]; lia.
  - destruct (Nat.leb_spec tr 40); simpl in Hi; destruct Hi as [[= ?]|[[= ?] Hi]]; done.
Qed.

Lemma header_ext t d d' :
  dev_shape t d -> dev_shape t d' ->
  (forall i, ~ bam_byte t (dir_track t, 0) i -> image_byte d' (dir_track t, 0) i = image_byte d (dir_track t, 0) i) ->
  header_read d' (hf t) = header_read d (hf t).
Proof.
  intros Hd Hd' Hb.
  pose proof (header_location_valid t (d_geom d) (ds_geom _ _ Hd)) as Hv.
  pose proof (header_location_valid t (d_geom d') (ds_geom _ _ Hd')) as Hv'.
  destruct (sector_valid t d _ Hd Hv) as (b & _ & Hs & Hl).
  destruct (sector_valid t d' _ Hd' Hv') as (b' & _ & Hs' & Hl').
  rewrite <- header_loc_cases in Hb. unfold image_byte in Hb. rewrite Hs, Hs' in Hb.
  assert (forall i, ~ (4 <= i < 144 \/ 221 <= i) \/ t = D81 -> b' !!! i = b !!! i) as He.
  { intros i Hi. apply Hb. rewrite header_loc_cases. intros Hbi. destruct Hi as [Hi| ->].
    - by apply header_bytes_apart in Hbi.
    - destruct Hbi as (tr & Htr & Hbi). unfold count_at, bitmap_at in Hbi. simpl in *.
      destruct (Nat.leb_spec tr 40); simpl in Hbi; destruct Hbi as [[= ?]|[[= ?] Hbi]]; done. }
  assert (forall o n, o + n <= 256 -> (forall i, o <= i < o + n -> ~ (4 <= i < 144 \/ 221 <= i) \/ t = D81) ->
    slice o n b' = slice o n b) as Hsl.
  { intros o n Hon Hi. apply byte_slice_ext; try lia. intros i Hi'. apply He. by apply Hi. }
  unfold header_read. rewrite Hs, Hs'. cbn [rbind].
  assert (geos_header_new b' = geos_header_new b) as Hg.
  { unfold geos_header_new, geos_signature_offset, geos_id_offset,
      geos_id_size, geos_border_offset.
    rewrite (Hsl 173 (length geos_signature)) by (simpl; lia).
    rewrite (Hsl 173 16) by lia. rewrite !He by lia. done. }
  rewrite Hg. clear Hg Hb Hs Hs' Hv Hv'.
  destruct t; cbn -[slice lookup_total]; unfold DISK_NAME_SIZE; rewrite ?Hsl, ?He by first [lia | (left; lia) | (by right) | (intros; first [(left; lia) | by right])]; done.
Qed.
