(** Writing and reading the header; operations on a BAM entry. *)
From Verif Require Import Base ListFacts Layout Block Petscii GeosTypes DirEntry Header Bam Spec SpecCodec
  GeomFacts FlatProofs DevFacts CodecProofs EntryProofs BitFacts.
Ltac Zify.zify_post_hook ::= Z.div_mod_to_equations.

(** What reading the header of a sector gives. *)
Lemma header_write_ok t d h :
  dev_shape t d -> d_writable d = true -> length (h_disk_name h) <= 16 ->
  exists block block',
    sector d (hf_location (hf t)) = Ok block
    /\ header_render h (hf t) block = Ok block'
    /\ header_write h (hf t) d = (upd d (hf_location (hf t)) block', Ok tt)
    /\ length block' = 256
    /\ (forall i, ~ header_field t i -> block' !!! i = block !!! i)
    /\ header_read (upd d (hf_location (hf t)) block') (hf t)
       = Ok (mk_header (h_first_directory h) (h_disk_format_type h)
               (h_disk_name h ++ repeat 160 (16 - length (h_disk_name h)))
               (h_disk_id h) (h_directory_dos_version h) (h_directory_format_type h)
               (geos_header_new block)).
Proof.
  intros Hd Hw Hn.
  pose proof (header_location_valid t (d_geom d) (ds_geom _ _ Hd)) as Hv.
  destruct (sector_valid t d _ Hd Hv) as (block & _ & Hs & Hl).
  destruct (padded_roundtrip' (h_disk_name h) Hn) as (name & Hname & Hnl & Hnv).
  destruct (header_render_spec t h block name Hl Hname)
    as (b & Hb & Hbl & H0 & H1 & H2 & H3 & Hsl & Hi1 & Hi2 & Hdv & Hft & Hpad & Hk & _).
  exists block, b. split; [done|]. split; [done|]. split; [|split; [done|split; [done|]]].
  - unfold header_write, sbind, asks, lift. rewrite Hs, Hb. by apply (sector_mut_upd _ _ (fun _ => b) block).
  - rewrite (header_read_block t _ b); [|by eapply sector_upd_same|done].
    rewrite H0, H1, H2, Hsl, Hi1, Hi2, Hdv, Hft, Hnv, (geos_header_kept t block b) by done.
    by destruct (h_first_directory h), (h_disk_id h).
Qed.

Theorem header_roundtrip t d h :
  dev_shape t d -> d_writable d = true -> length (h_disk_name h) <= 16 ->
  exists d' block block',
    header_write h (hf t) d = (d', Ok tt)
    /\ (* what is read back *)
    header_read d' (hf t)
      = Ok (mk_header (h_first_directory h) (h_disk_format_type h)
              (h_disk_name h ++ repeat 160 (16 - length (h_disk_name h)))
              (h_disk_id h) (h_directory_dos_version h) (h_directory_format_type h)
              (geos_header_new block))
    /\ (* the bytes *)
    sector d (hf_location (hf t)) = Ok block
    /\ sector d' (hf_location (hf t)) = Ok block' /\ length block' = 256
    /\ take 3 block' = [fst (h_first_directory h); snd (h_first_directory h); h_disk_format_type h]
    /\ (t = D71 -> block' !!! 3 = 128)
    /\ (let '(o, v) := header_tail t h in slice o (length v) block' = v)
    /\ (forall i, ~ header_field t i -> block' !!! i = block !!! i)
    /\ (* nothing else *)
    (forall l, l <> hf_location (hf t) -> sector d' l = sector d l)
    /\ d_etable d' = d_etable d /\ d_geom d' = d_geom d.
Proof.
  intros Hd Hw Hn.
  destruct (header_write_ok t d h Hd Hw Hn) as (block & block' & Hs & Hr & Hwr & Hl & Hk & Hrd).
  pose proof (header_location_valid t (d_geom d) (ds_geom _ _ Hd)) as Hv.
  pose proof (sector_Ok_length t d _ _ Hd Hs) as Hlb.
  exists (upd d (hf_location (hf t)) block'), block, block'.
  split; [done|]. split; [done|]. split; [done|]. split; [by eapply sector_upd_same|].
  split; [done|].
  destruct (padded_roundtrip' (h_disk_name h) Hn) as (name & Hname & Hnl & Hnv).
  destruct (header_render_spec t h block name Hlb Hname)
    as (b & Hb & Hbl & H0 & H1 & H2 & H3 & _).
  rewrite Hr in Hb. apply Ok_inj in Hb. subst b.
  split; [|split; [done|split; [|split; [done|split; [|done]]]]].
  - rewrite <- H0, <- H1, <- H2. clear -Hl.
    do 3 (destruct block' as [|? block']; [simpl in Hl; lia|]). done.
  - by apply (header_render_layout t h block block').
  - intros l Hne. eapply sector_upd_other; eauto.
Qed.

Theorem header_name_too_long t d h :
  dev_shape t d -> 16 < length (h_disk_name h) ->
  header_write h (hf t) d = (d, Err EFilenameTooLong).
Proof.
  intros Hd Hn.
  pose proof (header_location_valid t (d_geom d) (ds_geom _ _ Hd)) as Hv.
  destruct (sector_valid t d _ Hd Hv) as (block & _ & Hs & Hl).
  unfold header_write, sbind, asks, lift. rewrite Hs. unfold header_render, write_bytes_with_padding.
  destruct (Nat.ltb_spec DISK_NAME_SIZE (length (h_disk_name h))) as [|Hx]; [done|].
  unfold DISK_NAME_SIZE in Hx. lia.
Qed.

(** ** BAM entries *)

Lemma popcount_free_bits m : popcount m = free_bits m.
Proof. unfold popcount, bits_from, free_bits. reflexivity. Qed.
Global Opaque free_bits.

Definition run_op (e : bam_entry) (o : bit_op) : res bam_entry :=
  match o with OpAllocate s => entry_allocate e s | OpFree s => entry_release e s end.
Fixpoint run_ops (e : bam_entry) (ops : list bit_op) : res bam_entry :=
  match ops with
  | [] => Ok e
  | o :: ops => let? e := run_op e o in run_ops e ops
  end.

Theorem bit_ops e ops :
  (e_map e < 2 ^ 64)%N -> Forall (fun o => op_sector o < 64) ops ->
  exists e', run_ops e ops = Ok e'
    /\ (forall s, N.testbit (e_map e') (N.of_nat s)
                  = bit_after (N.testbit (e_map e) (N.of_nat s)) ops s)
    /\ (ops <> [] -> e_free e' = free_bits (e_map e'))
    /\ (e_map e' < 2 ^ 64)%N.
Proof.
  revert e. induction ops as [|o ops IH]; intros e Hm Hf.
  { exists e. done. }
  inversion_clear Hf as [|? ? Ho Hf'].
  assert (exists e1, run_op e o = Ok e1
     /\ (forall s, N.testbit (e_map e1) (N.of_nat s)
           = bit_after (N.testbit (e_map e) (N.of_nat s)) [o] s)
     /\ e_free e1 = free_bits (e_map e1) /\ (e_map e1 < 2 ^ 64)%N) as (e1 & He1 & Hb1 & Hf1 & Hm1).
  { destruct o as [s|s]; simpl in Ho.
    - destruct (entry_allocate_ok e s Ho) as [e1 He1]. exists e1.
      destruct (entry_allocate_spec e s e1 Hm He1) as (_ & Hb & Hc & Hlt).
      split; [exact He1|]. split; [|split; [rewrite <- popcount_free_bits; exact Hc|exact Hlt]].
      intros i. rewrite Hb. unfold bit_after. cbn [fold_left op_sector].
      destruct (Nat.eqb_spec s i) as [->|Hne].
      + by rewrite N.eqb_refl, andb_false_r.
      + destruct (N.eqb_spec (N.of_nat i) (N.of_nat s)); [lia|]. by rewrite andb_true_r.
    - destruct (entry_release_ok e s Ho) as [e1 He1]. exists e1.
      destruct (entry_release_spec e s e1 Hm He1) as (_ & Hb & Hc & Hlt).
      split; [exact He1|]. split; [|split; [rewrite <- popcount_free_bits; exact Hc|exact Hlt]].
      intros i. rewrite Hb. unfold bit_after. cbn [fold_left op_sector].
      destruct (Nat.eqb_spec s i) as [->|Hne].
      + by rewrite N.eqb_refl, orb_true_r.
      + destruct (N.eqb_spec (N.of_nat i) (N.of_nat s)); [lia|]. by rewrite orb_false_r. }
  destruct (IH e1 Hm1 Hf') as (e' & Hr & Hb & Hc & Hlt).
  exists e'. cbn [run_ops]. rewrite He1. split; [exact Hr|]. split; [|split; [|exact Hlt]].
  - intros s. rewrite Hb, Hb1. done.
  - intros _. destruct ops as [|o' ops]; [|by apply Hc].
    simpl in Hr. apply Ok_inj in Hr. by subst e'.
Qed.
