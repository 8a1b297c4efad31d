(** Handles follow the allocation map of their disk. *)
From Verif Require Import Base ListFacts Layout Block Bam Format GeosTypes DirEntry Header World Chain Directory Writer Rel GeosFile File
  Spec DevFacts SpecBam Ops SpecHandle Opening EntryProofs.

Lemma alter_lookup_same {A} (f : A -> A) (l : list A) i x : l !! i = Some x -> alter f i l !! i = Some (f x).
Proof. intros H. by rewrite list_lookup_alter, H. Qed.

Lemma maps_kept ms : forall w c b,
  w_bam w = Some c -> w_cells w !! c = Some b -> Forall (fun m => m <> None) ms ->
  w_bam (set_maps ms w) = Some c /\ w_cells (set_maps ms w) !! c = Some (latest b ms).
Proof.
  induction ms as [|[m|] ms IH]; intros w c b Hb Hc Hf; [done| |].
  - apply Forall_cons in Hf as [_ Hf]. apply (IH (set_bam (Some m) w) c m); [| |done].
    + unfold set_bam. by rewrite Hb.
    + unfold set_bam. rewrite Hb. cbn. rewrite list_lookup_insert; [done|]. by eapply lookup_lt_Some.
  - by apply Forall_cons in Hf as [? _].
Qed.

(** Once invalid, a cell that is no longer the disk's stays so. *)
Lemma maps_invalid ms : forall w c b,
  w_bam w <> Some c -> (forall c', w_bam w = Some c' -> c' < length (w_cells w)) ->
  w_cells w !! c = Some b -> b_invalidated b = true ->
  exists b', w_cells (set_maps ms w) !! c = Some b' /\ b_invalidated b' = true /\ w_bam (set_maps ms w) <> Some c.
Proof.
  induction ms as [|m ms IH]; intros w c b Hne Hlt Hc Hi; [by exists b|].
  change (set_maps (m :: ms) w) with (set_maps ms (set_bam m w)). pose proof (lookup_lt_Some _ _ _ Hc) as Lc.
  apply (IH _ c b); [| | |done]; unfold set_bam; destruct m as [m|]; destruct (w_bam w) as [c'|] eqn:Eb; cbn; rewrite ?Eb; try done.
  - intros [= E]. lia.
  - intros c1 E1. rewrite insert_length. apply Hlt. congruence.
  - intros c1 [= <-]. rewrite app_length. cbn. lia.
  - by rewrite list_lookup_insert_ne by congruence.
  - by apply lookup_app_l_Some.
  - by rewrite list_lookup_alter_ne by congruence.
Qed.

Lemma maps_dropped ms w c b :
  w_bam w = Some c -> w_cells w !! c = Some b -> In None ms ->
  exists b', w_cells (set_maps ms w) !! c = Some b' /\ b_invalidated b' = true /\ w_bam (set_maps ms w) <> Some c.
Proof.
  revert w b. induction ms as [|m ms IH]; intros w b Hb Hc Hin; [done|].
  change (set_maps (m :: ms) w) with (set_maps ms (set_bam m w)). destruct m as [m|].
  - destruct Hin as [|Hin]; [done|]. apply (IH (set_bam (Some m) w) m); [| |done]; unfold set_bam; rewrite Hb; [done|]. cbn.
    apply list_lookup_insert. by eapply lookup_lt_Some.
  - apply (maps_invalid ms (set_bam None w) c (bam_invalidate b)); unfold set_bam; rewrite ?Hb; cbn; try done. by apply alter_lookup_same.
Qed.

Section invalid.
  Context (w : world) (c : nat) (b : bam) (Hc : w_cells w !! c = Some b) (Hi : b_invalidated b = true).

  Lemma invalid_update (f : bam -> res bam) : f b = Err EInvalidBAM -> update_cell c f w = (w, Err EInvalidBAM).
  Proof. intros Hf. unfold update_cell, sbind, asks, gets, lift, cell. cbn. rewrite Hc. cbn. by rewrite Hf. Qed.
  Lemma invalid_free l : bam_free b l = Err EInvalidBAM.
  Proof. unfold bam_free, bam_update, check_validity. by rewrite Hi. Qed.
  Lemma invalid_allocate l : bam_allocate b l = Err EInvalidBAM.
  Proof. unfold bam_allocate, bam_update, check_validity. by rewrite Hi. Qed.
  Lemma invalid_next o : bam_next_free_block b o = Err EInvalidBAM.
  Proof. unfold bam_next_free_block, check_validity. by rewrite Hi. Qed.
  Lemma invalid_flush d : bam_flush b d = (d, Err EInvalidBAM).
  Proof. unfold bam_flush, check_validity. by rewrite Hi. Qed.
  Lemma invalid_flush_cell : flush_cell c w = (w, Err EInvalidBAM).
  Proof.
    unfold flush_cell. unfold sbind, asks, gets, lift, cell. cbn. rewrite Hc. cbn.
    erewrite on_dev_run by apply invalid_flush. by destruct w.
  Qed.

  Lemma invalid_remove start ls :
    chain_locations (w_dev w) start = Ok ls -> remove_chain c start w = (w, Err EInvalidBAM).
  Proof.
    intros Hl. unfold remove_chain. erewrite (sbind_ok _ _ w w); [|unfold asks, gets; by rewrite Hl].
    destruct ls as [|l ls]; cbn [for_each].
    - erewrite (sbind_ok _ _ w w); [|done]. apply invalid_flush_cell.
    - erewrite (sbind_err _ _ w w); [done|]. erewrite (sbind_err _ _ w w); [done|].
      apply invalid_update, invalid_free.
  Qed.

  Lemma invalid_delete x ls :
    handle_map x = c -> chain_locations (w_dev w) (de_first (file_entry x)) = Ok ls ->
    file_delete x w = (w, Err EInvalidBAM).
  Proof.
    intros Hm Hl. destruct x as [c0 e|f|f|f]; cbn [file_delete file_entry handle_map] in *.
    - unfold linear_delete. rewrite Hm. erewrite (sbind_err _ _ w w); [done|]. by apply (invalid_remove _ ls).
    - unfold rel_delete. rewrite Hm. erewrite (sbind_err _ _ w w); [done|]. by apply (invalid_remove _ ls).
    - unfold geos_delete. rewrite Hm. erewrite (sbind_err _ _ w w); [done|]. by apply (invalid_remove _ ls).
    - unfold geos_delete. rewrite Hm. erewrite (sbind_err _ _ w w); [done|]. by apply (invalid_remove _ ls).
  Qed.

  (** A flush writes the block the writer holds and then fails. *)
  Lemma invalid_writer_flush k old :
    cw_bam k = c -> cw_dirty k = true -> d_writable (w_dev w) = true -> sector (w_dev w) (cw_loc k) = Ok old ->
    writer_flush (w, k) = ((set_dev (upd (w_dev w) (cw_loc k) (cw_block k)) w, k), Err EInvalidBAM).
  Proof.
    intros Hk Hd Hw Hs. unfold writer_flush, the_writer. unfold sbind at 1. unfold gets. cbn [snd]. rewrite Hd.
    erewrite (sbind_ok _ _ (w, k)).
    2:{ unfold write_current_block, the_writer. unfold sbind, gets. cbn [snd]. apply on_world_run. by apply (on_dev_mut _ _ _ old). }
    erewrite (sbind_err _ _); [done|]. apply on_world_run. rewrite Hk.
    unfold flush_cell. unfold sbind, asks, gets, lift, cell. cbn. rewrite Hc. cbn.
    erewrite on_dev_run by apply invalid_flush. by destruct w.
  Qed.

  (** A write that needs another block fails the same way. *)
  Lemma invalid_writer_next k old :
    cw_bam k = c -> d_writable (w_dev w) = true -> sector (w_dev w) (cw_loc k) = Ok old ->
    allocate_next_block (w, k) = ((set_dev (upd (w_dev w) (cw_loc k) (cw_block k)) w, k), Err EInvalidBAM).
  Proof.
    intros Hk Hw Hs. unfold allocate_next_block.
    erewrite (sbind_ok _ _ (w, k)).
    2:{ unfold write_current_block, the_writer. unfold sbind, gets. cbn [snd]. apply on_world_run. by apply (on_dev_mut _ _ _ old). }
    unfold the_writer at 1. unfold sbind at 1. unfold gets. cbn [snd].
    erewrite (sbind_err _ _); [done|]. apply on_world_run. rewrite Hk. unfold asks, cell. cbn. rewrite Hc. cbn. by rewrite invalid_next.
  Qed.
End invalid.

(** Reading the disk again. *)
Lemma initialize_keeps t w c b0 :
  w_type w = t -> dev_shape t (w_dev w) -> w_bam w = Some c -> w_cells w !! c = Some b0 ->
  (exists h b f, header_read (w_dev w) (hf t) = Ok h /\ bam_read (w_dev w) (native_format t) = Ok b
     /\ w_bam (initialize w) = Some c /\ w_cells (initialize w) !! c = Some (bam_set_format f b))
  \/ ((forall h, header_read (w_dev w) (hf t) <> Ok h) /\ w_bam (initialize w) = None
      /\ exists b, w_cells (initialize w) !! c = Some b /\ b_invalidated b = true).
Proof.
  intros Ht Hd Hb Hc. destruct (bam_read_any t (w_dev w) false Hd) as (b & Hbr & _). rewrite set_geos_false in Hbr.
  assert (exists r, header_read (w_dev w) (hf t) = r) as [r Hr] by eauto.
  unfold initialize, native. rewrite Ht. change (header_fmt (native_format t)) with (hf t). rewrite Hr, Hbr.
  pose proof (lookup_lt_Some _ _ _ Hc) as Lc. destruct r as [h| | |]; cbn [res_ok].
  - left. exists h, b, (match h_geos h with Some _ => set_geos true (native_format t) | None => native_format t end).
    split; [done|]. split; [done|]. unfold set_bam, set_fmt, set_header. cbn. rewrite Hb. cbn. split; [done|]. by apply list_lookup_insert.
  - right. split; [done|]. unfold set_bam, set_fmt, set_header. cbn. rewrite Hb. cbn. split; [done|].
    eexists. split; [by apply alter_lookup_same|done].
  - right. split; [done|]. unfold set_bam, set_fmt, set_header. cbn. rewrite Hb. cbn. split; [done|].
    eexists. split; [by apply alter_lookup_same|done].
  - right. split; [done|]. unfold set_bam, set_fmt, set_header. cbn. rewrite Hb. cbn. split; [done|].
    eexists. split; [by apply alter_lookup_same|done].
Qed.

Lemma refused w c b :
  w_cells w !! c = Some b -> b_invalidated b = true ->
  (forall x ls, handle_map x = c -> chain_locations (w_dev w) (de_first (file_entry x)) = Ok ls ->
     file_delete x w = (w, Err EInvalidBAM))
  /\ (forall k old, cw_bam k = c -> d_writable (w_dev w) = true -> sector (w_dev w) (cw_loc k) = Ok old ->
     let w' := set_dev (upd (w_dev w) (cw_loc k) (cw_block k)) w in
     (cw_dirty k = true -> writer_flush (w, k) = ((w', k), Err EInvalidBAM))
     /\ allocate_next_block (w, k) = ((w', k), Err EInvalidBAM)).
Proof.
  intros Hc Hi. split.
  - intros x ls. by apply (invalid_delete w c b Hc Hi).
  - intros k old Hk Hw Hs w'. split.
    + intros Hd. by apply (invalid_writer_flush w c b Hc Hi k old).
    + by apply (invalid_writer_next w c b Hc Hi k old).
Qed.
