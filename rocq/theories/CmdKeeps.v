(** No command of cdisk changes the size, the layout or the error table of an
    image, whatever the image holds; and the log of the writes is not observable. *)
From Verif Require Import Base ListFacts Layout Image Block Bam Format Petscii GeosTypes DirEntry Header World Chain Directory Writer Rel GeosFile File Validate
  Spec SpecCodec SpecChain SpecBam SpecFiles SpecKinds Session SpecDisk CodecProofs Cdisk SpecTool ToolProofs ToolMore Keeps SpecialFiles OpenSound View.

Section commands.
  Context (t : disk_type) (d : dev) (Hshape : dev_shape t d) (Hbytes : holds_bytes d).
  Notation d0 := (with_mode true d).

  Lemma mode_kept m : dev_kept t (with_mode m d) (with_mode m d).
  Proof. split; [destruct Hshape; by split|exact Hbytes|done..]. Qed.
  Lemma tool_kept m : world_kept t (with_mode m d) (tool_open t m d).
  Proof. apply open_kept, mode_kept. Qed.
  Lemma saved_kept m w : world_kept t (with_mode m d) w -> dev_kept t d0 (saved w).
  Proof. intros [_ [H1 H2 H3 H4 H5] _ _]. destruct H1. split; [by split|exact H2|done..]. Qed.

  Lemma keep_write_all fuel : forall buf, Forall is_byte buf -> forall e, keep (ww t e) (write_all fuel buf) (fun _ => True).
  Proof.
    induction fuel as [|fuel IH]; intros [|x buf] Hb e; [by apply keep_ret|by intros s|by apply keep_ret|].
    cbn [write_all]. eapply keep_bind; [by apply kept_write|]. intros n _. destruct (n =? 0); [apply keep_fail|]. apply IH. by apply Forall_drop.
  Qed.
  Lemma keep_copy source e : Forall (Forall is_byte) source -> keep (ww t e) (copy_in source) (fun _ => True).
  Proof.
    intros Hs. unfold copy_in. apply keep_for. intros piece Hp. apply keep_write_all. rewrite Forall_forall in Hs. apply Hs. by apply elem_of_list_In.
  Qed.
  Lemma keep_fill source w k e : Forall (Forall is_byte) source -> world_kept t e w -> writer_ok k -> world_kept t e (fst (fill_writer source w k)).
  Proof.
    intros Hs Hw Hk. unfold fill_writer.
    assert (keep (ww t e) (do_ (copy_in source) in writer_flush) (fun _ => True)) as H.
    { eapply keep_seq; [by apply keep_copy|apply kept_writer_flush]. }
    destruct (H (w, k) (conj Hw Hk)) as [[H1 H2] _]. destruct (sbind _ _ _) as [[w' k'] r]. cbn [fst snd] in *. by apply kept_drop.
  Qed.

  Lemma write_kept source name ft : Forall (Forall is_byte) source -> type_to_byte ft < 256 -> dev_kept t d0 (fst (cmd_write t source name ft d)).
  Proof.
    intros Hs Hft. unfold cmd_write.
    destruct (kept_create t d0 (from_str_lossy name) ft (from_str_lossy_bytes name) Hft (tool_open t true d) (tool_kept true)) as [H1 H2].
    destruct (create_file _ _ _) as [w [f| | |]]; cbn [fst snd value_in] in *; try by apply (saved_kept true).
    pose proof (kept_file_writer t d0 (w_dev w) f (wk_dev _ _ _ H1) H2) as H3.
    destruct (file_writer (w_dev w) f) as [k| | |]; cbn [fst value_in] in *; try by apply (saved_kept true).
    pose proof (keep_fill source w k d0 Hs H1 H3) as H4. destruct (fill_writer source w k) as [w' r]. by apply (saved_kept true).
  Qed.

  Lemma append_kept source name : dev_kept t d0 (fst (cmd_append t source name d)).
  Proof.
    change (cmd_append t source name d) with (cmd_append t source name d0).
    rewrite (append_command t source name d0); [|destruct Hshape; by split|exact Hbytes|done]. apply mode_kept.
  Qed.
  Lemma delete_kept name : dev_kept t d0 (fst (cmd_delete t name d)).
  Proof.
    unfold cmd_delete. pose proof (tool_kept true) as Hw. pose proof (open_ok t d0 _ (from_str_lossy name) Hw) as Ho.
    destruct (open_file _ _) as [f| | |]; cbn [fst value_in] in *; try by apply (saved_kept true).
    destruct (kept_delete t d0 f Ho _ Hw) as [H _]. destruct (file_delete f _) as [w' r]. by apply (saved_kept true).
  Qed.
  Lemma rename_kept old new : dev_kept t d0 (fst (cmd_rename t old new d)).
  Proof.
    unfold cmd_rename. destruct (kept_rename t d0 (from_str_lossy old) (from_str_lossy new) (from_str_lossy_bytes new) _ (tool_kept true)) as [H _].
    destruct (w_rename _ _ _) as [w r]. by apply (saved_kept true).
  Qed.
  Lemma id_bytes bs : Forall is_byte bs -> loc_ok (id_from_bytes bs).
  Proof.
    intros H. unfold id_from_bytes, loc_ok. destruct bs as [|x [|y bs]]; cbn [fst snd]; [lia| |].
    - split; [by apply (Forall_inv H)|lia].
    - split; [by apply (Forall_inv H)|by apply (Forall_inv (Forall_inv_tail H))].
  Qed.
  Lemma format_kept name id : dev_kept t d0 (fst (cmd_format t name id d)).
  Proof.
    unfold cmd_format.
    destruct (kept_format t d0 (from_str_lossy name) (id_from_bytes (from_str_lossy id)) (from_str_lossy_bytes name)
                (id_bytes _ (from_str_lossy_bytes id)) _ (tool_kept true)) as [H _].
    destruct (write_format _ _ _) as [w r]. by apply (saved_kept true).
  Qed.
  Lemma edit_list_ok alloc tr ss : forall b, cell_ok t b -> value_in (cell_ok t) (edit_sector_list alloc tr b ss).
  Proof.
    induction ss as [|s ss IH]; intros b Hb; [done|]. cbn [edit_sector_list].
    assert (value_in (cell_ok t) (bam_update b (tr, s) (if alloc then entry_allocate else entry_release))) as H.
    { destruct alloc; [by apply allocate_ok|by apply release_ok]. }
    destruct (bam_update _ _ _); [|done..]. cbn [rbind value_in] in *. by apply IH.
  Qed.
  Lemma edit_tracks_ok f sector alloc ts : forall b, cell_ok t b -> value_in (cell_ok t) (edit_track_list f sector alloc b ts).
  Proof.
    induction ts as [|tr ts IH]; intros b Hb; [done|]. cbn [edit_track_list]. destruct (bam_entry_at b tr); [|done..]. cbn [rbind].
    pose proof (edit_list_ok alloc tr (edit_sectors f sector tr) b Hb) as H. destruct (edit_sector_list _ _ _ _); [|done..]. cbn [rbind value_in] in *.
    by apply IH.
  Qed.
  Lemma bam_edit_kept track sector alloc : dev_kept t d0 (fst (cmd_bam_edit t track sector alloc d)).
  Proof.
    unfold cmd_bam_edit.
    match goal with |- dev_kept _ _ (fst (let '(_, _) := ?m ?w in _)) => assert (keep (world_kept t d0) m (fun _ => True)) as H end.
    { eapply keep_bind; [apply asks_any|]. intros f _. eapply keep_bind; [apply asks_any|]. intros c _.
      eapply keep_seq; [|apply kept_flush_cell]. apply kept_update. intros b Hb. by apply edit_tracks_ok. }
    destruct (H (tool_open t true d) (tool_kept true)) as [H' _]. destruct (sbind _ _ _) as [w r]. by apply (saved_kept true).
  Qed.
End commands.

(** ** The log *)

Definition with_log (log : list (location * list nat)) (d : dev) : dev :=
  mk_dev (d_writable d) (d_geom d) (d_blocks d) (d_etable d) log.

Lemma log_bam_sections log d ss : bam_read_sections (with_log log d) ss = bam_read_sections d ss.
Proof. induction ss as [|s ss IH]; [done|]. simpl. by rewrite IH. Qed.
Lemma log_open log t d : open_world t (with_log log d) = set_dev (with_log log d) (open_world t d).
Proof.
  unfold open_world, initialize. simpl. unfold bam_read. rewrite !log_bam_sections. change (header_read (with_log log d)) with (header_read d).
  destruct (res_ok (header_read d _)) as [h|]; [|done]. simpl. by destruct (res_ok _).
Qed.
Lemma found_log log t d e ls k : dev_shape t d -> de_scheme e <> SLinear ->
  (exists x, file_at d 0 e = Ok x /\ file_occupied d x = Ok ls /\ reads_as d x k) ->
  exists x, file_at (with_log log d) 0 e = Ok x /\ file_occupied (with_log log d) x = Ok ls /\ reads_as (with_log log d) x k.
Proof.
  intros Hd Hs (x & Hx & Ho & Hr). assert (dev_shape t (with_log log d)) as Hd' by (destruct Hd; by split).
  destruct (file_local t d (with_log log d) Hd Hd' 0 e x ls Hs Hx Ho) as (H1 & H2 & H3); [done|]. exists x. auto.
Qed.
Lemma sound_log log t d dirs chains a : sound_image t d dirs chains a -> sound_image t (with_log log d) dirs chains a.
Proof.
  intros [H1 H2 H3 H4 H0 H5 H6 H7 H8 H9 H10 H11 H12 H13 H14 H15].
  assert (border_of t (with_log log d) = border_of t d) as Eb by (unfold border_of; by rewrite log_open).
  assert (border_at t (with_log log d) = border_at t d) as Ea by (unfold border_at; by rewrite Eb).
  split; rewrite ?Eb, ?Ea; try done.
  - destruct H1. by split.
  - by rewrite log_open.
  - intros i o ls Hi Hl. destruct (H12 i o ls Hi Hl) as (l & b & E1 & E2 & e & P & H). exists l, b. split; [done|]. split; [done|]. exists e. split; [done|].
    destruct o as [f|]; [|done]. destruct H as (Hc & Hz & H). split; [done|]. split; [done|]. destruct (a_special f); [|done].
    destruct H as (Hs & Hf & Ef). split; [done|]. split; [|exact Ef]. exact (found_log log t d e ls _ H1 Hs Hf).
  - by rewrite log_open.
Qed.
