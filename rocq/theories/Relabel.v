(** Proofs about changing the header of a disk. *)
From Verif Require Import Base ListFacts Layout Block Bam Format Petscii GeosTypes DirEntry Header World Chain Directory Writer Rel GeosFile File Validate
  Spec SpecCodec SpecChain ChainProofs Holds SpecBam GeomFacts FlatProofs DevFacts EntryProofs HeaderProofs BamProofs BamState Evolve View SpecKinds Session SpecDisk SpecFiles Dirs Ops OpWrite OpFile SpecialFiles Refine Trace SpecLabel.
Local Open Scope nat_scope.


Lemma read_sections_ext t d d' ss :
  dev_shape t d -> dev_shape t d' -> Forall (section_ok t) ss ->
  (forall s l i, In s ss -> in_section s l i -> image_byte d' l i = image_byte d l i) ->
  bam_read_sections d' ss = bam_read_sections d ss.
Proof.
  intros Hd Hd'. induction ss as [|s ss IH]; intros Hok Hi; [done|]. apply Forall_cons in Hok as [H1 H2]. cbn [bam_read_sections].
  rewrite IH by (done || (intros s' l i Hs; apply Hi; by right)).
  rewrite (read_section_ext t d d' s); [done..|]. intros l i. apply Hi. by left.
Qed.

(** Writing a header sector that keeps all but the header's own bytes. *)
Lemma view_relabel t d m h' block block' :
  view t d m -> sector d (hf_location (hf t)) = Ok block -> length block' = 256 ->
  (forall i, ~ header_field t i -> block' !!! i = block !!! i) ->
  let d' := upd d (hf_location (hf t)) block' in
  header_read d' (hf t) = Ok h' -> h_geos h' = h_geos (md_header m) ->
  view t d' (mk_mdisk h' (md_dir m) (md_slots m)) /\ disk_bam t d' = disk_bam t d.
Proof.
  intros V Hb Hl Hk d' Hh Hg. pose proof (v_shape _ _ _ V) as Hd.
  pose proof (header_location_valid t (d_geom d) (ds_geom _ _ Hd)) as Hv.
  assert (dev_shape t d') as Hd' by (by apply upd_shape).
  assert (forall l', ~ sys t l' -> sector d' l' = sector d l') as Hs.
  { intros l' Hl'. apply (sector_upd_other t); [done| |done]. intros E. apply Hl'. rewrite <- E. apply header_loc_sys. }
  assert (forall l', l' ∈ used m -> sector d' l' = sector d l') as Hs'.
  { intros l' Hl'. apply Hs. by apply (view_used_plain _ _ _ V). }
  split.
  - assert (border (mk_mdisk h' (md_dir m) (md_slots m)) = border m) as Hbo by (unfold border; cbn [md_header]; by rewrite Hg).
    assert (md_secs (mk_mdisk h' (md_dir m) (md_slots m)) = md_secs m) as Hse by (unfold md_secs; rewrite Hbo; done).
    assert (used (mk_mdisk h' (md_dir m) (md_slots m)) = used m) as Hu by (unfold used; rewrite Hse; done).
    split; cbn [md_header md_dir md_slots]; try apply V.
    + done.
    + done.
    + rewrite Hbo. apply V.
    + rewrite Hu. apply V.
    + eapply links_ext; [apply (v_links _ _ _ V)|]. intros l' Hl'. apply Hs'. apply used_in. left. by apply dir_secs.
    + rewrite Hse. apply V.
    + intros i o Hi. unfold slot_loc. rewrite Hse. fold (slot_loc m i). rewrite Hs'; [by apply (v_slot _ _ _ V)|]. apply used_in. left.
      apply slot_loc_elem. by eapply view_slot_lt.
    + intros i f Hi. destruct (v_files _ _ _ V i f Hi) as (Hok & Hc & Hx). split; [done|]. split; [done|].
      eapply contents_ext; [done|done|done|]. intros l' Hl'. apply Hs'. apply used_in. right. eauto.
  - unfold disk_bam, d_format. rewrite Hh, (v_header _ _ _ V), Hg. unfold bam_read.
    rewrite (read_sections_ext t d d'); [done|done|done|apply sections_ok|].
    intros s l i Hin Hi. unfold d'. rewrite (image_byte_upd t) by done. case_decide as E; [|done]. subst l.
    assert (bam_byte t (hf_location (hf t)) i) as Hx by (apply section_bytes; eauto).
    unfold image_byte. rewrite Hb. apply Hk. rewrite header_loc_cases in Hx. pose proof (header_bytes_apart t i Hx) as Hr.
    destruct t; cbn [header_field]; [lia|lia|]. exfalso.
    destruct Hx as (tr & Htr & Hbi). unfold count_at, bitmap_at in Hbi. cbn in *.
    destruct (Nat.leb_spec tr 40); cbn in Hbi; destruct Hbi as [[= ?]|[[= ?] Hbi]]; done.
Qed.

Lemma related_relabel t a s m c b d' h' :
  related t a s m c b -> view t d' (mk_mdisk h' (md_dir m) (md_slots m)) -> disk_bam t d' = disk_bam t (w_dev (s_world s)) ->
  h_geos h' = h_geos (md_header m) ->
  related t (relabelled (h_disk_name h') a) (set_world (set_dev d' (set_header (Some h') (s_world s))) s) (mk_mdisk h' (md_dir m) (md_slots m)) c b.
Proof.
  intros [[W1 W2 W3 W4 W5 W6 [A1 A2 A3]] R2 R3 R4 R5 R6 R7 R8 R9 R10 R11] V Hb Hg.
  destruct m as [[m1 m2 m3 m4 m5 m6 g] dirs slots], h' as [h1 h2 h3 h4 h5 h6 g']. cbn [h_geos md_header md_dir md_slots h_disk_name] in *. subst g'.
  split.
  - split; [exact W1|exact W2|reflexivity|exact W4|exact W5|exact V|]. split; [exact A1|exact A2|exact A3].
  - exact R2.
  - exact R3.
  - exact R4.
  - exact R5.
  - exact R6.
  - reflexivity.
  - eapply Forall2_impl; [exact R8|]. intros [i|] x; [|done]. intros [[H]|H]; [left; by split|right; exact H].
  - eapply Forall2_impl; [exact R9|]. intros [x|] o; [|done]. intros (k & f & H1 & [] & H3). exists k, f. split; [exact H1|]. split; [by split|exact H3].
  - exact R10.
  - cbn [relabelled as_synced set_world s_world set_dev w_dev]. rewrite Hb. exact R11.
Qed.

Lemma header_change t a s h h' :
  reached t a s -> w_header (s_world s) = Some h -> length (h_disk_name h') <= 16 -> h_geos h' = h_geos h ->
  exists w1 w2 block block',
    w_header_mut (fun _ => h') (s_world s) = (w1, Ok tt) /\ flush_header w1 = (w2, Ok tt)
    /\ sector (w_dev (s_world s)) (hf_location (hf t)) = Ok block
    /\ w_dev w2 = upd (w_dev (s_world s)) (hf_location (hf t)) block'
    /\ (forall i, ~ header_field t i -> block' !!! i = block !!! i)
    /\ header_read (w_dev w2) (hf t) = Ok (padded h')
    /\ w_header w2 = Some h'
    /\ exists m c b, related t (relabelled (h_disk_name (padded h')) a) (set_world (set_header (Some (padded h')) w2) s) m c b.
Proof.
  intros Hr Hh Hn Hg. destruct (reached_related _ _ _ Hr) as (m & c & b & R). pose proof (rl_wok _ _ _ _ _ _ R) as W.
  pose proof (wo_view _ _ _ _ _ _ W) as V. rewrite (wo_header _ _ _ _ _ _ W) in Hh. injection Hh as <-.
  destruct (header_write_ok t (w_dev (s_world s)) h' (v_shape _ _ _ V) (v_writable _ _ _ V) Hn) as (block & block' & Hs & _ & Hwr & Hl & Hk & Hrd).
  assert (geos_header_new block = h_geos (md_header m)) as Hgb.
  { pose proof (v_header _ _ _ V) as Hv. unfold header_read in Hv. rewrite Hs in Hv. cbn [rbind] in Hv.
    destruct t; cbn [hf_double_sided_flag_expectation hf] in Hv; [by apply Ok_inj in Hv as <-| |by apply Ok_inj in Hv as <-].
    cbn -[lookup_total slice geos_header_new] in Hv. destruct (_ =? 128); [|done]. by apply Ok_inj in Hv as <-. }
  rewrite Hgb, <- Hg in Hrd. fold (padded h') in Hrd.
  exists (set_header (Some h') (s_world s)), (set_dev (upd (w_dev (s_world s)) (hf_location (hf t)) block') (set_header (Some h') (s_world s))), block, block'.
  split. { unfold w_header_mut, sbind, asks, modify, check_writability, w_get_header. by rewrite (v_writable _ _ _ V), (wo_header _ _ _ _ _ _ W). }
  split.
  { unfold flush_header, sbind, asks, gets, on_dev, zoom, w_get_header, native. cbn [w_header set_header w_dev w_type].
    rewrite (wo_type _ _ _ _ _ _ W). change (header_fmt (native_format t)) with (hf t). by rewrite Hwr. }
  do 5 (split; [done|]).
  destruct (view_relabel t _ m (padded h') block block' V Hs Hl Hk Hrd Hg) as [V' Hb'].
  exists (mk_mdisk (padded h') (md_dir m) (md_slots m)), c, b. exact (related_relabel t a s m c b _ (padded h') R V' Hb' Hg).
Qed.

Lemma relabel_calls t a s h h' :
  reached t a s -> w_header (s_world s) = Some h -> length (h_disk_name h') <= 16 -> h_geos h' = h_geos h ->
  let name := h_disk_name h' ++ repeat 160 (16 - length (h_disk_name h')) in
  exists w1 w2, w_header_mut (fun _ => h') (s_world s) = (w1, Ok tt) /\ flush_header w1 = (w2, Ok tt)
    /\ (length (h_disk_name h') = 16 -> forall os a' rs, arun t (relabelled name a) os = Some (a', rs) -> snd (calls (set_world w2 s) os) = rs)
    /\ (forall os a' rs, arun t (relabelled name a) (OReopen :: os) = Some (a', rs) -> snd (calls (set_world w2 s) (OReopen :: os)) = rs).
Proof.
  intros Hr Hh Hn Hg name. destruct (header_change t a s h h' Hr Hh Hn Hg) as (w1 & w2 & block & block' & H1 & H2 & _ & _ & _ & _ & Hw & m & c & b & R).
  exists w1, w2. split; [done|]. split; [done|]. split.
  - intros Hl os a' rs Ha. destruct (run_refines t os _ _ _ _ _ _ _ R Ha) as (s' & m' & c' & b' & Hc & _).
    replace w2 with (set_header (Some (padded h')) w2); [by rewrite Hc|]. destruct w2 as [x1 x2 x3 x4 x5 x6]. cbn in Hw. subst x3. unfold set_header. cbn. f_equal. f_equal.
    destruct h' as [y1 y2 y3 y4 y5 y6 y7]. unfold padded. cbn in *. rewrite Hl. cbn. by rewrite app_nil_r.
  - intros os a' rs Ha. destruct (run_refines t _ _ _ _ _ _ _ _ R Ha) as (s' & m' & c' & b' & Hc & _).
    assert (calls (set_world w2 s) (OReopen :: os) = calls (set_world (set_header (Some (padded h')) w2) s) (OReopen :: os)) as -> by reflexivity.
    by rewrite Hc.
Qed.

(** ** The forms used in the property theorems *)

Lemma relabel_image t a s h h' :
  reached t a s -> w_header (s_world s) = Some h -> length (h_disk_name h') <= 16 -> h_geos h' = h_geos h ->
  exists w1 w2 block block',
    w_header_mut (fun _ => h') (s_world s) = (w1, Ok tt) /\ flush_header w1 = (w2, Ok tt)
    /\ sector (w_dev (s_world s)) (dir_track t, 0) = Ok block
    /\ w_dev w1 = w_dev (s_world s) /\ w_dev w2 = after_writes (w_dev (s_world s)) [((dir_track t, 0), block')]
    /\ (forall i, ~ header_field t i -> block' !!! i = block !!! i)
    /\ w_header (open_world t (w_dev w2)) = Some (padded h').
Proof.
  intros Hr Hh Hn Hg. destruct (header_change t a s h h' Hr Hh Hn Hg) as (w1 & w2 & block & block' & H1 & H2 & Hs & Hd & Hk & Hrd & Hw & _).
  exists w1, w2, block, block'. split; [done|]. split; [done|]. rewrite header_loc_cases in *. split; [done|]. split.
  { unfold w_header_mut, sbind, asks, modify in H1. destruct (check_writability _); [|discriminate H1..]. destruct (w_get_header _); [|discriminate H1..].
    by injection H1 as <-. }
  split; [exact Hd|]. split; [done|]. unfold open_world, initialize, native. cbv zeta. cbn [w_dev w_type].
  change (header_fmt (native_format t)) with (hf t). rewrite Hrd. cbn [res_ok]. by destruct (bam_read (w_dev w2) (native_format t)).
Qed.

Lemma relabel_too_long t a s h h' :
  reached t a s -> w_header (s_world s) = Some h -> 16 < length (h_disk_name h') ->
  exists w1, w_header_mut (fun _ => h') (s_world s) = (w1, Ok tt) /\ w_dev w1 = w_dev (s_world s)
    /\ flush_header w1 = (w1, Err EFilenameTooLong).
Proof.
  intros Hr Hh Hn. destruct (reached_related _ _ _ Hr) as (m & c & b & R). pose proof (rl_wok _ _ _ _ _ _ R) as W.
  pose proof (wo_view _ _ _ _ _ _ W) as V. exists (set_header (Some h') (s_world s)).
  split. { unfold w_header_mut, sbind, asks, modify, check_writability, w_get_header. by rewrite (v_writable _ _ _ V), Hh. }
  split; [done|].
  unfold flush_header, sbind, asks, gets, on_dev, zoom, w_get_header, native. cbn [w_header set_header w_dev w_type].
  rewrite (wo_type _ _ _ _ _ _ W). change (header_fmt (native_format t)) with (hf t).
  by rewrite (header_name_too_long t _ _ (v_shape _ _ _ V) Hn).
Qed.

Lemma total_blocks t : total_data_blocks (native_format t) = disk_blocks t.
Proof. destruct t; vm_compute; reflexivity. Qed.
Lemma total_entries t : max_directory_entries (native_format t) = 8 * dir_limit t.
Proof. destruct t; vm_compute; reflexivity. Qed.
