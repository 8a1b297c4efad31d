(** The image left by a history is in order, and an image without complaints is. *)
From Verif Require Import Base ListFacts Layout Block Bam Format Petscii GeosTypes DirEntry Header World Chain Directory File
  Spec SpecCodec GeomFacts FlatProofs DevFacts CodecProofs EntryProofs SpecChain ChainProofs SpecBam AllocProofs BamState Evolve Holds
  View Dirs Ops Count OpWrite OpFile FormatProofs SpecFiles RelProofs SpecValidate ValidateProofs Opening SpecKinds Session SpecDisk Refine
  Tables OpenSound Trace.
Ltac Zify.zify_post_hook ::= Z.div_mod_to_equations.

Lemma history_open t d dirs chains a0 os a rs :
  sound_image t d dirs chains a0 -> arun t a0 os = Some (a, rs) -> snd (calls (start t d) os) = rs.
Proof.
  intros Hi Ha. destruct (sound_related t d dirs chains a0 Hi) as (m & b & R & _).
  destruct (run_refines t os _ _ _ _ _ _ _ R Ha) as (s' & m' & c' & b' & Hc & R'). by rewrite Hc.
Qed.

Lemma reached_sound t a s :
  reached t a s -> as_synced a = true -> writer_open a = false -> holds_bytes (w_dev (s_world s)) ->
  exists dirs chains, sound_image t (w_dev (s_world s)) dirs chains (set_handles [] (set_writers [] a)).
Proof.
  intros Hr Hsy Hwr Hby. pose proof (reached_tidy t a s Hr) as Htidy.
  destruct (reached_related _ _ _ Hr) as (m & c & b & R). pose proof (rl_view t a s m c b R) as V.
  set (d := w_dev (s_world s)) in *. pose proof (v_shape _ _ _ V) as Hd.
  assert (forall i, writer_on a i = false) as Hwon.
  { intros i. destruct (writer_on a i) eqn:E; [|done]. apply writer_on_spec in E as (k & x & Hk & _).
    by apply (writer_open_false a k x Hwr) in Hk. }
  exists (md_dir m), (map chain_of (md_slots m)).
  assert (concat (map chain_of (md_slots m)) = files_used (md_slots m)) as Hc by done.
  destruct (open_cases t d Hd) as (Hty & Hdev & [(Hno & _)|(h' & b' & Hhr & Hbr & Hwb & Hop)]).
  { exfalso. by apply (Hno (md_header m)), V. }
  assert (h' = md_header m) as ->. { pose proof (v_header _ _ _ V). congruence. }
  assert (bool_decide (is_Some (h_geos (md_header m))) = is_geos m) as Hgeo by (unfold is_geos; by destruct (h_geos (md_header m))).
  rewrite Hgeo in Hop. fold (m_format t m) in Hop.
  assert (bam_set_format (m_format t m) b' = b) as Hsf.
  { pose proof (rl_synced _ _ _ _ _ _ R Hsy) as H. unfold disk_bam in H. fold d in H. rewrite (view_format _ _ _ V) in H.
    destruct (read_other_format d (native_format t) (m_format t m) b' eq_refl Hbr) as [Hr' _]. congruence. }
  rewrite Hsf in Hop.
  assert (border_of t d = border m) as Hbd by (unfold border_of, border; by rewrite (op_header _ _ _ _ _ Hop)).
  assert (first_dir t ∈ md_dir m) as Hfirst.
  { pose proof (v_head _ _ _ V) as Hh. destruct (md_dir m); [done|]. cbn in Hh. injection Hh as ->. by left. }
  assert (forall l, l ∈ md_dir m -> dir_loc t l) as Hdl by (apply Forall_forall, V).
  assert (links d (md_dir m) (0, 255)) as Hlinks by apply V.
  split; rewrite ?Hbd; cbn [set_handles set_writers as_label as_dirs as_border as_slots as_handles as_writers as_synced].
  - done.
  - done.
  - apply V.
  - exists (md_header m). split; [apply Hop|]. symmetry. apply R.
  - intros l Hl%elem_of_list_In. pose proof (v_border _ _ _ V) as Hb. rewrite Forall_forall in Hb. destruct (Hb l Hl) as [H1 H2]. split; [done|].
    intros [_ [[Ht' Hs']|Hs']]; [|apply H2; by right]. destruct (decide (l = first_dir t)) as [->|Hne].
    + by apply (view_border_apart _ _ _ V (first_dir t)).
    + apply H2. left. split; [done|]. assert (snd l <> sys_sectors t); [|destruct t; cbn in *; lia].
      intros He. apply Hne. unfold first_dir. rewrite <- Ht', <- He. by destruct l.
  - apply (links_sound d (md_dir m) 255).
    + pose proof (view_secs_nodup _ _ _ V) as H. unfold md_secs in H. by apply NoDup_app in H as (_ & _ & H).
    + apply Forall_forall. intros l Hl. apply (plain_track t), dir_plain, Hdl, Hl.
    + done.
    + done.
    + rewrite (v_head _ _ _ V). by destruct t.
  - destruct (last_index (md_dir m)) as (l & Hl & Hla).
    { pose proof (v_head _ _ _ V). by destruct (md_dir m). }
    exists l. split; [done|]. destruct (Hlinks _ _ Hl) as (x & Hx & H0 & H1).
    rewrite lookup_past in H0, H1 by (apply lookup_lt_Some in Hl; lia). exists x. done.
  - intros l Hl%elem_of_list_In. by destruct (Hdl l Hl) as (?&?&?).
  - intros l Hl. rewrite Hc in Hl. apply elem_of_list_In, files_used_in in Hl as (i & f & Hi & Hl).
    destruct (v_files _ _ _ V i f Hi) as (_ & Hda & _). rewrite Forall_forall in Hda. destruct (Hda l Hl) as (H1 & H2 & H3).
    split; [done|]. split; [done|]. intros Hres. apply H3. by right.
  - rewrite app_assoc. apply (v_nodup _ _ _ V).
  - intros l Hl%elem_of_list_In [_ [[Ht Hs]|Hs]]; destruct (Hdl l Hl) as (H1 & H2 & H3); [|exfalso; apply H3; by right].
    rewrite (v_head _ _ _ V). f_equal. unfold first_dir. destruct l as [x y]. cbn in *. f_equal; [done|].
    assert (~ y < sys_sectors t) by (intros Hy; apply H3; by left). destruct t; cbn in *; lia.
  - rewrite (rl_slots _ _ _ _ _ _ R), abs_length, map_length. split; apply V.
  - intros i o ls Ho Hls. rewrite (rl_slots _ _ _ _ _ _ R) in Ho.
    unfold abs_slots in Ho. change (map abs_slot (md_slots m)) with (abs_slot <$> md_slots m) in Ho.
    change (map chain_of (md_slots m)) with (chain_of <$> md_slots m) in Hls.
    rewrite list_lookup_fmap in Ho. pose proof (eq_trans (eq_sym (list_lookup_fmap chain_of (md_slots m) i)) Hls) as Hls'. clear Hls.
    rename Hls' into Hls. destruct (md_slots m !! i) as [o'|] eqn:E; [|done]. cbn in Ho, Hls.
    injection Ho as <-. injection Hls as <-. destruct (v_slot _ _ _ V i o' E) as (x & Hx & Hsl).
    exists (slot_loc m i), x. split.
    { unfold slot_loc. apply list_lookup_lookup_total_lt. apply lookup_lt_Some in E. rewrite (v_slots _ _ _ V) in E. lia. }
    split; [done|]. pose proof (sector_Ok_length _ _ _ _ Hd Hx) as Hlx.
    assert (length (slice (32 * (i mod 8)) 32 x) = 32) as Hl32 by (apply length_slice; lia).
    destruct o' as [f|]; cbn [abs_slot chain_of].
    + exists (mf_entry f None). split; [apply Hsl|]. destruct (v_files _ _ _ V i f E) as ((He & Hns) & Hda & Hh).
      split; [done|]. split; [apply (rl_sizes _ _ _ _ _ _ R i f); by apply slot_at_Some|].
      destruct (mf_special f) as [y|] eqn:Ey.
      { assert (a_special (abs_file f) = true) as ->.
        { apply not_false_is_true. intros Hpl. rewrite (plain_kind t d m i f V) in Ey; [done|by apply slot_at_Some|done]. }
        pose proof (found_same d (entry_at m i f) (mf_entry f None) (mf_chain f) (sp_kind y) eq_refl eq_refl eq_refl) as Hx'.
        specialize (Hx' ltac:(cbn [entry_at de_scheme]; unfold mf_scheme; unfold contents in Hh; rewrite Ey in Hh; rewrite Ey; by destruct Hh) (contents_opens t d m i f 0 y Hd Hh Ey)).
        unfold contents in Hh. rewrite Ey in Hh. destruct Hh as (Hy & Hr' & _).
        assert (mf_kind f = sp_kind y) as Ek by (unfold mf_kind; by rewrite Ey).
        split; [cbn [mf_entry de_scheme]; unfold mf_scheme; by rewrite Ey|]. cbn [abs_file a_kind]. rewrite Ek. split; [exact Hx'|].
        unfold abs_file. cbn [mf_entry de_name de_attr]. rewrite Ek. by rewrite <- Hr'. }
      assert (mf_kind f = KPlain) as Esp by (unfold mf_kind; by rewrite Ey).
      assert (a_special (abs_file f) = false) as Epl by (unfold a_special; cbn [abs_file a_kind]; by rewrite Esp). rewrite Epl.
      apply contents_plain in Hh; [|done].
      split; [cbn [mf_entry de_scheme]; unfold mf_scheme; by rewrite Ey|].
      cbn [mf_entry de_first de_size de_name de_attr]. unfold mf_first. rewrite Ey.
      assert (Forall (fun l => fst l <> 0) (mf_chain f)) as Htr.
      { eapply Forall_impl; [exact Hda|]. intros l Hl. by apply (plain_track t), data_plain. }
      assert (data_of d (mf_chain f) = mf_data f) as Hdf by (by eapply holds_data).
      split; [|split].
      * apply (holds_sound d _ (mf_data f)); [|done|done|].
        -- eapply used_nodup_chain; [apply V|done].
        -- destruct Hh as [Hne _]. by destruct (mf_chain f).
      * rewrite Hdf. unfold abs_file. by rewrite Esp.
      * rewrite Hdf. apply (ti_free a Htidy i (abs_file f)); [|done|done]. rewrite (rl_slots _ _ _ _ _ _ R).
        apply abs_lookup. by apply slot_at_Some.
    + eexists. split.
      { unfold dirent_parse. rewrite Hl32. cbn [ENTRY_SIZE Nat.eqb negb]. reflexivity. }
      split; [|done]. cbn [de_attr]. cbn in Hsl. rewrite <- Hsl. unfold slot_off, ENTRY_FILE_ATTRIBUTE_OFFSET.
      by rewrite lookup_total_slice by lia.
  - intros i j f g Hf Hg En. rewrite (rl_slots _ _ _ _ _ _ R) in Hf, Hg.
    apply abs_lookup_inv in Hf as (f' & Hf & ->). apply abs_lookup_inv in Hg as (g' & Hg & ->).
    by apply (rl_names _ _ _ _ _ _ R i j f' g').
  - exists b. split; [by apply (opened_map _ _ _ _ _ Hop)|]. split; [apply R|]. intros l Hl.
    rewrite is_free_b, (bo_free _ _ _ _ (wo_alloc _ _ _ _ _ _ (rl_wok _ _ _ _ _ _ R)) l Hl).
    rewrite Hc. unfold used. fold (md_secs m). rewrite not_elem_of_app, !elem_of_list_In. split.
    + intros (Hs & [Hn1 Hn2] & _). split; [|done]. intros [_ [[Ht' Hs']|Hs']]; [|apply Hs; by right].
      destruct (decide (l = first_dir t)) as [->|Hne].
      * apply Hn1. unfold md_secs. apply in_app_iff. right. by apply elem_of_list_In.
      * apply Hs. left. split; [done|]. assert (snd l <> sys_sectors t); [|destruct t; cbn in *; lia].
        intros He. apply Hne. unfold first_dir. rewrite <- Ht', <- He. by destruct l.
    + intros (Hs & Hn1 & Hn2). split; [|split; [done|by intros []]]. intros Hsy'. apply Hs. split; [done|].
      destruct Hsy' as [[Ht' Hs']|Hs']; [left|by right]. split; [done|]. destruct t; cbn in *; lia.
  - split; [apply R|]. split; [|done]. rewrite (rl_border _ _ _ _ _ _ R). unfold border_at, abs_border. by rewrite Hbd.
Qed.
