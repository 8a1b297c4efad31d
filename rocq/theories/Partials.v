(** What remains true of the properties that Refutations.v shows false. *)
From Verif Require Import Base ListFacts Layout Block Bam Format Petscii GeosTypes DirEntry Header World Chain Directory Writer Rel GeosFile
  File Validate Spec SpecCodec SpecChain SpecBam GeomFacts FlatProofs DevFacts CodecProofs EntryProofs BamProofs AllocProofs BamState Evolve FormatProofs View Dirs SpecValidate Ops OpFile Opening SpecKinds Session SpecDisk Refine Trace ReadOnly ReadOnlyMore.

(** ** A failed format *)

Lemma format_failure t w w' name id k :
  w_type w = t -> dev_shape t (w_dev w) -> (forall c, w_bam w = Some c -> c < length (w_cells w)) ->
  length name <= 16 -> write_format name id w = (w', Err k) -> w' = w /\ d_writable (w_dev w) = false.
Proof.
  intros Ht Hd Hc Hn Hf. destruct (d_writable (w_dev w)) eqn:Hw.
  - destruct (format_outcome t w name id Ht Hd Hw Hn Hc) as (w1 & H & _). congruence.
  - rewrite (format_locked t) in Hf by done. by injection Hf as <- _.
Qed.

(** ** The image after any history, whether or not the map was written *)

Lemma reopen_files t a s :
  reached t a s ->
  let w' := open_world t (w_dev (s_world s)) in
  w_directory w' = w_directory (s_world s) /\ w_name w' = w_name (s_world s)
  /\ forall f, shows w' f <-> shows (s_world s) f.
Proof.
  intros Hr w'. destruct (reached_related _ _ _ Hr) as (m & c & b & R).
  pose proof (rl_wok _ _ _ _ _ _ R) as W. pose proof (rl_view t a s m c b R) as V.
  destruct (open_cases t _ (v_shape _ _ _ V)) as (Ht & Hdev & [(Hno & _)|(h & b' & Hh & _ & Hc & Hop)]).
  { exfalso. by apply (Hno (md_header m)), V. }
  rewrite (v_header _ _ _ V) in Hh. apply Ok_inj in Hh. subst h.
  pose proof (op_fmt _ _ _ _ _ Hop) as Hfmt. assert (bool_decide (is_Some (h_geos (md_header m))) = is_geos m) as Hgeo by (unfold is_geos; by destruct (h_geos (md_header m))).
  rewrite Hgeo in Hfmt. fold (m_format t m) in Hfmt.
  pose proof (op_header _ _ _ _ _ Hop) as Hhd. fold w' in Hdev, Hfmt, Hhd.
  assert (w_directory w' = Ok (m_entries m)) as Edir by (unfold w_directory; by rewrite (iter_view t _ m V _ Hdev Hfmt Hhd)).
  split; [by rewrite Edir, (dir_entries t a s m c b R)|]. split.
  { unfold w_name, w_get_header. by rewrite Hhd, (wo_header _ _ _ _ _ _ W). }
  intros f. split.
  - intros [(x & Hx & Hrec) (es & Hes & Hin)]. rewrite Edir in Hes. apply Ok_inj in Hes. subst es.
    apply in_map_iff in Hin as (e & He & Hin). apply (in_entries t _ m e V) in Hin as (i & g & Hg & ->).
    unfold entry_line in He. cbn in He. injection He as E1 E2 E3.
    destruct (view_shows_open t _ m i g V (rl_names _ _ _ _ _ _ R) Hg (rl_sizes _ _ _ _ _ _ R i g Hg)) as [(y & Hy & Hyr) _].
    cbn [abs_file a_name a_data] in Hy, Hyr. fold w' in Hy, Hyr. rewrite <- E1, Hy in Hx. apply Ok_inj in Hx. subst y.
    destruct (has_contents_unique _ _ _ _ _ _ Hrec Hyr) as [Hrec1 Hrec2]. cbn [abs_file a_kind] in Hrec1.
    assert (f = abs_file g) as ->; [|by apply (view_shows t a s m c b R i)].
    destruct f as [f1 f2 f3 f4 f5]. cbn in *. unfold abs_file. rewrite <- (rl_sizes _ _ _ _ _ _ R i g Hg). by subst.
  - intros Hf. apply (shows_slot t a s m c b R) in Hf as [i Hi].
    destruct (slot_of_abs _ _ _ _ (rl_slots _ _ _ _ _ _ R) Hi) as (g & Hg & ->).
    apply (view_shows_open t _ m i); [done|apply R|done|by apply (rl_sizes _ _ _ _ _ _ R i)].
Qed.

(** A name that is too long is only noticed when every sector has been erased. *)
Theorem format_wipes t w name id :
  w_type w = t -> dev_shape t (w_dev w) -> d_writable (w_dev w) = true -> 16 < length name ->
  exists w', write_format name id w = (w', Err EFilenameTooLong)
    /\ w_header w' = w_header w /\ w_bam w' = w_bam w /\ w_cells w' = w_cells w
    /\ forall l, valid_loc (d_geom (w_dev w)) l = true ->
         sector (w_dev w') l = Ok (if decide (l = first_dir t) then 0 :: 255 :: repeat 0 254 else repeat 0 256).
Proof.
  intros Ht Hd Hw Hlen. unfold write_format.
  rewrite (sbind_ok (gets native) _ w w (native_format t)). 2: { unfold gets, native. by rewrite Ht. }
  rewrite (sbind_ok (gets (fun w => d_geom (w_dev w))) _ w w (d_geom (w_dev w)) eq_refl).
  rewrite (zero_locations_all t _ (ds_geom _ _ Hd)).
  destruct (zero_loop t (w_dev w) (all_sectors t (g_tracks (d_geom (w_dev w)))) Hd Hw) as (d1 & Hrun1 & Hd1 & Hw1 & Hg1 & _ & Hs1).
  { apply Forall_forall. intros l Hl. apply (valid_loc_on_disk t); [apply Hd|]. by apply in_all_sectors, elem_of_list_In. }
  assert (forall l, valid_loc (d_geom (w_dev w)) l = true -> sector d1 l = Ok (repeat 0 256)) as Hz.
  { intros l Hl. rewrite Hs1, decide_True; [done|].
    apply elem_of_list_In, in_all_sectors, (valid_loc_on_disk t); [apply Hd|done]. }
  rewrite (sbind_ok _ _ _ _ _ (on_dev_run _ _ _ _ Hrun1)). set (w1 := set_dev d1 w).
  rewrite (native_first_dir t).
  assert (valid_loc (d_geom (w_dev w)) (first_dir t) = true) as Hvf by (eapply bam_sector_valid; [done|apply first_dir_loc]).
  rewrite (sbind_ok _ _ _ _ _ (on_dev_mut w1 (first_dir t) (splice 0 [0; 255]) (repeat 0 256) Hw1 (Hz _ Hvf))).
  set (bd := splice 0 [0; 255] (repeat 0 256)).
  set (d2 := upd d1 (first_dir t) bd). change (upd (w_dev w1) (first_dir t) bd) with d2. set (w2 := set_dev d2 w1).
  assert (dev_shape t d2) as Hd2 by (by apply upd_shape).
  assert (exists block, sector d2 (hf_location (hf t)) = Ok block) as [block Hb].
  { destruct (sector_valid t d2 (hf_location (hf t)) Hd2) as (b & _ & Hs & _); [by apply header_location_valid, ds_geom|by exists b]. }
  exists w2. split.
  - change (header_fmt (native_format t)) with (hf t). set (h0 := header_new (hf t) (native_format t) name id).
    assert (header_write h0 (hf t) d2 = (d2, Err EFilenameTooLong)) as Hwr.
    { unfold header_write, sbind, asks. rewrite Hb. unfold lift, header_render, write_bytes_with_padding. cbn [h0 header_new h_disk_name].
      change DISK_NAME_SIZE with 16. by rewrite (proj2 (Nat.ltb_lt _ _) Hlen). }
    unfold sbind at 1, on_dev at 1, zoom. change (w_dev w2) with d2. rewrite Hwr. done.
  - do 3 (split; [done|]). intros l Hl. change (w_dev w2) with d2. case_decide as E.
    + subst l. unfold d2. rewrite (sector_upd_same t); [done|done|by rewrite Hg1].
    + unfold d2. rewrite (sector_upd_other t); [by apply Hz|done|congruence|by rewrite Hg1].
Qed.
