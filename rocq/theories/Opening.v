(** Opening any image. *)
From Verif Require Import Base ListFacts Layout Block Bam Format Petscii GeosTypes DirEntry Header World Chain Directory
  File Validate Spec SpecCodec GeomFacts FlatProofs DevFacts SpecBam EntryProofs HeaderProofs BamProofs AllocProofs Evolve View SpecValidate FormatProofs ValidateProofs Session SpecDisk.

Lemma bam_read_any t d g : dev_shape t d ->
  exists b, bam_read d (set_geos g (native_format t)) = Ok b /\ b_format b = set_geos g (native_format t)
    /\ length (b_entries b) = spec_tracks t /\ b_invalidated b = false.
Proof.
  intros Hd.
  assert (forall ss, (forall s, In s ss -> In s (bam_sections (native_format t))) ->
    exists es, bam_read_sections d ss = Ok es /\ length es = bam_tracks ss) as H.
  { induction ss as [|x ss IH]; intros Hss; [by exists []|].
    destruct IH as (es & Hes & Hl); [intros y Hy; apply Hss; by right|].
    assert (In x (bam_sections (native_format t))) as Hx by (apply Hss; by left).
    assert (forall l, bam_loc (bam_sections (native_format t)) l -> exists b, sector d l = Ok b) as Hsec.
    { intros l Hl'. apply (sector_Ok_iff t); [done|]. destruct Hd as [Hg _ _ _].
      destruct Hl' as (s' & Hs' & Hl'). destruct t; cbn in Hg, Hs'; destruct Hg as [<-|Hg];
        repeat (destruct Hs' as [<-|Hs']; [cbn in Hl'; destruct Hl' as [->| ->]; done|]); try done.
      all: repeat (destruct Hg as [<-|Hg];
        [repeat (destruct Hs' as [<-|Hs']; [cbn in Hl'; destruct Hl' as [->| ->]; done|]); done|]); done. }
    cbn [bam_read_sections]. unfold bam_read_section.
    destruct (Hsec (bs_free_location x)) as [b1 ->]; [exists x; auto|].
    destruct (Hsec (bs_bitmap_location x)) as [b2 Hb2]; [exists x; auto|]. cbn [rbind].
    destruct (decide _); rewrite ?Hb2; cbn [rbind]; rewrite Hes; cbn [rbind]; eexists; split; try reflexivity;
      rewrite app_length, map_length, seq_length, Hl; reflexivity. }
  destruct (H (bam_sections (native_format t))) as (es & Hes & Hl); [done|].
  unfold bam_read. assert (bam_sections (set_geos g (native_format t)) = bam_sections (native_format t)) as -> by (by destruct t).
  rewrite Hes. cbn [rbind]. eexists. split; [reflexivity|]. cbn. split; [done|]. split; [|done]. rewrite Hl. by destruct t.
Qed.

Lemma set_geos_false t : set_geos false (native_format t) = native_format t.
Proof. by destruct t. Qed.

Lemma open_cases t d : dev_shape t d ->
  w_type (open_world t d) = t /\ w_dev (open_world t d) = d /\
  ((forall h, header_read d (hf t) <> Ok h)
     /\ w_header (open_world t d) = None /\ w_fmt (open_world t d) = None /\ w_bam (open_world t d) = None
   \/ exists h b, header_read d (hf t) = Ok h
     /\ bam_read d (native_format t) = Ok b
     /\ w_bam (open_world t d) = Some 0
     /\ opened t (open_world t d) h (bam_set_format (set_geos (bool_decide (is_Some (h_geos h))) (native_format t)) b)
          (bool_decide (is_Some (h_geos h)))).
Proof.
  intros Hd. destruct (bam_read_any t d false Hd) as (b & Hb & Hf & Hl & _). rewrite set_geos_false in Hb, Hf.
  assert (exists r, header_read d (hf t) = r) as [r Hr] by eauto.
  unfold open_world, initialize. cbn [native w_type w_dev].
  change (header_fmt (native_format t)) with (hf t). unfold native. cbn [w_type w_dev]. change (header_fmt (native_format t)) with (hf t).
  rewrite Hr, Hb. destruct r as [h| | |]; cbn [res_ok].
  2-4: split; [done|split; [done|left]]; split; [by intros h|done].
  unfold set_bam, set_fmt, set_header. cbn [w_bam w_cells w_type w_dev w_header w_fmt app length].
  split; [done|]. split; [done|]. right. exists h, b. split; [done|]. split; [done|]. split; [done|].
  split; cbn; [|done| | |done].
  - destruct (h_geos h); cbn; [done|by rewrite set_geos_false].
  - exists 0. split; [done|]. destruct (h_geos h); cbn; [done|by rewrite set_geos_false].
  - done.
Qed.

(** The map and header of an opened disk. *)
Lemma opened_map t w h b g : opened t w h b g -> current_map w = Ok b.
Proof. intros [_ _ (c & Hc & Hcell) _ _]. unfold current_map, w_get_bam, cell. by rewrite Hc; cbn [rbind]; rewrite Hcell. Qed.

Lemma open_formatted t d : dev_shape t d -> w_header (open_world t d) = None \/
  exists h b g, w_header (open_world t d) = Some h /\ current_map (open_world t d) = Ok b /\ opened t (open_world t d) h b g.
Proof.
  intros Hd. destruct (open_cases t d Hd) as (_ & _ & [(_ & H & _)|(h & b & _ & _ & _ & Ho)]); [by left|right].
  eexists h, _, _. split; [apply Ho|]. split; [by eapply opened_map|exact Ho].
Qed.

Lemma validate_unformatted t d : dev_shape t d -> w_header (open_world t d) = None ->
  validate (open_world t d) = Err EUnformatted.
Proof.
  intros Hd Hn. destruct (open_cases t d Hd) as (_ & _ & [(_ & _ & Hf & _)|(h & b & _ & _ & _ & Ho)]).
  - unfold validate, w_disk_format. by rewrite Hf.
  - destruct Ho. congruence.
Qed.

Lemma validate_any_report t d errs : dev_shape t d -> validate (open_world t d) = Ok errs ->
  exists h b dirs es base, w_header (open_world t d) = Some h /\ current_map (open_world t d) = Ok b
    /\ chain_locations d (first_dir t) = Ok dirs /\ w_iter (open_world t d) = (es, Ok tt) /\ system_claims t dirs h base
    /\ (forall e, In e es -> exists y, sectors_of (open_world t d) e = Ok y \/ exists k, sectors_of (open_world t d) e = Err k)
    /\ (forall l, In (VSystemSectorNotAllocated l) errs <-> system_sector t l /\ is_free b l)
    /\ (forall l, In (VSectorMisallocated l) errs <->
          bam_sector t l /\ ~ is_free b l /\ ~ claimed (base ++ file_claims (open_world t d) es) l)
    /\ (forall l n, In (VSectorMisoccupied l n) errs <->
          bam_sector t l /\ is_free b l /\ ~ system_sector t l /\ first_claim (base ++ file_claims (open_world t d) es) l n)
    /\ (forall l n1 n2, In (VSectorOveroccupied l n1 n2) errs <->
          exists pre post, file_claims (open_world t d) es = pre ++ (l, n2) :: post /\ first_claim (base ++ pre) l n1)
    /\ (forall k n, In (VFileScanError k n) errs <->
          exists e, In e es /\ de_name e = n /\ sectors_of (open_world t d) e = Err k).
Proof.
  intros Hd Hv. destruct (open_formatted t d Hd) as [Hn|(h & b & g & Hh & Hb & Ho)].
  { by rewrite validate_unformatted in Hv. }
  destruct (validate_report _ _ _ _ _ _ Ho Hv) as (dirs & es & base & H1 & H).
  assert (w_dev (open_world t d) = d) as E by apply (open_cases t d Hd). rewrite E in H1.
  by exists h, b, dirs, es, base.
Qed.

Lemma validate_any_clean t d : dev_shape t d ->
  validate (open_world t d) = Ok [] <->
  exists h b dirs es base, w_header (open_world t d) = Some h /\ current_map (open_world t d) = Ok b
    /\ chain_locations d (first_dir t) = Ok dirs /\ w_iter (open_world t d) = (es, Ok tt) /\ system_claims t dirs h base
    /\ (forall e, In e es -> exists ls, sectors_of (open_world t d) e = Ok ls)
    /\ NoDup (map fst (file_claims (open_world t d) es))
    /\ (forall l, claimed base l -> claimed (file_claims (open_world t d) es) l -> False)
    /\ (forall l, bam_sector t l -> is_free b l <-> ~ claimed base l /\ ~ claimed (file_claims (open_world t d) es) l).
Proof.
  intros Hd. assert (w_dev (open_world t d) = d) as E by apply (open_cases t d Hd).
  split.
  - intros Hv. destruct (open_formatted t d Hd) as [Hn|(h & b & g & Hh & Hb & Ho)].
    { by rewrite validate_unformatted in Hv. }
    destruct (proj1 (validate_clean _ _ _ _ _ Ho) Hv) as (dirs & es & base & H1 & H). rewrite E in H1.
    by exists h, b, dirs, es, base.
  - intros (h & b & dirs & es & base & Hh & Hb & H1 & H).
    destruct (open_formatted t d Hd) as [Hn|(h' & b' & g & Hh' & Hb' & Ho)]; [congruence|].
    assert (h' = h) as -> by congruence. assert (b' = b) as -> by congruence.
    apply (validate_clean _ _ _ _ _ Ho). exists dirs, es, base. rewrite E. done.
Qed.

Lemma validate_any_outcome t d : dev_shape t d ->
  (exists errs, validate (open_world t d) = Ok errs) <->
  is_Some (w_header (open_world t d)) /\ (exists dirs, chain_locations d (first_dir t) = Ok dirs) /\ snd (w_iter (open_world t d)) = Ok tt
  /\ forall e, In e (fst (w_iter (open_world t d))) ->
       sectors_of (open_world t d) e <> Panic /\ sectors_of (open_world t d) e <> NoFuel.
Proof.
  intros Hd. assert (w_dev (open_world t d) = d) as E by apply (open_cases t d Hd).
  destruct (open_formatted t d Hd) as [Hn|(h & b & g & Hh & Hb & Ho)].
  - rewrite validate_unformatted, Hn by done. split; [by intros []|by intros [[? ?] _]].
  - rewrite (validate_outcome _ _ _ _ _ Ho), E, Hh. split; [intros H; by split; [eexists|]|by intros [_ H]].
Qed.
