(** Opening and creating image files, unformatted images, and how runs end. *)
From Coq Require Import Ascii String.
From Verif Require Import Base ListFacts Layout Image Block Petscii GeosTypes Bam Format DirEntry Header World Directory Validate Spec SpecBam FlatProofs GeomFacts DevFacts
  EntryProofs Session SpecDisk View File OpWrite FormatProofs Opening Cdisk Text Errors Host Main SpecHost HostProofs.
Local Open Scope list_scope.

(** ** Unformatted images *)

Lemma header_there t d : dev_shape t d -> exists b, sector d (hf_location (hf t)) = Ok b
  /\ ((exists h, header_read d (hf t) = Ok h) <-> ~ (t = D71 /\ b !!! 3 <> 128)).
Proof.
  intros Hd. assert (exists b, sector d (hf_location (hf t)) = Ok b) as [b Hb].
  { apply (sector_Ok_iff t d _ Hd). pose proof (ds_geom _ _ Hd) as Hg. clear - Hg. destruct t; cbn in Hg;
      repeat (destruct Hg as [<-|Hg]; [done|]); done. }
  exists b. split; [done|]. unfold header_read. rewrite Hb. cbn [rbind]. destruct t; cbn [hf header_fmt native_format hf_double_sided_flag_expectation].
  - cbn. split; [by intros _ [? _]|eauto].
  - cbn. destruct (Nat.eqb_spec (b !!! 3) 128) as [E|E]; cbn [rbind]; (split; [|]).
    + by intros _ [_ H].
    + eauto.
    + by intros [? ?].
    + intros H. exfalso. by apply H.
  - cbn. split; [by intros _ [? _]|eauto].
Qed.
Lemma unformatted_iff t d : dev_shape t d ->
  w_header (open_world t d) = None <-> t = D71 /\ exists b, sector d (18, 0) = Ok b /\ b !!! 3 <> 128.
Proof.
  intros Hd. destruct (header_there t d Hd) as (b & Hb & Hh). destruct (open_cases t d Hd) as (_ & _ & [(Hno & H & _)|(h & x & Hr & _ & _ & Ho)]).
  - split; [|done]. intros _. assert (t = D71 \/ t <> D71) as [->|Ht] by (destruct t; auto).
    + split; [done|]. exists b. split; [exact Hb|]. intros E. destruct Hh as [_ Hh]. destruct Hh as [h Hh]; [by intros [_ ?]|]. by destruct (Hno h).
    + destruct Hh as [_ Hh]. destruct Hh as [h Hh]; [by intros [? _]|]. by destruct (Hno h).
  - split; [destruct Ho; congruence|]. intros [-> (b' & Hb' & Hne)]. change (hf_location (hf D71)) with (18, 0) in Hb.
    assert (b' = b) as -> by congruence. destruct Hh as [Hh _]. destruct Hh; [eauto|done].
Qed.

Lemma unformatted_refuses t d o : dev_shape t d -> w_header (open_world t d) = None -> needs_format o ->
  call (start t d) o = (start t d, AError EUnformatted).
Proof.
  intros Hd H Ho. destruct (open_cases t d Hd) as (_ & _ & [(_ & _ & H1 & H2)|(h & x & _ & _ & _ & Hop)]); [|destruct Hop; congruence].
  pose proof (validate_unformatted t d Hd H) as Hv.
  assert (w_iter (open_world t d) = ([], Err EUnformatted)) as Hi by (unfold w_iter, w_disk_format; by rewrite H1).
  assert (forall name, w_find (open_world t d) name = Err EUnformatted) as Hf by (intros name; unfold w_find; by rewrite Hi).
  unfold start in *. destruct o; try done; cbn [call s_world needs_format] in *.
  - unfold create_file, check_filename_validity. destruct (Nat.ltb_spec ENTRY_FILENAME_LENGTH (length name)) as [Hl|_]; [change ENTRY_FILENAME_LENGTH with 16 in Hl; lia|].
    unfold sbind, lift, asks, check_filename_availability. rewrite Hf. done.
  - unfold open_file. by rewrite Hf.
  - unfold w_rename, sbind, asks. by rewrite Hf.
  - unfold w_directory. by rewrite Hi.
  - unfold w_blocks_free, w_get_bam. by rewrite H2.
  - unfold w_name, w_get_header. by rewrite H.
  - by rewrite Hv.
Qed.
Lemma formatted_accepts t d : dev_shape t d -> t <> D71 ->
  exists name n, snd (call (start t d) OName) = ABytes name /\ length name = 16 /\ snd (call (start t d) OFree) = ACount n.
Proof.
  intros Hd Ht. destruct (open_formatted t d Hd) as [H|(h & b & g & Hh & Hm & Ho)].
  { apply (unformatted_iff t d Hd) in H as [? _]. done. }
  assert (exists n, w_blocks_free (open_world t d) = Ok n) as [n Hn].
  { unfold w_blocks_free, w_get_bam, cell. destruct Ho as [_ _ (c & Hc' & Hcell) Hf Hl]. rewrite Hc'. cbn [rbind]. rewrite Hcell. cbn [rbind].
    unfold blocks_free_count. rewrite Hf, Hl. replace (last_track _) with (spec_tracks t) by (by destruct t). rewrite Nat.ltb_irrefl. eauto. }
  exists (h_disk_name h), n. cbn [call start s_world snd]. unfold w_name, w_get_header. rewrite Hh, Hn. split; [done|]. split; [|done].
  destruct (open_cases t d Hd) as (_ & _ & [(_ & H' & _)|(h' & b' & Hr & _ & _ & Ho')]); [congruence|].
  assert (h' = h) as -> by (destruct Ho'; congruence). unfold header_read in Hr.
  destruct (sector d (hf_location (hf t))) as [blk| | |] eqn:Es; cbn [rbind] in Hr; [|done..]. pose proof (sector_Ok_length t d _ _ Hd Es) as Hlen.
  destruct (match hf_double_sided_flag_expectation (hf t) with Some _ => _ | None => _ end); cbn [rbind] in Hr; [|done..].
  injection Hr as <-. cbn [h_disk_name]. unfold slice. rewrite take_length, drop_length, Hlen. by destruct t.
Qed.

(** ** Opening a file by its path *)

Lemma open_path_cases m p h :
  match disk_open_path m p h with
  | Good (t, d) => exists bs, h p = Some bs /\ In (N.of_nat (length bs)) (sizes t) /\ dev_shape t d /\ file_of_dev d = bs /\ d_writable d = m
      /\ (forall t', from_extension (file_name p) = Some t' -> t = t')
  | Bad x =>
      (h p = None /\ x = missing) \/ (h p = Some [] /\ x = empty_map)
      \/ x = to_io EInvalidLayout /\ exists bs, h p = Some bs /\ bs <> []
           /\ forall t, from_extension (file_name p) = Some t \/ from_extension (file_name p) = None -> ~ In (N.of_nat (length bs)) (sizes t)
  end.
Proof.
  destruct (disk_open_path m p h) as [[t d]|x] eqn:E.
  - destruct (opened _ _ _ _ _ E) as (bs & H1 & H2 & H3 & H4 & H5 & H6 & H7). exists bs.
    pose proof (disk_open_spec (from_extension (file_name p)) (mk_image (kind_of m) bs)) as Hs. rewrite H7 in Hs.
    destruct Hs as (S1 & _ & _ & _ & S5). done.
  - unfold disk_open_path, image_open in E. destruct (h p) as [bs|]; [|left; by injection E as <-]. right.
    destruct bs as [|b bs]; [left; by injection E as <-|right]. cbn [map_file] in E.
    set (im := mk_image (if m then ReadWriteMap else ReadOnlyMap) (b :: bs)) in *.
    pose proof (disk_open_spec (from_extension (file_name p)) im) as Hs.
    destruct (disk_open (from_extension (file_name p)) im) as [[t d]|e| |]; try done.
    destruct Hs as [-> Hs]. injection E as <-. split; [done|]. exists (b :: bs). by split; [|split].
Qed.

(** Commands on a file that cannot be opened. *)
Lemma no_image e p c h x : c <> CCreate -> (forall m, disk_open_path m p h = Bad x) ->
  let r := invoke e p c h in
  r_host r = h /\ r_text r = [] /\ r_bytes r = [] /\ (r_end r = Finished (Some x) \/ (r_end r = Usage /\ refused_arguments c)
    \/ r_end r = Finished (Some missing) /\ exists source, (exists d, c = CAppend source d \/ exists ty, c = CWrite ty source d) /\ h source = None).
Proof.
  intros Hc Hx. cbv zeta. destruct c; try done; cbn [invoke refused_arguments]; unfold with_image; rewrite ?Hx; cbn [r_host r_text r_bytes r_end]; auto.
  - destruct (track_arg track), (sector_arg sector); cbn [r_host r_text r_bytes r_end]; auto 8. 
  - destruct (type_arg ty); [|cbn; auto 8]. unfold read_source. case_bool_decide as Hd; [rewrite ?Hx; cbn; auto|].
    destruct (h source) eqn:Es; cbn [option_map]; [rewrite ?Hx; cbn; auto|]. cbn. repeat split. right. right. split; [done|]. exists source. split; [|done]. exists destination. right. eauto.
  - unfold read_source. case_bool_decide as Hd; [rewrite ?Hx; cbn; auto|].
    destruct (h source) eqn:Es; cbn [option_map]; [rewrite ?Hx; cbn; auto|]. cbn. repeat split. right. right. split; [done|]. exists source. split; [|done]. exists destination. by left.
Qed.
Lemma no_file e p c h : c <> CCreate -> ~ refused_arguments c -> h p = None ->
  let r := invoke e p c h in r_host r = h /\ r_text r = [] /\ r_bytes r = [] /\ r_end r = Finished (Some missing) /\ exit_status (r_end r) = Some 0.
Proof.
  intros Hc Ha Hp. assert (forall m, disk_open_path m p h = Bad missing) as Hx by (intros m; unfold disk_open_path, image_open; by rewrite Hp).
  destruct (no_image e p c h missing Hc Hx) as (H1 & H2 & H3 & H4). cbv zeta. split; [done|]. split; [done|]. split; [done|].
  assert (r_end (invoke e p c h) = Finished (Some missing)) as -> by (destruct H4 as [?|[[_ ?]|[? _]]]; done). done.
Qed.
Lemma wrong_size e p c h bs : c <> CCreate -> ~ refused_arguments c -> h p = Some bs -> bs <> [] ->
  (forall t, from_extension (file_name p) = Some t \/ from_extension (file_name p) = None -> ~ In (N.of_nat (length bs)) (map snd (spec_images t))) ->
  (forall source d, (c = CAppend source d \/ exists ty, c = CWrite ty source d) -> is_Some (h source)) ->
  let r := invoke e p c h in r_host r = h /\ r_text r = [] /\ r_bytes r = [] /\ r_end r = Finished (Some (to_io EInvalidLayout)).
Proof.
  intros Hc Ha Hp Hne Hs Hsrc. assert (forall m, disk_open_path m p h = Bad (to_io EInvalidLayout)) as Hx.
  { intros m. pose proof (open_path_cases m p h) as Hcases. destruct (disk_open_path m p h) as [[t d]|x].
    - exfalso. destruct Hcases as (bs' & E & Hin & _ & _ & _ & Hext). assert (bs' = bs) as -> by congruence. apply (Hs t); [|exact Hin].
      destruct (from_extension (file_name p)) as [t'|]; [left; by rewrite (Hext t')|by right].
    - destruct Hcases as [[E _]|[[E _]|[-> _]]]; congruence. }
  destruct (no_image e p c h _ Hc Hx) as (H1 & H2 & H3 & H4). cbv zeta. split; [done|]. split; [done|]. split; [done|].
  destruct H4 as [?|[[_ ?]|[_ (source & [d Hd] & Hno)]]]; [done|done|]. destruct (Hsrc source d Hd) as [x ?]. congruence.
Qed.
Lemma create_exists e p h bs : h p = Some bs -> r_host (invoke e p CCreate h) = h /\ r_end (invoke e p CCreate h) = Finished (Some exists_already).
Proof. intros H. cbn [invoke]. by rewrite H. Qed.

(** ** Creating an image *)

Lemma size_positive t g : In g (allowed_geometries t) -> N.to_nat (geometry_size g) <> 0.
Proof.
  intros Hg. assert (0 <? geometry_size g = true)%N as H; [|apply N.ltb_lt in H; lia].
  destruct t; cbn in Hg; repeat (destruct Hg as [<-|Hg]; [reflexivity|]); done.
Qed.

Lemma create_new_file t p g h : In g (allowed_geometries t) -> h p = None ->
  let n := N.to_nat (geometry_size g) in
  exists d, disk_create t p g true h = (put_file p (repeat 0 n) h, Good d) /\ flat_ok t d /\ im_bytes (fl_image d) = repeat 0 n
    /\ im_kind (fl_image d) = ReadWriteMap /\ fl_geometry d = g.
Proof.
  intros Hg Hp n. unfold disk_create, image_create. rewrite Hp. cbn [default].
  assert (set_len n [] = repeat 0 n) as El by (unfold set_len; by rewrite firstn_nil, Nat.sub_0_r).
  fold n. rewrite El. assert (repeat 0 n <> []) as Hne.
  { intros E. apply (f_equal length) in E. rewrite repeat_length in E. by apply (size_positive t g Hg). }
  replace (map_file ReadWriteMap (repeat 0 n)) with (Good (mk_image ReadWriteMap (repeat 0 n))) by (by destruct (repeat 0 n)).
  assert (flat_ok t (mk_flat_dev (mk_image ReadWriteMap (repeat 0 n)) g)) as Hok.
  { split; [done|]. cbn [fl_image fl_geometry]. unfold im_len. cbn [im_bytes]. rewrite repeat_length. subst n. by rewrite N2Nat.id. }
  pose proof (proj1 (flat_ok_new _ _) Hok) as Hn. cbn [fl_image] in Hn. rewrite Hn. eexists. split; [done|]. done.
Qed.
Lemma create_new_exists t p g h bs : h p = Some bs -> disk_create t p g true h = (h, Bad exists_already).
Proof. intros H. unfold disk_create, image_create. by rewrite H. Qed.
Lemma overwrite_missing t p g h : h p = None -> disk_create t p g false h = (h, Bad missing).
Proof. intros H. unfold disk_create, image_create. by rewrite H. Qed.
Lemma overwrite_keeps t p g h bs : In g (allowed_geometries t) -> h p = Some bs ->
  let n := N.to_nat (geometry_size g) in
  exists d, disk_create t p g false h = (put_file p (im_bytes (fl_image d)) h, Good d)
    /\ length (im_bytes (fl_image d)) = n /\ (forall i b, i < n -> bs !! i = Some b -> im_bytes (fl_image d) !! i = Some b).
Proof.
  intros Hg Hp n. unfold disk_create, image_create. rewrite Hp. unfold default, id. cbv zeta. fold n.
  assert (length (set_len n bs) = n) as El by (unfold set_len; rewrite app_length, take_length, repeat_length; lia).
  assert (n <> 0) as Hn0 by apply (size_positive t g Hg).
  replace (map_file ReadWriteMap (set_len n bs)) with (Good (mk_image ReadWriteMap (set_len n bs))) by (destruct (set_len n bs); cbn in El; [lia|done]).
  assert (flat_ok t (mk_flat_dev (mk_image ReadWriteMap (set_len n bs)) g)) as Hok.
  { split; [done|]. cbn [fl_image fl_geometry]. unfold im_len. cbn [im_bytes]. rewrite El. subst n. by rewrite N2Nat.id. }
  pose proof (proj1 (flat_ok_new _ _) Hok) as Hn. cbn [fl_image] in Hn. rewrite Hn. eexists (mk_flat_dev (mk_image ReadWriteMap (set_len n bs)) g). split; [reflexivity|]. cbn [fl_image im_bytes]. split; [done|].
  intros i b Hi Hb. unfold set_len. rewrite lookup_app_l; [by rewrite lookup_take|]. rewrite take_length. apply lookup_lt_Some in Hb. lia.
Qed.
