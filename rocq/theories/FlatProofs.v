(** The flat image: addressing, the raw sector store, layout selection, and the
    agreement of the flat device with the device made of sectors. *)
From Coq Require Export Sorted.
From Verif Require Export Flat.
From Verif Require Import Base ListFacts Layout Image Block Spec GeomFacts.
Ltac Zify.zify_post_hook ::= Z.div_mod_to_equations.

(** ** Sizes *)

Lemma find_by_size_spec n gs g :
  find_by_size n gs = Some g -> In g gs /\ geometry_size g = n.
Proof.
  induction gs as [|g' gs IH]; simpl; [done|].
  destruct (N.eqb_spec (geometry_size g') n) as [H|H].
  - intros [= <-]. auto.
  - intros Hf. destruct (IH Hf). auto.
Qed.

Lemma find_by_size_none n gs :
  find_by_size n gs = None -> forall g, In g gs -> geometry_size g <> n.
Proof.
  induction gs as [|g' gs IH]; simpl; [done|].
  destruct (N.eqb_spec (geometry_size g') n) as [H|H]; [done|].
  intros Hf g [<-|Hg]; auto.
Qed.

Definition sizes (t : disk_type) : list N := map snd (spec_images t).

Lemma allowed_sizes t : map geometry_size (allowed_geometries t) = sizes t.
Proof. unfold sizes. rewrite <- allowed_images, map_map. by apply map_ext. Qed.

Lemma flat_new_ok t im d :
  flat_new t im = Ok d ->
  fl_image d = im /\ In (fl_geometry d) (allowed_geometries t)
  /\ geometry_size (fl_geometry d) = im_len im.
Proof.
  unfold flat_new. destruct (find_by_size _ _) eqn:H; [|done].
  intros [= <-]. simpl. apply find_by_size_spec in H. tauto.
Qed.

Lemma flat_new_cases t im :
  (exists d, flat_new t im = Ok d /\ In (im_len im) (sizes t))
  \/ (flat_new t im = Err EInvalidLayout /\ ~ In (im_len im) (sizes t)).
Proof.
  unfold flat_new. destruct (find_by_size _ _) eqn:H.
  - left. eexists; split; [done|]. apply find_by_size_spec in H as [Hin <-].
    rewrite <- allowed_sizes. by apply in_map.
  - right. split; [done|]. rewrite <- allowed_sizes, in_map_iff.
    intros (g & Hs & Hg). by eapply find_by_size_none.
Qed.

Lemma sizes_disjoint n t t' : In n (sizes t) -> In n (sizes t') -> t = t'.
Proof.
  intros H H'. destruct t, t'; try reflexivity; exfalso; simpl in H, H';
    repeat match goal with H : _ \/ _ |- _ => destruct H as [H|H] end; try done; subst; done.
Qed.

Lemma images_same_size t t' n e s n' e' s' :
  In (n, e, s) (spec_images t) -> In (n', e', s') (spec_images t') -> s = s' ->
  t = t' /\ n = n' /\ e = e'.
Proof.
  intros H H' ->. destruct t, t'; simpl in H, H';
    repeat match goal with
    | H : _ \/ _ |- _ => destruct H as [H|H]
    | H : (_, _, _) = (_, _, _) |- _ => injection H as <- <- ?
    | H : False |- _ => destruct H
    end; subst; try done.
Qed.

Lemma disk_open_spec ext im :
  match disk_open ext im with
  | Ok (t, d) =>
      In (im_len im) (sizes t) /\ fl_image d = im
      /\ In (fl_geometry d) (allowed_geometries t)
      /\ geometry_size (fl_geometry d) = im_len im
      /\ (forall t', ext = Some t' -> t = t')
  | Err e =>
      e = EInvalidLayout
      /\ (forall t, ext = Some t \/ ext = None -> ~ In (im_len im) (sizes t))
  | _ => False
  end.
Proof.
  assert (forall t d, flat_new t im = Ok d -> In (im_len im) (sizes t) /\ fl_image d = im
     /\ In (fl_geometry d) (allowed_geometries t) /\ geometry_size (fl_geometry d) = im_len im) as Hok.
  { intros t d H. split; [|by apply (flat_new_ok t)].
    destruct (flat_new_cases t im) as [(d' & _ & ?)|[Hx _]]; [done|congruence]. }
  unfold disk_open. destruct ext as [t|].
  - destruct (flat_new_cases t im) as [(d & E & Hs)|[E Hs]]; rewrite E; simpl.
    + destruct (Hok t d E) as (?&?&?&?). repeat split; try done. by intros ? [= <-].
    + split; [done|]. by intros t' [[= <-]|?].
  - destruct (flat_new_cases D64 im) as [(d & E & Hs)|[E Hs]]; rewrite E; simpl.
    { destruct (Hok _ d E) as (?&?&?&?). repeat split; done. }
    destruct (flat_new_cases D71 im) as [(d & E' & Hs')|[E' Hs']]; rewrite E'; simpl.
    { destruct (Hok _ d E') as (?&?&?&?). repeat split; done. }
    destruct (flat_new_cases D81 im) as [(d & E'' & Hs'')|[E'' Hs'']]; rewrite E''; simpl.
    { destruct (Hok _ d E'') as (?&?&?&?). repeat split; done. }
    split; [done|]. by intros [] _.
Qed.

(** ** Addressing *)

Definition flat_ok (t : disk_type) (d : flat_dev) : Prop :=
  In (fl_geometry d) (allowed_geometries t)
  /\ im_len (fl_image d) = geometry_size (fl_geometry d).

Lemma get_offset_valid g l :
  geom_ok g -> valid_loc g l = true ->
  get_offset g l = Ok (256 * N.of_nat (loc_index g l))%N.
Proof.
  intros Hg Hv. apply valid_loc_spec in Hv as [Ht Hs].
  unfold get_offset, loc_index.
  destruct (Nat.ltb_spec (fst l) 1); [lia|].
  destruct (Nat.ltb_spec (g_tracks g) (fst l)); [lia|]. cbn [orb].
  destruct (Nat.leb_spec (sectors (g_layouts g !!! fst l)) (snd l)); [lia|].
  rewrite (go_byte g Hg) by lia. f_equal. lia.
Qed.

Lemma get_offset_invalid g l : valid_loc g l = false -> get_offset g l = Err EInvalidLocation.
Proof.
  intros Hv. unfold get_offset.
  destruct ((fst l <? 1) || (g_tracks g <? fst l)) eqn:E; [done|].
  destruct (sectors (g_layouts g !!! fst l) <=? snd l) eqn:E'; [done|].
  exfalso. apply orb_false_iff in E as [E1 E2].
  apply Nat.ltb_ge in E1, E2. apply Nat.leb_gt in E'.
  apply not_true_iff_false in Hv. apply Hv. rewrite valid_loc_spec. lia.
Qed.

Lemma geometry_size_ge g :
  geom_ok g -> (256 * N.of_nat (sector_count g) <= geometry_size g)%N.
Proof.
  intros Hg. unfold geometry_size. rewrite (size_without_errors g Hg).
  destruct (g_errors g); lia.
Qed.

Lemma fl_sector_valid t d l :
  flat_ok t d -> valid_loc (fl_geometry d) l = true ->
  fl_sector d l = Ok (slice (256 * loc_index (fl_geometry d) l) 256 (im_bytes (fl_image d)))
  /\ 256 * loc_index (fl_geometry d) l + 256 <= length (im_bytes (fl_image d)).
Proof.
  intros [Hg Hlen] Hv. pose proof (allowed_geom_ok _ _ Hg) as Hok.
  pose proof (loc_index_lt _ Hok l Hv) as Hlt.
  pose proof (geometry_size_ge _ Hok) as Hsz.
  unfold im_len in Hlen.
  split; [|lia].
  unfold fl_sector. rewrite get_offset_valid by done. cbn [rbind].
  unfold im_slice, check_bounds, im_len.
  destruct (N.ltb_spec (N.of_nat (length (im_bytes (fl_image d))))
             (256 * N.of_nat (loc_index (fl_geometry d) l) + 256)); [lia|].
  cbn [rbind].
  replace (N.to_nat (256 * N.of_nat (loc_index (fl_geometry d) l)))
    with (256 * loc_index (fl_geometry d) l) by lia. done.
Qed.

Lemma fl_sector_invalid d l :
  valid_loc (fl_geometry d) l = false -> fl_sector d l = Err EInvalidLocation.
Proof. intros Hv. unfold fl_sector. by rewrite get_offset_invalid. Qed.

Lemma fl_error_table_spec t d :
  flat_ok t d ->
  fl_error_table d =
    Ok (if g_errors (fl_geometry d)
        then Some (drop (256 * sector_count (fl_geometry d)) (im_bytes (fl_image d)))
        else None).
Proof.
  intros [Hg Hlen]. pose proof (allowed_geom_ok _ _ Hg) as Hok.
  unfold fl_error_table, error_table_offset.
  pose proof (geometry_size_ge _ Hok) as Hsz.
  rewrite (size_without_errors _ Hok).
  destruct (g_errors (fl_geometry d)) eqn:E; [|done].
  unfold im_slice, check_bounds.
  assert (256 * N.of_nat (sector_count (fl_geometry d)) +
          (im_len (fl_image d) - 256 * N.of_nat (sector_count (fl_geometry d)))
          = im_len (fl_image d))%N as -> by lia.
  rewrite N.ltb_irrefl. simpl. f_equal. f_equal. unfold slice.
  replace (N.to_nat (256 * N.of_nat (sector_count (fl_geometry d))))
    with (256 * sector_count (fl_geometry d)) by lia.
  apply take_ge. rewrite drop_length. unfold im_len. lia.
Qed.

Lemma flat_ok_new t d : flat_ok t d <-> flat_new t (fl_image d) = Ok d.
Proof.
  split.
  - intros [Hg Hl]. destruct (flat_new_cases t (fl_image d)) as [(d' & Hn & _)|[_ Hn]].
    + rewrite Hn. apply flat_new_ok in Hn as (Him & Hg' & Hl').
      assert (fl_geometry d' = fl_geometry d) as Hge.
      { rewrite Hl in Hl'. clear -Hg Hg' Hl'. revert Hg Hg' Hl'.
        generalize (fl_geometry d) as g, (fl_geometry d') as g'. intros g g' Hg Hg' E.
        destruct t; simpl in Hg, Hg';
        repeat match goal with H : _ \/ _ |- _ => destruct H as [<-|H] | H : False |- _ => destruct H end;
        first [exfalso; vm_compute in E; discriminate E | reflexivity]. }
      destruct d, d'; simpl in *; by subst.
    + exfalso. apply Hn. rewrite Hl, <- allowed_sizes. by apply in_map.
  - intros Hn. apply flat_new_ok in Hn as (_ & Hg & Hl). by split.
Qed.

Lemma loc_index_offset t g l :
  In g (allowed_geometries t) -> on_disk t (g_tracks g) l ->
  256 * loc_index g l = spec_offset t l.
Proof.
  intros Hg [Ht Hs]. unfold loc_index, spec_offset.
  assert (forallb (fun g => forallb (fun tr => sector_offset (g_layouts g !!! tr)
                       =? sum (map (spec_sectors t) (seq 1 (tr - 1)))) (seq 1 (g_tracks g)))
            (allowed_geometries t) = true) as H by (destruct t; vm_compute; reflexivity).
  rewrite forallb_forall in H. specialize (H g Hg). rewrite forallb_forall in H.
  specialize (H (fst l) ltac:(apply in_seq; lia)). apply Nat.eqb_eq in H. by rewrite H.
Qed.

Theorem addressing t d :
  flat_new t (fl_image d) = Ok d ->
  let n := g_tracks (fl_geometry d) in
  let bytes := im_bytes (fl_image d) in
  In (n, g_errors (fl_geometry d), N.of_nat (length bytes)) (spec_images t)
  /\ (forall l, on_disk t n l ->
        fl_read_sector d l = Ok (slice (spec_offset t l) 256 bytes)
        /\ spec_offset t l + 256 <= length bytes)
  /\ (forall l, ~ on_disk t n l -> fl_read_sector d l = Err EInvalidLocation)
  /\ (forall l l', on_disk t n l -> on_disk t n l' -> l <> l' ->
        spec_offset t l + 256 <= spec_offset t l' \/ spec_offset t l' + 256 <= spec_offset t l)
  /\ (forall i, i < 256 * sum (map (spec_sectors t) (seq 1 n)) <->
        exists l, on_disk t n l /\ spec_offset t l <= i < spec_offset t l + 256)
  /\ (fl_error_table d = Ok (if g_errors (fl_geometry d)
        then Some (drop (256 * sum (map (spec_sectors t) (seq 1 n))) bytes) else None)).
Proof.
  rewrite <- flat_ok_new. intros Hd. pose proof Hd as [Hin Hlen]. intros n bytes.
  set (g := fl_geometry d) in *.
  pose proof (allowed_geom_ok _ _ Hin) as Hok.
  assert (sum (map (spec_sectors t) (seq 1 n)) = sector_count g) as Hsum.
  { assert (forallb (fun g => sum (map (spec_sectors t) (seq 1 (g_tracks g))) =? sector_count g)
                (allowed_geometries t) = true) as H by (destruct t; vm_compute; reflexivity).
    rewrite forallb_forall in H. by apply Nat.eqb_eq, H. }
  split; [|split; [|split; [|split; [|split]]]].
  - rewrite <- allowed_images. apply in_map_iff. exists g. split; [|done].
    unfold im_len in Hlen. by rewrite <- Hlen.
  - intros l Hl. rewrite <- (loc_index_offset t g l Hin Hl).
    apply (fl_sector_valid t d l Hd). by apply (valid_loc_on_disk t g).
  - intros l Hl. apply fl_sector_invalid.
    apply not_true_iff_false. by rewrite (valid_loc_on_disk t).
  - intros l l' Hl Hl' Hne. rewrite <- (loc_index_offset t g l), <- (loc_index_offset t g l') by done.
    subst n. rewrite <- (valid_loc_on_disk t g) in Hl, Hl' by done.
    assert (loc_index g l <> loc_index g l') by (intros E; by apply loc_index_inj in E).
    lia.
  - rewrite Hsum. intros i. split.
    + intros Hi. destruct (loc_index_surj g Hok (i / 256)) as (l & Hv & Hl); [lia|].
      rewrite (valid_loc_on_disk t) in Hv by done.
      exists l. split; [done|]. rewrite <- (loc_index_offset t g l) by done. rewrite Hl. lia.
    + intros (l & Hl & Hi). rewrite <- (loc_index_offset t g l) in Hi by done.
      subst n. rewrite <- (valid_loc_on_disk t g) in Hl by done.
      pose proof (loc_index_lt g Hok l Hl). lia.
  - rewrite Hsum. by apply (fl_error_table_spec t).
Qed.

(** ** The raw sector store *)

Definition writable_kind (k : image_kind) : Prop := k <> ReadOnlyMap.

Lemma fl_write_ok t d l data :
  flat_ok t d -> writable_kind (im_kind (fl_image d)) -> length data = 256 ->
  valid_loc (fl_geometry d) l = true ->
  fl_write_sector l data d =
    (mk_flat_dev (mk_image (im_kind (fl_image d))
        (splice (256 * loc_index (fl_geometry d) l) data (im_bytes (fl_image d))))
        (fl_geometry d), Ok tt).
Proof.
  intros Hd Hk Hlen Hv. destruct (fl_sector_valid t d l Hd Hv) as [_ Hb].
  destruct Hd as [Hg Hsz]. pose proof (allowed_geom_ok _ _ Hg) as Hok.
  unfold fl_write_sector. rewrite Hlen, Nat.eqb_refl. unfold fl_sector_mut.
  assert (im_check_writability (fl_image d) = Ok tt) as ->
    by (unfold im_check_writability; destruct (im_kind (fl_image d)); done).
  rewrite get_offset_valid by done. unfold im_slice_mut, check_bounds, im_len.
  destruct (N.ltb_spec (N.of_nat (length (im_bytes (fl_image d))))
             (256 * N.of_nat (loc_index (fl_geometry d) l) + 256)); [lia|].
  replace (N.to_nat (256 * N.of_nat (loc_index (fl_geometry d) l)))
    with (256 * loc_index (fl_geometry d) l) by lia.
  destruct (im_kind (fl_image d)); [by exfalso; apply Hk|done..].
Qed.

Theorem raw_store t d l data d' r :
  flat_ok t d -> fl_write_sector l data d = (d', r) ->
  (r = Ok tt <->
     writable_kind (im_kind (fl_image d)) /\ length data = 256
     /\ on_disk t (g_tracks (fl_geometry d)) l)
  /\ (r <> Ok tt -> d' = d /\
        ((length data <> 256 /\ r = Err EWriteUnderrun)
         \/ (im_kind (fl_image d) = ReadOnlyMap /\ r = Err EReadOnly)
         \/ (~ on_disk t (g_tracks (fl_geometry d)) l /\ r = Err EInvalidLocation)))
  /\ (r = Ok tt ->
        fl_read_sector d' l = Ok data
        /\ (forall l', l' <> l -> fl_read_sector d' l' = fl_read_sector d l')
        /\ fl_error_table d' = fl_error_table d
        /\ fl_geometry d' = fl_geometry d
        /\ im_kind (fl_image d') = im_kind (fl_image d)
        /\ length (im_bytes (fl_image d')) = length (im_bytes (fl_image d))).
Proof.
  intros Hd Hw. pose proof Hd as [Hg Hsz]. pose proof (allowed_geom_ok _ _ Hg) as Hok.
  destruct (decide (length data = 256)) as [Hlen|Hlen].
  2: { unfold fl_write_sector in Hw. destruct (Nat.eqb_spec (length data) 256); [done|].
       injection Hw as <- <-. split; [|split].
       - split; [done|tauto].
       - intros _. split; [done|]. by left.
       - done. }
  destruct (im_kind (fl_image d)) eqn:Hk.
  1: { unfold fl_write_sector in Hw. rewrite Hlen, Nat.eqb_refl in Hw.
       unfold fl_sector_mut, im_check_writability in Hw. rewrite Hk in Hw.
       injection Hw as <- <-. split; [|split].
       - split; [done|]. intros (H & _). by exfalso; apply H.
       - intros _. split; [done|]. right; left. done.
       - done. }
  all: destruct (valid_loc (fl_geometry d) l) eqn:Hv.
  2,4: assert (~ on_disk t (g_tracks (fl_geometry d)) l) as Hno
         by (rewrite <- valid_loc_on_disk by done; by rewrite Hv);
       unfold fl_write_sector, fl_sector_mut in Hw;
       rewrite Hlen, Nat.eqb_refl, get_offset_invalid in Hw by done;
       unfold im_check_writability in Hw; rewrite Hk in Hw; injection Hw as <- <-;
       split; [|split]; [split; [done|tauto] | intros _; split; [done|]; right; right; done | done].
  all: rewrite (fl_write_ok t) in Hw by (try done; rewrite Hk; done);
       injection Hw as <- <-;
       destruct (fl_sector_valid t d l Hd Hv) as [_ Hb];
       (split; [|split]; [ | done | ]);
       [ split; [intros _|done]; split; [done|split; [done|]];
         by apply (valid_loc_on_disk t) | intros _ ].
  all: set (d' := mk_flat_dev _ _);
       assert (length (im_bytes (fl_image d')) = length (im_bytes (fl_image d))) as Hl'
         by (subst d'; simpl; apply length_splice; lia);
       assert (flat_ok t d') as Hd' by (split; [done|]; unfold im_len; rewrite Hl'; exact Hsz);
       split; [|split; [|split; [|repeat split; done]]].
  all: try (unfold fl_read_sector; destruct (fl_sector_valid t d' l Hd' Hv) as [-> _];
            f_equal; subst d'; simpl; apply slice_splice_same; lia).
  all: try (intros l' Hne; unfold fl_read_sector;
            destruct (valid_loc (fl_geometry d) l') eqn:Hv';
            [ destruct (fl_sector_valid t d' l' Hd' Hv') as [-> _];
              destruct (fl_sector_valid t d l' Hd Hv') as [-> Hb'];
              f_equal; subst d'; simpl; apply slice_splice_other; [|lia];
              assert (loc_index (fl_geometry d) l <> loc_index (fl_geometry d) l')
                by (intros E; apply loc_index_inj in E; congruence); lia
            | rewrite !fl_sector_invalid by done; done ]).
  all: rewrite (fl_error_table_spec t d'), (fl_error_table_spec t d) by done;
       subst d'; simpl; destruct (g_errors (fl_geometry d)); [|done];
       pose proof (loc_index_lt _ Hok l Hv);
       by rewrite drop_splice_after by lia.
Qed.

(** ** The device made of sectors *)

Lemma length_concat_blocks (bs : list (list nat)) :
  Forall (fun b => length b = 256) bs -> length (concat bs) = 256 * length bs.
Proof.
  induction 1 as [|b bs Hb _ IH]; [done|]. cbn [concat length].
  rewrite app_length, IH, Hb. lia.
Qed.

Lemma slice_concat_blocks (bs : list (list nat)) (tail : list nat) i b :
  Forall (fun b => length b = 256) bs -> bs !! i = Some b ->
  slice (256 * i) 256 (concat bs ++ tail) = b.
Proof.
  intros H. revert i. induction H as [|b' bs Hb _ IH]; intros i Hi; [done|].
  destruct i as [|i].
  - injection Hi as ->. simpl. rewrite <- app_assoc. unfold slice. rewrite drop_0.
    by rewrite take_app_alt.
  - simpl in Hi. rewrite <- (IH i Hi). unfold slice. f_equal.
    cbn [concat]. rewrite <- app_assoc.
    replace (256 * S i) with (length b' + 256 * i) by lia.
    rewrite <- drop_drop. f_equal. by rewrite drop_app.
Qed.

Lemma splice_concat_blocks (bs : list (list nat)) (tail : list nat) i b :
  Forall (fun b => length b = 256) bs -> i < length bs -> length b = 256 ->
  splice (256 * i) b (concat bs ++ tail) = concat (<[i := b]> bs) ++ tail.
Proof.
  intros H Hi Hb. revert i Hi. induction H as [|b' bs Hb' _ IH]; intros i Hi; [simpl in Hi; lia|].
  destruct i as [|i].
  - simpl. rewrite <- !app_assoc. unfold splice. rewrite take_0. simpl.
    f_equal. rewrite drop_app_alt by lia. done.
  - cbn [concat insert list_insert]. rewrite <- !app_assoc.
    rewrite <- IH by (simpl in Hi; lia).
    unfold splice. rewrite take_app_ge by lia. rewrite <- app_assoc. f_equal. f_equal.
    + f_equal. lia.
    + f_equal. rewrite drop_app_ge by lia. f_equal. lia.
Qed.

Lemma flatten_ok t k d : dev_shape t d -> flat_ok t (flatten k d).
Proof.
  intros [Hg Hc Hb He]. split; [done|].
  unfold flatten, im_len. simpl. rewrite app_length, length_concat_blocks by done.
  pose proof (allowed_geom_ok _ _ Hg) as Hok.
  unfold geometry_size. rewrite (size_without_errors _ Hok), (go_esize _ Hok), He, Hc.
  destruct (g_errors (d_geom d)); lia.
Qed.

Lemma sector_valid t d l :
  dev_shape t d -> valid_loc (d_geom d) l = true ->
  exists b, d_blocks d !! loc_index (d_geom d) l = Some b /\ sector d l = Ok b /\ length b = 256.
Proof.
  intros [Hg Hc Hb He] Hv. pose proof (allowed_geom_ok _ _ Hg) as Hok.
  pose proof (loc_index_lt _ Hok l Hv).
  destruct (lookup_lt_is_Some_2 (d_blocks d) (loc_index (d_geom d) l)) as [b E]; [lia|].
  exists b. unfold sector. rewrite Hv, E. repeat split. by apply (Forall_lookup_1 _ _ _ _ Hb E).
Qed.

(** Reading is the same in both devices. *)
Lemma flatten_sector t k d l :
  dev_shape t d -> fl_sector (flatten k d) l = sector d l.
Proof.
  intros Hd. destruct (valid_loc (d_geom d) l) eqn:Hv.
  - destruct (sector_valid t d l Hd Hv) as (b & Hb & -> & _).
    destruct (fl_sector_valid t (flatten k d) l) as [-> _]; [by apply flatten_ok|done|].
    f_equal. simpl. apply slice_concat_blocks; [by destruct Hd|done].
  - rewrite fl_sector_invalid by done. unfold sector. by rewrite Hv.
Qed.

(** So is updating a sector. *)
Lemma flatten_sector_mut t k d l f :
  dev_shape t d -> d_writable d = kind_writable k ->
  (forall b, length b = 256 -> length (f b) = 256) ->
  fl_sector_mut l f (flatten k d)
  = (let '(d', r) := sector_mut l f d in (flatten k d', r)).
Proof.
  intros Hd Hk Hf. unfold fl_sector_mut, sector_mut. rewrite Hk.
  destruct k; simpl; [done| |].
  all: destruct (valid_loc (d_geom d) l) eqn:Hv;
    [|rewrite get_offset_invalid by done; unfold sector; by rewrite Hv].
  all: destruct (sector_valid t d l Hd Hv) as (b & Hb & -> & Hlb);
    pose proof (ds_geom _ _ Hd) as Hg; pose proof (allowed_geom_ok _ _ Hg) as Hok;
    pose proof (loc_index_lt _ Hok l Hv) as Hlt;
    destruct (fl_sector_valid t (flatten ReadWriteMap d) l) as [_ Hbound];
      [by apply flatten_ok|done|];
    simpl in Hbound;
    rewrite get_offset_valid by done;
    unfold im_slice_mut, check_bounds, im_len; simpl im_bytes;
    destruct (N.ltb_spec (N.of_nat (length (concat (d_blocks d) ++ d_etable d)))
                (256 * N.of_nat (loc_index (d_geom d) l) + 256)); [lia|];
    simpl im_kind; cbn match;
    replace (N.to_nat (256 * N.of_nat (loc_index (d_geom d) l)))
      with (256 * loc_index (d_geom d) l) by lia;
    change (N.to_nat 256) with 256;
    rewrite (slice_concat_blocks _ _ _ b) by (try done; apply (ds_blocks _ _ Hd));
    rewrite splice_concat_blocks
      by (try apply (ds_blocks _ _ Hd); try (by apply Hf); destruct Hd; lia);
    done.
Qed.

Lemma flatten_flush k d :
  d_writable d = kind_writable k -> fl_flush (flatten k d) = snd (dev_flush d).
Proof.
  intros Hk. unfold fl_flush, dev_flush, asks, check_writability. simpl. rewrite Hk.
  by destruct k.
Qed.

(** Every flat image of the right size is a flattened one. *)
Lemma cut_blocks_spec n bytes :
  256 * n <= length bytes ->
  let '(bs, rest) := cut_blocks n bytes in
  concat bs ++ rest = bytes /\ length bs = n /\ Forall (fun b => length b = 256) bs.
Proof.
  revert bytes. induction n as [|n IH]; intros bytes Hlen; cbn [cut_blocks]; [done|].
  specialize (IH (drop 256 bytes)). rewrite drop_length in IH.
  destruct (cut_blocks n (drop 256 bytes)) as [bs rest].
  destruct IH as (E & El & Ef); [lia|]. split; [|split].
  - cbn [concat]. rewrite <- app_assoc, E. apply take_drop.
  - simpl. lia.
  - constructor; [|done]. rewrite take_length. lia.
Qed.

Lemma unflatten_spec t d :
  flat_ok t d ->
  dev_shape t (unflatten d) /\ flatten (im_kind (fl_image d)) (unflatten d) = d
  /\ d_writable (unflatten d) = kind_writable (im_kind (fl_image d)).
Proof.
  intros [Hg Hlen]. pose proof (allowed_geom_ok _ _ Hg) as Hok.
  pose proof (geometry_size_ge _ Hok) as Hsz. unfold im_len in Hlen.
  unfold unflatten.
  pose proof (cut_blocks_spec (sector_count (fl_geometry d)) (im_bytes (fl_image d))) as Hc.
  destruct (cut_blocks _ _) as [bs rest].
  destruct Hc as (E & El & Ef); [lia|]. split; [|split; [|done]].
  - split; simpl; try done.
    apply (f_equal length) in E. rewrite app_length, length_concat_blocks in E by done.
    unfold geometry_size in Hlen. rewrite (size_without_errors _ Hok), (go_esize _ Hok) in Hlen.
    destruct (g_errors (fl_geometry d)); lia.
  - unfold flatten. simpl. rewrite E. destruct d as [[] ?]; done.
Qed.

(** ** Updates of the sector device *)

Lemma sector_mut_shape t d l f d' r :
  dev_shape t d -> (forall b, length b = 256 -> length (f b) = 256) ->
  sector_mut l f d = (d', r) -> dev_shape t d'.
Proof.
  intros Hd Hf. unfold sector_mut. destruct (d_writable d); [|by intros [= <- <-]].
  destruct (sector d l) as [b| | |] eqn:Hs; intros [= <- <-]; try done.
  destruct Hd as [Hg Hc Hb He]. split; simpl; try done.
  - by rewrite insert_length.
  - apply Forall_insert; [done|]. apply Hf.
    unfold sector in Hs. destruct (valid_loc (d_geom d) l); [|done].
    destruct (d_blocks d !! loc_index (d_geom d) l) eqn:E; [|done].
    injection Hs as <-. by apply (Forall_lookup_1 _ _ _ _ Hb E).
Qed.

(** ** Sector enumeration *)

Lemma in_all_sectors t n l : In l (all_sectors t n) <-> on_disk t n l.
Proof.
  unfold all_sectors, on_disk. rewrite in_concat. setoid_rewrite in_map_iff.
  destruct l as [tr s]. simpl. split.
  - intros (x & (tr' & <- & Ht) & Hin). apply in_map_iff in Hin as (s' & [= -> ->] & Hs).
    rewrite in_seq in Ht, Hs. lia.
  - intros [Ht Hs]. eexists. split.
    + exists tr. split; [done|]. rewrite in_seq. lia.
    + apply in_map. rewrite in_seq. lia.
Qed.

Lemma track_sorted tr a n : StronglySorted loc_lt (map (pair tr) (seq a n)).
Proof.
  revert a. induction n as [|n IH]; intros a; simpl; constructor; [done|].
  apply Forall_forall. intros x Hx. apply elem_of_list_In, in_map_iff in Hx as (s & <- & Hs).
  right. simpl. rewrite in_seq in Hs. lia.
Qed.

Lemma sorted_app {A} (R : A -> A -> Prop) l k :
  StronglySorted R l -> StronglySorted R k ->
  (forall x y, In x l -> In y k -> R x y) -> StronglySorted R (l ++ k).
Proof.
  intros Hl Hk Hx. induction Hl as [|x l Hl IH Hf]; simpl; [done|].
  constructor.
  - apply IH. intros a b Ha Hb. apply Hx; [by right|done].
  - apply Forall_app. split; [done|]. apply Forall_forall. intros y Hy.
    apply Hx; [by left|by apply elem_of_list_In].
Qed.

Lemma all_sectors_sorted t n : StronglySorted loc_lt (all_sectors t n).
Proof.
  unfold all_sectors. generalize 1 as a. induction n as [|n IH]; intros a; [constructor|].
  simpl. apply sorted_app; [apply track_sorted|apply IH|].
  intros x y Hx Hy. apply in_map_iff in Hx as (s & <- & _).
  apply in_concat in Hy as (z & Hz & Hy). apply in_map_iff in Hz as (tr & <- & Htr).
  apply in_map_iff in Hy as (s' & <- & _). rewrite in_seq in Htr. left. simpl. lia.
Qed.

Theorem geometry_iterator t g fuel :
  In g (allowed_geometries t) -> sector_count g <= fuel ->
  loc_iter_run fuel (g_layouts g) (g_tracks g) (Some (1, 0)) = all_sectors t (g_tracks g).
Proof.
  intros Hg Hf.
  assert (forall fuel a n, 1 <= a -> a + n = S (g_tracks g) -> 
     sector_count g - sector_offset (g_layouts g !!! a) <= fuel -> 0 < n ->
     loc_iter_run fuel (g_layouts g) (g_tracks g) (Some (a, 0))
     = concat (map (fun tr => map (pair tr) (seq 0 (spec_sectors t tr))) (seq a n))) as Hgen.
  2: { pose proof (allowed_geom_ok _ _ Hg) as Hok. pose proof (go_pos _ Hok).
       unfold all_sectors. apply Hgen; try lia. }
  pose proof (allowed_geom_ok _ _ Hg) as Hok.
  assert (forall m fuel tr s, m + s = sectors (g_layouts g !!! tr) -> 0 < m -> m <= fuel ->
    1 <= tr <= g_tracks g ->
    loc_iter_run fuel (g_layouts g) (g_tracks g) (Some (tr, s))
    = map (pair tr) (seq s m)
      ++ loc_iter_run (fuel - m) (g_layouts g) (g_tracks g)
           (if g_tracks g <? tr + 1 then None else Some (tr + 1, 0))) as Htrack.
  { induction m as [|m IH]; intros fuel' tr s Hm Hpos Hle Htr; [lia|].
    destruct fuel' as [|fuel']; [lia|]. cbn [loc_iter_run].
    unfold loc_iter_next. cbn [fst snd].
    destruct (Nat.leb_spec (sectors (g_layouts g !!! tr)) (s + 1)) as [H|H].
    - assert (m = 0) as -> by lia. simpl. rewrite Nat.sub_0_r. done.
    - rewrite IH by lia. cbn [seq map app]. rewrite Nat.add_1_r. done. }
  intros fu a n. revert fu a. induction n as [|n IH]; intros fu a Ha Hn Hfu Hpos; [lia|].
  assert (sectors (g_layouts g !!! a) = spec_sectors t a) as Hs by (apply allowed_sectors; [done|lia]).
  pose proof (go_sectors _ Hok a ltac:(lia)).
  assert (sector_offset (g_layouts g !!! a) + sectors (g_layouts g !!! a) <= sector_count g).
  { unfold sector_count.
    destruct (sector_offset_mono g Hok a (g_tracks g)) as [E|?]; [lia..|rewrite <- E; lia|lia]. }
  rewrite (Htrack (sectors (g_layouts g !!! a))) by lia.
  cbn [seq map concat]. rewrite Hs. f_equal.
  destruct (Nat.ltb_spec (g_tracks g) (a + 1)).
  - assert (n = 0) as -> by lia. simpl. by destruct (fu - spec_sectors t a).
  - rewrite Nat.add_1_r. apply IH; try lia. rewrite (go_next _ Hok) by lia. lia.
Qed.

Lemma format_tracks t tr :
  1 <= tr <= last_track (native_format t) ->
  sectors (tracks (native_format t) !!! tr) = spec_sectors t tr.
Proof.
  intros Htr.
  assert (forallb (fun tr => sectors (tracks (native_format t) !!! tr) =? spec_sectors t tr)
            (seq 1 (last_track (native_format t))) = true) as H by (destruct t; vm_compute; reflexivity).
  rewrite forallb_forall in H. apply Nat.eqb_eq, H, in_seq. lia.
Qed.

Theorem format_iterator t fuel :
  sum (map (spec_sectors t) (seq 1 (last_track (native_format t)))) <= fuel ->
  fmt_iter_run fuel (native_format t) (Some (1, 0)) = all_sectors t (last_track (native_format t)).
Proof.
  intros Hf. set (f := native_format t) in *.
  assert (forall tr, 1 <= tr <= last_track f -> 0 < sectors (tracks f !!! tr)) as Hpos.
  { intros tr Htr. unfold f. rewrite format_tracks by done.
    unfold spec_sectors, zone. destruct t; repeat case_match; lia. }
  assert (forall m fuel tr s, m + s = sectors (tracks f !!! tr) -> 0 < m -> m <= fuel ->
    1 <= tr <= last_track f ->
    fmt_iter_run fuel f (Some (tr, s))
    = map (pair tr) (seq s m)
      ++ fmt_iter_run (fuel - m) f
           (if last_track f <? tr + 1 then None else Some (tr + 1, 0))) as Htrack.
  { induction m as [|m IH]; intros fuel' tr s Hm Hp Hle Htr; [lia|].
    destruct fuel' as [|fuel']; [lia|]. cbn [fmt_iter_run].
    unfold fmt_iter_next. cbn [fst snd].
    destruct (Nat.eqb_spec (s + 1) (sectors (tracks f !!! tr))) as [H|H].
    - assert (m = 0) as -> by lia. simpl. rewrite Nat.sub_0_r. done.
    - destruct (Nat.ltb_spec (last_track f) tr); [lia|].
      rewrite IH by lia. cbn [seq map app]. rewrite Nat.add_1_r. done. }
  assert (1 <= last_track f) by (subst f; destruct t; vm_compute; lia).
  unfold all_sectors.
  assert (forall n a fu, 1 <= a -> a + n = S (last_track f) -> 0 < n ->
    sum (map (spec_sectors t) (seq a n)) <= fu ->
    fmt_iter_run fu f (Some (a, 0))
    = concat (map (fun tr => map (pair tr) (seq 0 (spec_sectors t tr))) (seq a n))) as Hgen.
  { induction n as [|n IH]; intros a fu Ha Hn Hp Hfu; [lia|].
    assert (sectors (tracks f !!! a) = spec_sectors t a) as Hs by (apply format_tracks; unfold f in *; lia).
    cbn [seq map concat] in *. unfold sum in Hfu. cbn [fold_right] in Hfu. fold sum in Hfu.
    pose proof (Hpos a ltac:(lia)).
    rewrite (Htrack (sectors (tracks f !!! a))) by lia.
    rewrite Hs. f_equal.
    destruct (Nat.ltb_spec (last_track f) (a + 1)).
    - assert (n = 0) as -> by lia. simpl. by destruct (fu - spec_sectors t a).
    - rewrite Nat.add_1_r. apply IH; try lia. unfold sum. lia. }
  apply Hgen; try lia.
Qed.

(** An image of zeros of the given size, for the examples. *)
Definition blank_image (k : image_kind) (size : N) : image := mk_image k (repeat 0 (N.to_nat size)).

Lemma blank_len k n : im_len (blank_image k n) = n.
Proof. unfold im_len, blank_image. simpl. rewrite repeat_length. apply N2Nat.id. Qed.

Lemma blank_open t k n g :
  find_by_size n (allowed_geometries t) = Some g ->
  flat_new t (blank_image k n) = Ok (mk_flat_dev (blank_image k n) g).
Proof. intros H. unfold flat_new. by rewrite blank_len, H. Qed.

Theorem raw_store' t d l data d' r :
  flat_new t (fl_image d) = Ok d -> fl_write_sector l data d = (d', r) ->
  (r = Ok tt <->
     im_kind (fl_image d) <> ReadOnlyMap /\ length data = 256
     /\ on_disk t (g_tracks (fl_geometry d)) l)
  /\ (r <> Ok tt -> d' = d /\
        ((length data <> 256 /\ r = Err EWriteUnderrun)
         \/ (im_kind (fl_image d) = ReadOnlyMap /\ r = Err EReadOnly)
         \/ (~ on_disk t (g_tracks (fl_geometry d)) l /\ r = Err EInvalidLocation)))
  /\ (r = Ok tt ->
        fl_read_sector d' l = Ok data
        /\ (forall l', l' <> l -> fl_read_sector d' l' = fl_read_sector d l')
        /\ fl_error_table d' = fl_error_table d
        /\ im_kind (fl_image d') = im_kind (fl_image d)
        /\ flat_new t (fl_image d') = Ok d').
Proof.
  rewrite <- flat_ok_new. intros Hd Hw.
  destruct (raw_store t d l data d' r Hd Hw) as (H1 & H2 & H3).
  split; [exact H1|]. split; [exact H2|]. intros Hr.
  destruct (H3 Hr) as (Ha & Hb & Hc & Hg & Hk & Hl). repeat (split; [assumption|]).
  rewrite <- flat_ok_new. destruct Hd as [Hd1 Hd2]. split; [by rewrite Hg|].
  rewrite Hg, <- Hd2. unfold im_len. by rewrite Hl.
Qed.

(** Opening by size. *)
Theorem open_by_size ext im :
  (forall t d, disk_open ext im = Ok (t, d) ->
     fl_image d = im /\ flat_new t im = Ok d
     /\ In (g_tracks (fl_geometry d), g_errors (fl_geometry d), im_len im) (spec_images t)
     /\ (forall t', ext = Some t' -> t = t'))
  /\ ((exists t d, disk_open ext im = Ok (t, d)) <->
      exists t n e, (ext = None \/ ext = Some t) /\ In (n, e, im_len im) (spec_images t))
  /\ ((forall t n e, (ext = None \/ ext = Some t) -> ~ In (n, e, im_len im) (spec_images t)) ->
      disk_open ext im = Err EInvalidLayout)
  /\ (forall t t' n e n' e', In (n, e, im_len im) (spec_images t) ->
        In (n', e', im_len im) (spec_images t') -> t = t' /\ n = n' /\ e = e').
Proof.
  assert (forall t, In (im_len im) (sizes t) <-> exists n e, In (n, e, im_len im) (spec_images t)) as Hsz.
  { intros t. unfold sizes. rewrite in_map_iff. split.
    - intros ([[n e] s] & Hs & Hin). simpl in Hs. subst. eauto.
    - intros (n & e & Hin). exists (n, e, im_len im). done. }
  pose proof (disk_open_spec ext im) as Hspec. split; [|split; [|split]].
  - intros t d Hd. rewrite Hd in Hspec. destruct Hspec as (Hs & Him & Hg & Hgs & Hx).
    split; [done|].
    assert (flat_ok t d) as Hok by (split; [done|by rewrite Him, Hgs]).
    pose proof Hok as Hok'. apply flat_ok_new in Hok'. rewrite Him in Hok'. split; [done|].
    split; [|done]. apply flat_ok_new in Hok.
    destruct (addressing t d Hok) as (Hin & _). rewrite Him in Hin. exact Hin.
  - split.
    + intros (t & d & Hd). rewrite Hd in Hspec. destruct Hspec as (Hs & _ & _ & _ & Hx).
      apply Hsz in Hs as (n & e & Hin). exists t, n, e. split; [|done].
      destruct ext as [t'|]; [right|by left]. f_equal. symmetry. by apply Hx.
    + intros (t & n & e & Hext & Hin).
      destruct (disk_open ext im) as [[t' d]|err| |]; try done; [eauto|].
      destruct Hspec as [_ Hno]. exfalso. apply (Hno t); [tauto|]. apply Hsz. eauto.
  - intros Hno. destruct (disk_open ext im) as [[t' d]|err| |]; try done.
    + destruct Hspec as (Hs & _ & _ & _ & Hx). apply Hsz in Hs as (n & e & Hin).
      exfalso. apply (Hno t' n e); [|done]. destruct ext as [t''|]; [right|by left].
      f_equal. symmetry. by apply Hx.
    + destruct Hspec as [-> _]. done.
  - intros t t' n e n' e' H H'. by apply (images_same_size t t' n e _ n' e' _ H H').
Qed.
