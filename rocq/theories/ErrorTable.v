(** Writing the table of error codes at the end of an image. *)
From Verif Require Import Base ListFacts Layout Image Block Spec GeomFacts FlatProofs.
Local Open Scope nat_scope.

Theorem store_table t d f d' r :
  flat_new t (fl_image d) = Ok d -> (forall b, length (f b) = length b) ->
  fl_error_table_mut f d = (d', r) ->
  (im_kind (fl_image d) = ReadOnlyMap -> d' = d /\ r = Err EReadOnly)
  /\ (im_kind (fl_image d) <> ReadOnlyMap ->
        (forall l, fl_read_sector d' l = fl_read_sector d l)
        /\ im_kind (fl_image d') = im_kind (fl_image d)
        /\ flat_new t (fl_image d') = Ok d'
        /\ ((fl_error_table d = Ok None /\ r = Ok None /\ d' = d)
            \/ exists b, fl_error_table d = Ok (Some b) /\ r = Ok (Some tt)
                 /\ fl_error_table d' = Ok (Some (f b)))).
Proof.
  rewrite <- flat_ok_new. intros Hd Hf Hw. pose proof Hd as [Hg Hsz].
  pose proof (allowed_geom_ok _ _ Hg) as Hok.
  pose proof (geometry_size_ge _ Hok) as Hge.
  unfold fl_error_table_mut, im_check_writability in Hw.
  destruct (im_kind (fl_image d)) eqn:Hk.
  1: { injection Hw as <- <-. split; [done|]. intros H. by destruct H. }
  all: split; [done|]; intros _.
  all: rewrite <- flat_ok_new; rewrite (fl_error_table_spec t d) by done.
  all: unfold error_table_offset in Hw; rewrite (size_without_errors _ Hok) in Hw.
  all: destruct (g_errors (fl_geometry d)) eqn:Eg;
    [|injection Hw as <- <-; repeat (split; [done|]); by left].
  all: unfold im_slice_mut, check_bounds in Hw.
  all: assert (256 * N.of_nat (sector_count (fl_geometry d)) +
          (im_len (fl_image d) - 256 * N.of_nat (sector_count (fl_geometry d)))
          = im_len (fl_image d))%N as E by lia; rewrite E, N.ltb_irrefl, Hk in Hw.
  all: replace (N.to_nat (256 * N.of_nat (sector_count (fl_geometry d))))
    with (256 * sector_count (fl_geometry d)) in Hw by lia.
  all: unfold slice in Hw; rewrite take_ge in Hw by (rewrite drop_length; unfold im_len; lia).
  all: set (o := 256 * sector_count (fl_geometry d)) in *;
    set (b := drop o (im_bytes (fl_image d))) in *.
  all: assert (o <= length (im_bytes (fl_image d))) as Ho by (unfold im_len in Hsz; lia).
  all: assert (length b = length (im_bytes (fl_image d)) - o) as Hb by (subst b; apply drop_length).
  all: injection Hw as <- <-; set (d' := mk_flat_dev _ _).
  all: assert (length (im_bytes (fl_image d')) = length (im_bytes (fl_image d))) as Hl
    by (subst d'; simpl; apply length_splice; rewrite Hf; lia).
  all: assert (flat_ok t d') as Hd' by (split; [done|]; unfold im_len; rewrite Hl; exact Hsz).
  all: split; [|split; [done|split; [done|]]].
  1,3: intros l; unfold fl_read_sector; destruct (valid_loc (fl_geometry d) l) eqn:Hv;
    [ destruct (fl_sector_valid t d' l Hd' Hv) as [-> _];
      destruct (fl_sector_valid t d l Hd Hv) as [-> _];
      pose proof (loc_index_lt _ Hok l Hv); f_equal; subst d'; simpl;
      apply slice_splice_other; rewrite ?Hf; lia
    | by rewrite !fl_sector_invalid by done ].
  all: right; exists b; split; [done|split; [done|]].
  all: rewrite (fl_error_table_spec t d') by done; subst d'; simpl; rewrite Eg; do 2 f_equal.
  all: fold o; unfold splice; rewrite drop_app_alt by (rewrite take_length; lia).
  all: rewrite drop_ge, app_nil_r by (rewrite Hf; lia); done.
Qed.

(** The disk interface reads and writes sectors exactly as the bytes of the image do. *)
Theorem same_store t k d l data :
  dev_shape t d -> d_writable d = kind_writable k ->
  fl_read_sector (flatten k d) l = read_sector d l
  /\ fl_write_sector l data (flatten k d)
     = (flatten k (fst (write_sector l data d)), snd (write_sector l data d)).
Proof.
  intros Hd Hk. split; [by apply (flatten_sector t)|].
  unfold fl_write_sector, write_sector.
  change BLOCK_SIZE with 256. destruct (Nat.eqb_spec (length data) 256) as [E|]; [|done].
  rewrite (flatten_sector_mut t) by done. by destruct (sector_mut _ _ _).
Qed.

Theorem flush_image d :
  (im_kind (fl_image d) <> ReadOnlyMap -> fl_flush d = Ok tt)
  /\ (im_kind (fl_image d) = ReadOnlyMap -> fl_flush d = Err EReadOnly).
Proof.
  unfold fl_flush, im_check_writability, im_flush. by destruct (im_kind (fl_image d)).
Qed.
