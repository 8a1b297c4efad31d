(** The two views of an image file: one sequence of bytes (Image.v), and the
    sectors with the error table (Block.v). *)
From Verif Require Import Base Layout Image Block Spec.

(** The bytes of the file behind a sector device: the sectors one after another,
    then the error table (/repo/src/disk/block.rs lines 87-99 and 124-140 find
    them there). *)
Definition flatten (k : image_kind) (d : dev) : flat_dev :=
  mk_flat_dev (mk_image k (concat (d_blocks d) ++ d_etable d)) (d_geom d).

(** /repo/src/disk/image.rs lines 60-66. *)
Definition kind_writable (k : image_kind) : bool :=
  match k with ReadOnlyMap => false | _ => true end.

(** The sector device in a file: block.rs lines 87-99. *)
Fixpoint cut_blocks (n : nat) (bytes : list nat) : list (list nat) * list nat :=
  match n with
  | 0 => ([], bytes)
  | S n => let '(bs, rest) := cut_blocks n (drop 256 bytes) in (take 256 bytes :: bs, rest)
  end.
Definition unflatten (d : flat_dev) : dev :=
  let '(bs, rest) := cut_blocks (sector_count (fl_geometry d)) (im_bytes (fl_image d)) in
  mk_dev (kind_writable (im_kind (fl_image d))) (fl_geometry d) bs rest [].
