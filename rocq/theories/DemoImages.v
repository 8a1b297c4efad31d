(** Concrete images for the examples beside the theorems. *)
From Verif Require Import Base Layout Block Bam Format Petscii GeosTypes DirEntry Header World Chain Directory Writer Rel GeosFile File Validate
  Spec SpecChain SpecFiles SpecBam CodecMore DevFacts RelProofs.

(** Put bytes at an offset of a sector. *)
Definition put (l : location) (off : nat) (bytes : list nat) (d : dev) : dev := fst (sector_mut l (splice off bytes) d).

Lemma put_shape t l off bytes d : dev_shape t d -> off + length bytes <= 256 -> dev_shape t (put l off bytes d).
Proof.
  intros Hd Hl. unfold put, sector_mut. destruct (d_writable d); [|done]. destruct (sector d l) as [b| | |] eqn:E; [|done..].
  pose proof (sector_Ok_length _ _ _ _ Hd E) as Hb. destruct Hd as [Hg Hc Hbs He]. cbn [fst]. split; cbn [d_geom d_blocks d_etable]; try done.
  - by rewrite insert_length.
  - apply Forall_insert; [done|]. unfold splice. rewrite !app_length, take_length, drop_length. lia.
Qed.

Definition bytes_b (d : dev) : bool := forallb (forallb (fun x => x <? 256)) (d_blocks d).
Lemma bytes_check d : bytes_b d = true -> holds_bytes d.
Proof.
  unfold bytes_b, holds_bytes. rewrite forallb_forall, Forall_forall. intros H b Hb%elem_of_list_In%H.
  rewrite forallb_forall in Hb. apply Forall_forall. intros x Hx%elem_of_list_In%Hb. by apply Nat.ltb_lt in Hx.
Qed.

(** A D64 image with nothing in it but an empty directory; its map marks every
    sector allocated. *)
Definition bare_dev : dev := put (18, 1) 0 [0; 255] (blank_dev D64 true).

(** The same with a relative file "R" of three records of 100 bytes. *)
Definition rel_dev : dev :=
  put (17, 5) 0 [0; 19; 0; 100; 17; 5] (put (17, 5) 16 [17; 0; 17; 1]
  (put (17, 0) 0 (17 :: 1 :: repeat 3 254) (put (17, 1) 0 (0 :: 47 :: repeat 4 46)
  (put (18, 1) 2 ([132; 17; 0; 82] ++ repeat 160 15 ++ [17; 5; 100]) bare_dev)))).
Definition rel_name : list nat := [82].

Lemma bare_shape : dev_shape D64 bare_dev.
Proof. apply put_shape; [apply blank_dev_shape|cbn; lia]. Qed.
Lemma rel_shape : dev_shape D64 rel_dev.
Proof.
  unfold rel_dev. repeat (apply put_shape; [|rewrite ?app_length; cbn [length]; rewrite ?app_length, ?repeat_length; cbn [length]; lia]).
  apply blank_dev_shape.
Qed.
Lemma rel_bytes : holds_bytes rel_dev.
Proof. apply bytes_check. vm_compute. reflexivity. Qed.

(** The same with two GEOS files: "S", sequential, with one sector of data and
    an info block, and "V", with an index, an info block and the records
    one of 264 bytes, none, one of 4 bytes. *)
Definition geos_dev : dev :=
  put (17, 0) 0 [0; 4; 7; 8; 9] (put (17, 5) 0 (0 :: 255 :: 3 :: 21 :: 191 :: repeat 5 251)
  (put (16, 0) 0 [0; 255; 16; 1; 0; 255; 16; 2]
  (put (16, 1) 0 (16 :: 3 :: repeat 6 254) (put (16, 3) 0 (0 :: 11 :: repeat 7 10) (put (16, 2) 0 [0; 5; 1; 2; 3; 4]
  (put (16, 5) 0 (0 :: 255 :: 3 :: 21 :: 191 :: repeat 9 251)
  (put (18, 1) 2 ([131; 17; 0; 83] ++ repeat 160 15 ++ [17; 5; 0; 3; 99; 1; 2; 3; 4; 2; 0])
  (put (18, 1) 34 ([131; 16; 0; 86] ++ repeat 160 15 ++ [16; 5; 1; 7; 99; 1; 2; 3; 4; 5; 0]) bare_dev)))))))).

Lemma geos_shape : dev_shape D64 geos_dev.
Proof.
  unfold geos_dev. repeat (apply put_shape; [|rewrite ?app_length; cbn [length]; rewrite ?app_length, ?repeat_length; cbn [length]; lia]).
  apply blank_dev_shape.
Qed.
Lemma geos_bytes : holds_bytes geos_dev.
Proof. apply bytes_check. vm_compute. reflexivity. Qed.
