(** Property theorems: the block availability map and the allocation strategy. *)
From Verif Require Import Base Layout Block Bam Format Spec SpecCodec SpecBam CodecMore BamProofs AllocProofs BamState.

(** C10: flushing the BAM and reading it back. *)
Theorem C10_flush_reload : forall t d b,
  dev_shape t d -> d_writable d = true -> bam_shape t b ->
  exists d', bam_flush b d = (d', Ok tt)
    /\ bam_read d' (b_format b) = Ok b
    /\ (forall track, 1 <= track <= spec_tracks t -> entry_on_disk t d' track (track_entry b track))
    /\ (forall l i, ~ bam_byte t l i -> image_byte d' l i = image_byte d l i).
Proof.
  intros t d b Hd Hw Hb. destruct (bam_flush_reload t d b Hd Hw Hb) as (d' & H1 & H2 & H3 & H4 & _).
  exact (ex_intro _ d' (conj H1 (conj H2 (conj H3 H4)))).
Qed.
Print Assumptions C10_flush_reload.

(** C11: a block for a new file, on a disk without GEOS. *)
Theorem C11_new_file_block : forall t b,
  bam_consistent t b -> geos (b_format b) = false ->
  (exists l, bam_next_free_block b None = Ok l
     /\ bam_sector t l /\ fst l <> dir_track t /\ is_free b l)
  \/ (bam_next_free_block b None = Err EDiskFull
      /\ forall l, bam_sector t l -> fst l <> dir_track t -> ~ is_free b l).
Proof. exact alloc_new_cbm. Qed.
Print Assumptions C11_new_file_block.

(** C12: the same on a GEOS disk. *)
Theorem C12_new_file_block_geos : forall t b,
  bam_consistent t b -> geos (b_format b) = true ->
  let area l := bam_sector t l /\ fst l <> dir_track t /\ ~ reserved t (fst l) in
  (exists l, bam_next_free_block b None = Ok l /\ area l /\ is_free b l)
  \/ (bam_next_free_block b None = Err EDiskFull /\ forall l, area l -> ~ is_free b l).
Proof. exact alloc_new_geos. Qed.
Print Assumptions C12_new_file_block_geos.

(** C13: the block following a given one, with and without GEOS. *)
Theorem C13_block_after : forall t b p,
  bam_consistent t b -> bam_sector t p ->
  let area l := bam_sector t l
    /\ (fst p = dir_track t -> fst l = dir_track t)
    /\ (fst p <> dir_track t -> fst l <> dir_track t /\ (reserved t (fst l) -> fst l = fst p)) in
  (exists l, bam_next_free_block b (Some p) = Ok l /\ area l /\ is_free b l)
  \/ (bam_next_free_block b (Some p) = Err EDiskFull /\ forall l, area l -> ~ is_free b l).
Proof. exact alloc_after. Qed.
Print Assumptions C13_block_after.

(** C51: allocating and releasing a sector change that sector only, and the
    lists and the count of free sectors follow. *)
Theorem C51_one_sector : forall t b l,
  bam_consistent t b -> bam_sector t l ->
  (exists b', bam_allocate b l = Ok b' /\ bam_consistent t b'
     /\ forall l', bam_sector t l' -> is_free b' l' <-> is_free b l' /\ l' <> l)
  /\ (exists b', bam_free b l = Ok b' /\ bam_consistent t b'
     /\ forall l', bam_sector t l' -> is_free b' l' <-> is_free b l' \/ l' = l).
Proof. exact alloc_exact. Qed.
Print Assumptions C51_one_sector.

Theorem C51_lists_and_count : forall t b,
  bam_consistent t b ->
  free_sectors b = Ok (List.filter (freeb b) (all_sectors t (spec_tracks t)))
  /\ allocated_sectors b = Ok (List.filter (fun l => negb (freeb b l)) (all_sectors t (spec_tracks t)))
  /\ blocks_free_count b = Ok (length (List.filter (freeb b) (data_sectors t))).
Proof. exact free_lists. Qed.
Print Assumptions C51_lists_and_count.

(** C52: the block chosen for a new file is on the nearest track with a free
    sector, and is the first free one there. *)
Theorem C52_order : forall t b l,
  bam_consistent t b -> geos (b_format b) = false ->
  bam_next_free_block b None = Ok l ->
  forall l', bam_sector t l' -> fst l' <> dir_track t -> is_free b l' ->
  l' = l \/ tried_before t (fst l) (fst l') \/ (fst l' = fst l /\ snd l < snd l').
Proof. exact first_free_block_order. Qed.
Print Assumptions C52_order.

(** Concrete cases. *)
Example C10_example :
  dev_shape D71 (blank_dev D71 true) /\ d_writable (blank_dev D71 true) = true
  /\ bam_shape D71 (example_bam D71 false [(18, 0); (53, 3)]).
Proof.
  split; [apply blank_dev_shape|]. split; [done|]. apply bc_shape. apply example_consistent.
  repeat (apply List.Forall_cons; [split; cbn; lia|]). apply List.Forall_nil.
Qed.

Example C11_example :
  bam_consistent D64 (example_bam D64 false some_taken)
  /\ bam_next_free_block (example_bam D64 false some_taken) None = Ok (17, 2)
  /\ bam_next_free_block (example_bam D64 false track_taken) None = Ok (19, 0).
Proof. split; [apply example_consistent, some_taken_ok|]. split; vm_compute; reflexivity. Qed.

Example C12_example :
  bam_consistent D64 (example_bam D64 true some_taken)
  /\ geos (b_format (example_bam D64 true some_taken)) = true
  /\ bam_next_free_block (example_bam D64 true some_taken) None = Ok (1, 10).
Proof. split; [apply example_consistent, some_taken_ok|]. split; vm_compute; reflexivity. Qed.

Example C13_example :
  bam_consistent D64 (example_bam D64 false some_taken)
  /\ bam_sector D64 (17, 0)
  /\ bam_next_free_block (example_bam D64 false some_taken) (Some (17, 0)) = Ok (17, 11)
  /\ bam_next_free_block (example_bam D64 false track_taken) (Some (17, 0)) = Ok (16, 10)
  /\ bam_next_free_block (example_bam D64 false some_taken) (Some (18, 1)) = Ok (18, 4)
  /\ bam_next_free_block (example_bam D64 true some_taken) (Some (30, 5)) = Ok (30, 14).
Proof.
  split; [apply example_consistent, some_taken_ok|]. split; [split; cbn; lia|].
  split; [|split; [|split]]; vm_compute; reflexivity.
Qed.

Example C51_example :
  blocks_free_count (example_bam D64 false some_taken) = Ok 661.
Proof. vm_compute. reflexivity. Qed.

Example C52_example :
  bam_next_free_block (example_bam D64 false some_taken) None = Ok (17, 2)
  /\ is_free (example_bam D64 false some_taken) (19, 0)
  /\ tried_before D64 17 19.
Proof. split; [vm_compute; reflexivity|]. split; [vm_compute; reflexivity|]. right. simpl. lia. Qed.
