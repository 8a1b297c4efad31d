(** Where the block availability map lives on each type of disk, and what it
    says about a sector. *)
From Verif Require Import Base Layout Block Bam Spec SpecCodec.

(** Byte [i] of a sector of the disk. *)
Definition image_byte (d : dev) (l : location) (i : nat) : nat :=
  match sector d l with Ok b => b !!! i | _ => 0 end.

(** The number of tracks described by the BAM. *)
Definition spec_tracks (t : disk_type) : nat :=
  match t with D64 => 35 | D71 => 70 | D81 => 80 end.

(** The byte holding the free sector count of a track. *)
Definition count_at (t : disk_type) (track : nat) : location * nat :=
  match t with
  | D64 => ((18, 0), 4 * track)
  | D71 => if track <=? 35 then ((18, 0), 4 * track) else ((18, 0), 221 + (track - 36))
  | D81 => if track <=? 40 then ((40, 1), 16 + 6 * (track - 1)) else ((40, 2), 16 + 6 * (track - 41))
  end.

(** The first byte of the bitmap of a track. *)
Definition bitmap_at (t : disk_type) (track : nat) : location * nat :=
  match t with
  | D64 => ((18, 0), 4 * track + 1)
  | D71 => if track <=? 35 then ((18, 0), 4 * track + 1) else ((53, 0), 3 * (track - 36))
  | D81 => if track <=? 40 then ((40, 1), 17 + 6 * (track - 1)) else ((40, 2), 17 + 6 * (track - 41))
  end.

(** Bytes of a bitmap. *)
Definition bitmap_size (t : disk_type) : nat := match t with D81 => 5 | _ => 3 end.

(** Byte [i] of sector [l] belongs to the BAM. *)
Definition bam_byte (t : disk_type) (l : location) (i : nat) : Prop :=
  exists track, 1 <= track <= spec_tracks t
    /\ ((l, i) = count_at t track
        \/ (l = fst (bitmap_at t track)
            /\ snd (bitmap_at t track) <= i < snd (bitmap_at t track) + bitmap_size t)).

(** The entry that the image holds for a track. *)
Definition entry_on_disk (t : disk_type) (d : dev) (track : nat) (e : bam_entry) : Prop :=
  image_byte d (fst (count_at t track)) (snd (count_at t track)) = e_free e
  /\ (forall s, s < 8 * bitmap_size t ->
        N.testbit (N.of_nat (image_byte d (fst (bitmap_at t track)) (snd (bitmap_at t track) + s / 8)))
                  (N.of_nat (s mod 8))
        = N.testbit (e_map e) (N.of_nat s)).

(** The entry of a track. *)
Definition track_entry (b : bam) (track : nat) : bam_entry := b_entries b !!! (track - 1).

(** An allocation map of the given type: a valid BAM of the right shape. *)
Record bam_shape (t : disk_type) (b : bam) : Prop := {
  bs_fmt : exists g, b_format b = set_geos g (native_format t);
  bs_valid : b_invalidated b = false;
  bs_length : length (b_entries b) = spec_tracks t;
  bs_maps : Forall (fun e => (e_map e < 2 ^ (8 * N.of_nat (bitmap_size t)))%N /\ e_free e < 256)
              (b_entries b)
}.

(** An allocation map as it is read from an image, whatever it says. *)
Record bam_frame (t : disk_type) (b : bam) : Prop := {
  bf_fmt : exists g, b_format b = set_geos g (native_format t);
  bf_valid : b_invalidated b = false;
  bf_length : length (b_entries b) = spec_tracks t
}.

(** The sector is marked free. *)
Definition is_free (b : bam) (l : location) : Prop :=
  N.testbit (e_map (track_entry b (fst l))) (N.of_nat (snd l)) = true.

(** ** Allocation *)

(** The directory track, and the track of a 1571 disk that holds only the
    second half of the BAM. *)
Definition dir_track (t : disk_type) : nat := match t with D81 => 40 | _ => 18 end.
Definition reserved (t : disk_type) (track : nat) : Prop := t = D71 /\ track = 53.

(** The free counts agree with the bitmaps, and no bit is set beyond the
    sectors of a track. *)
Record bam_consistent (t : disk_type) (b : bam) : Prop := {
  bc_shape : bam_shape t b;
  bc_bits : forall tr s, 1 <= tr <= spec_tracks t -> is_free b (tr, s) -> s < spec_sectors t tr;
  bc_counts : forall tr, 1 <= tr <= spec_tracks t ->
      e_free (track_entry b tr) = free_bits (e_map (track_entry b tr))
}.

(** The sectors described by the BAM. *)
Definition bam_sector (t : disk_type) (l : location) : Prop := on_disk t (spec_tracks t) l.

(** The sectors that can hold file data: those off the directory track. *)
Definition data_sectors (t : disk_type) : list location :=
  List.filter (fun l => negb (fst l =? dir_track t)) (all_sectors t (spec_tracks t)).

(** The sectors marked free. *)
Definition freeb (b : bam) (l : location) : bool :=
  N.testbit (e_map (track_entry b (fst l))) (N.of_nat (snd l)).

(** The order in which the tracks are tried for a new file: the nearest to the
    directory track first, of two equally near the lower. *)
Definition tried_before (t : disk_type) (a b : nat) : Prop :=
  let dist tr := (dir_track t - tr) + (tr - dir_track t) in
  dist a < dist b \/ (dist a = dist b /\ a < b).

(** What a search for a free sector may answer. *)
Definition search_answer (t : disk_type) (b : bam) (area : nat -> Prop) (r : res location) : Prop :=
  match r with
  | Ok l => bam_sector t l /\ area (fst l) /\ is_free b l
  | Err e => e = EDiskFull \/ e = EInvalidBAM
  | _ => False
  end.
