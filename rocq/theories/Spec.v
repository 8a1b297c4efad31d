(** Specifications: what the property theorems are stated against. Nothing here
    depends on the functions of the model, except for its data types. *)
From Verif Require Import Base Layout Block.

(** ** Disk layouts, as documented for the Commodore 1541, 1571 and 1581 *)

(** Sectors on a track of one 1541 side. *)
Definition zone (track : nat) : nat :=
  if track <=? 17 then 21 else if track <=? 24 then 19 else if track <=? 30 then 18 else 17.

Definition spec_sectors (t : disk_type) (track : nat) : nat :=
  match t with
  | D64 => zone track
  | D71 => if track <=? 35 then zone track else zone (track - 35)
  | D81 => 40
  end.

(** The images of each type: number of tracks, error table present, size in bytes. *)
Definition spec_images (t : disk_type) : list (nat * bool * N) :=
  match t with
  | D64 => [(35, false, 174848%N); (35, true, 175531%N); (40, false, 196608%N); (40, true, 197376%N)]
  | D71 => [(70, false, 349696%N); (70, true, 351062%N)]
  | D81 => [(80, false, 819200%N); (80, true, 822400%N)]
  end.

(** A sector of a disk with the given number of tracks. *)
Definition on_disk (t : disk_type) (ntracks : nat) (l : location) : Prop :=
  1 <= fst l <= ntracks /\ snd l < spec_sectors t (fst l).

(** Byte offset of a sector in an image: sectors are stored track by track. *)
Definition spec_offset (t : disk_type) (l : location) : nat :=
  256 * (sum (map (spec_sectors t) (seq 1 (fst l - 1))) + snd l).

(** All sectors of the tracks 1 .. n, in order. *)
Definition all_sectors (t : disk_type) (n : nat) : list location :=
  concat (map (fun tr => map (pair tr) (seq 0 (spec_sectors t tr))) (seq 1 n)).

Definition loc_lt (a b : location) : Prop :=
  fst a < fst b \/ (fst a = fst b /\ snd a < snd b).

(** ** The device made of sectors *)

(** Number of sectors of an image. *)
Definition sector_count (g : geometry) : nat :=
  sector_offset (g_layouts g !!! g_tracks g) + sectors (g_layouts g !!! g_tracks g).

(** A device of the given type: the shape of its parts. *)
Record dev_shape (t : disk_type) (d : dev) : Prop := {
  ds_geom : In (d_geom d) (allowed_geometries t);
  ds_count : length (d_blocks d) = sector_count (d_geom d);
  ds_blocks : Forall (fun b => length b = 256) (d_blocks d);
  ds_etable : length (d_etable d) = if g_errors (d_geom d) then sector_count (d_geom d) else 0
}.

