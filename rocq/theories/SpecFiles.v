(** The structure of relative and GEOS files on the disk. *)
From Verif Require Import Base Layout Block Bam Format GeosTypes DirEntry Chain Spec SpecChain.

(** The image holds bytes. *)
Definition holds_bytes (d : dev) : Prop := Forall (Forall is_byte) (d_blocks d).

(** The i-th pair of bytes of a sector, as a location. *)
Definition pair_at (b : list nat) (i : nat) : location := (b !!! (2 * i), b !!! (2 * i + 1)).

(** The contents of a sector (zeros off the disk). *)
Definition block_at (d : dev) (l : location) : list nat :=
  match sector d l with Ok b => b | _ => repeat 0 256 end.

(** ** Relative files *)

(** The data sectors a side sector names: the pairs from byte 16 up to the end
    of the part in use. *)
Definition side_targets (b : list nat) : list location :=
  map (pair_at b) (seq 8 (length (used_part b) / 2 - 8)).

(** [sides] and [datas] are the side sectors and the data sectors of a relative
    file whose first side sector is [side]. *)
Definition rel_layout (d : dev) (side : location) (sides datas : list location) : Prop :=
  sound_chain d side sides /\ datas = concat (map (fun l => side_targets (block_at d l)) sides).

(** The bytes of a relative file: bytes 2 to 255 of each data sector, and of the
    last one the part in use. *)
Definition rel_stream (d : dev) (datas : list location) : list nat :=
  concat (map (fun l => drop 2 (block_at d l)) (removelast datas))
  ++ match last datas with Some l => sector_data (block_at d l) | None => [] end.

(** ** GEOS files *)

(** The records an index sector lists: the pairs from byte 2 up to the first
    (0, 0); (0, 255) stands for a missing record. *)
Fixpoint until_end (ps : list location) : list location :=
  match ps with
  | [] => []
  | p :: ps => if bool_decide (p = (0, 0)) then [] else p :: until_end ps
  end.
Definition index_slots (b : list nat) : list location := until_end (map (pair_at b) (seq 1 127)).
Definition present (p : location) : bool := negb (bool_decide (p = (0, 255))).

(** ** The sectors of a file *)

Inductive file_sector (d : dev) (e : dirent) : location -> Prop :=
| fs_chain ls l :
    de_scheme e <> SRelative -> sound_chain d (de_first e) ls -> In l ls -> file_sector d e l
| fs_side side len u sides datas l :
    de_scheme e = SRelative -> de_extra e = XRelative side len u -> rel_layout d side sides datas ->
    In l sides \/ In l datas -> file_sector d e l
| fs_info info s ft y mo da ho mi :
    (de_scheme e = SGEOSSequential \/ de_scheme e = SGEOSVLIR) ->
    de_extra e = XGEOS info s ft y mo da ho mi -> info <> (0, 0) -> file_sector d e info
| fs_record info ft y mo da ho mi b p ls l :
    (de_scheme e = SGEOSSequential \/ de_scheme e = SGEOSVLIR) ->
    de_extra e = XGEOS info GVLIR ft y mo da ho mi -> sector d (de_first e) = Ok b ->
    In p (index_slots b) -> present p = true -> sound_chain d p ls -> In l ls -> file_sector d e l.

(** ** Directory slots of any image *)

(** [e] is what slot [32 * j] of sector [l] holds. *)
Definition stored (d : dev) (e : dirent) (l : location) (j : nat) (b : list nat) : Prop :=
  sector d l = Ok b /\ j < 8 /\ exists border e0,
    dirent_parse (slice (32 * j) 32 b) (Some (mk_position l (32 * j) 32)) = Ok e0 /\ e = set_border border e0
    /\ is_scratched (de_attr e) = false.
