(** Handles and the allocation map they work on. *)
From Verif Require Import Base Layout Block Bam Format GeosTypes DirEntry Header World Writer Rel GeosFile File.

(** The map (shared cell) a file handle works on. *)
Definition handle_map (x : file) : nat :=
  match x with
  | FLinear c _ => c
  | FRelative f => rf_bam f
  | FGEOSSequential f | FGEOSVLIR f => gf_bam f
  end.

(** Setting, replacing and dropping the disk's map, several times. *)
Definition set_maps (ms : list (option bam)) (w : world) : world :=
  fold_left (fun w m => set_bam m w) ms w.

(** The last map of a list. *)
Definition latest (b : bam) (ms : list (option bam)) : bam :=
  fold_left (fun b m => default b m) ms b.
