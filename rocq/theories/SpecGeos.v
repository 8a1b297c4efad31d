(** GEOS files as Convert streams, and the records of VLIR files. *)
From Coq Require Import Ascii String.
From Verif Require Import Base Layout Block Chain GeosFile Spec SpecChain SpecFiles.

Definition ascii_bytes (s : string) : list nat := List.map nat_of_ascii (list_ascii_of_string s).

(** [l] filled with zeros up to [n] bytes; up to a multiple of 254 bytes. *)
Definition zeros_to (n : nat) (l : list nat) : list nat := (l ++ repeat 0 (n - length l))%list.
Definition whole_blocks (l : list nat) : list nat := (l ++ repeat 0 ((254 - length l mod 254) mod 254))%list.

(** The first block: the directory entry without its first two bytes, and the
    signature. *)
Definition entry_block (vlir : bool) (slot : list nat) : list nat :=
  zeros_to 254 (drop 2 slot ++ ascii_bytes ((if vlir then "PRG" else "SEQ") ++ " formatted GEOS file V1.0"))%list.

(** What the stream's index says of a record: the number of its sectors and the
    index of the last byte in use, or (0, 255) for a missing record. *)
Inductive index_pair (d : dev) (p : location) : list nat -> Prop :=
| ip_missing : present p = false -> index_pair d p [0; 255]
| ip_record ls l e :
    present p = true -> sound_chain d p ls -> length ls <= 255 -> last ls = Some l -> ends d l e ->
    index_pair d p [length ls; e].

(** All records but the last are filled up to whole blocks. *)
Fixpoint fill_all (rs : list (list nat)) : list (list nat) :=
  match rs with
  | [] => []
  | [r] => [r]
  | r :: rs => whole_blocks r :: fill_all rs
  end.

(** The blocks of the Convert stream of the file whose directory entry is [slot]. *)
Inductive convert_blocks (d : dev) (slot : list nat) : list (list nat) -> Prop :=
| cb_sequential ib ls :
    slot !!! 23 = 0 -> pair_at (drop 21 slot) 0 <> (0, 0) -> sector d (pair_at (drop 21 slot) 0) = Ok ib ->
    sound_chain d (pair_at (drop 3 slot) 0) ls ->
    convert_blocks d slot [entry_block false slot; drop 2 ib; data_of d ls]
| cb_vlir ib index pairs lss :
    slot !!! 23 = 1 -> pair_at (drop 21 slot) 0 <> (0, 0) -> sector d (pair_at (drop 21 slot) 0) = Ok ib ->
    sector d (pair_at (drop 3 slot) 0) = Ok index ->
    Forall2 (index_pair d) (index_slots index) pairs ->
    Forall2 (sound_chain d) (List.filter present (index_slots index)) lss ->
    convert_blocks d slot ([entry_block true slot; drop 2 ib; zeros_to 254 (concat pairs)] ++ fill_all (List.map (data_of d) lss)).

(** What a sequence of reads of the given sizes delivers: a read that ends
    inside a block, or at its end, does not consume what it took from it. *)
Fixpoint block_read (blocks : list (list nat)) (n : nat) : list (list nat) * list nat :=
  match blocks with
  | [] => ([], [])
  | b :: rest =>
      if n <=? length b then (blocks, take n b)
      else let '(rest', out) := block_read rest (n - length b) in (rest', b ++ out)
  end.
Fixpoint block_reads (blocks : list (list nat)) (ns : list nat) : list (list nat) :=
  match ns with
  | [] => []
  | n :: ns => let '(blocks', out) := block_read blocks n in out :: block_reads blocks' ns
  end.

(** A sequence of reads. *)
Fixpoint geos_reads (d : dev) (r : geos_reader) (ns : list nat) : list (res (list nat)) :=
  match ns with
  | [] => []
  | n :: ns => let '(r', x) := geos_read d r n in x :: geos_reads d r' ns
  end.
