(** Specification of sector chains: the first two bytes of a sector are either
    the location of the next sector (track not 0), or 0 and the index of the
    last used byte. *)
From Verif Require Import Base Layout Block Chain Spec.

(** Sector [l] holds a link to [l']. *)
Definition linked (d : dev) (l l' : location) : Prop :=
  exists b, sector d l = Ok b /\ b !!! 0 = fst l' /\ b !!! 1 = snd l' /\ fst l' <> 0.

(** Sector [l] is the last of its chain, with bytes 2 .. [e] in use. *)
Definition ends (d : dev) (l : location) (e : nat) : Prop :=
  exists b, sector d l = Ok b /\ b !!! 0 = 0 /\ b !!! 1 = e /\ e <> 0.

(** Each sector of the list holds a link to the one after it. *)
Definition path (d : dev) (ls : list location) : Prop :=
  forall i l l', ls !! i = Some l -> ls !! S i = Some l' -> linked d l l'.

(** The location that follows the sectors delivered so far. *)
Definition reached (d : dev) (start : location) (ls : list location) (l : location) : Prop :=
  (ls = [] /\ l = start) \/ (exists k, last ls = Some k /\ linked d k l).

(** A sound chain: no sector twice, each links to the next, and the last ends it. *)
Definition sound_chain (d : dev) (start : location) (ls : list location) : Prop :=
  NoDup ls /\ head ls = Some start /\ path d ls /\ exists l e, last ls = Some l /\ ends d l e.

(** The used bytes of a sector, link included, and the data bytes. *)
Definition used_part (b : list nat) : list nat :=
  if b !!! 0 =? 0 then take (b !!! 1 + 1) b else b.
Definition sector_data (b : list nat) : list nat := drop 2 (used_part b).

(** The data of a list of sectors. *)
Definition data_of (d : dev) (ls : list location) : list nat :=
  concat (map (fun l => match sector d l with Ok b => sector_data b | _ => [] end) ls).

(** What reading [ns !! 0], [ns !! 1], ... bytes in turn must deliver: the i-th
    piece of the contents. *)
Definition pieces (content : list nat) (ns : list nat) : list (list nat) :=
  map (fun i => slice (sum (take i ns)) (ns !!! i) content) (seq 0 (length ns)).

(** A sequence of reads. *)
Fixpoint run_reads (d : dev) (r : chain_reader) (ns : list nat) : list (res (list nat)) :=
  match ns with
  | [] => []
  | n :: ns => let '(r', x) := reader_read d r n in x :: run_reads d r' ns
  end.

(** The results when the contents [c] are followed by the end [e] of the chain:
    the read that goes past a faulty end fails, later ones deliver nothing. *)
Definition end_read (s : list nat) (e : res unit) : res (list nat) := let? _ := e in Ok s.
Fixpoint reads_spec (c : list nat) (e : res unit) (ns : list nat) : list (res (list nat)) :=
  match ns with
  | [] => []
  | n :: ns => if n <=? length c then Ok (take n c) :: reads_spec (drop n c) e ns
               else end_read c e :: map (fun _ => Ok []) ns
  end.
