(** Sector chains, read-only part: /repo/src/disk/chain.rs. *)
From Verif Require Import Base Layout Block.

(** enum ChainLink: lines 15-18. *)
Inductive chain_link := Next (l : location) | Tail (size : nat).

(** ChainLink::new: lines 22-35. *)
Definition link_new (block : list nat) : res chain_link :=
  if block !!! 0 =? 0 then
    if block !!! 1 <? 1 then Err EInvalidChainLink
    else Ok (Tail (block !!! 1 + 1))
  else Ok (Next (block !!! 0, block !!! 1)).

(** ChainLink::to_bytes: lines 38-48. *)
Definition link_to_bytes (k : chain_link) (bytes : list nat) : res (list nat) :=
  if length bytes <? 2 then Panic else
  match k with
  | Next l => Ok (write_loc l bytes)
  | Tail size =>
      if (2 <=? size) && (size <=? 256) then Ok (splice 0 [0; size - 1] bytes) else Panic
  end.

(** struct ChainSector: lines 53-57. *)
Record chain_sector := mk_cs { cs_data : list nat; cs_location : location }.

(** struct ChainIterator: lines 60-65. The block device is an argument of
    [chain_next]; the field [block] is only a scratch buffer. *)
Record chain_iter := mk_chain_iter {
  ci_next : option location;
  ci_visited : list location
}.

(** ChainIterator::new: lines 69-76. *)
Definition chain_new (start : location) : chain_iter := mk_chain_iter (Some start) [].

(** ChainIterator::next: lines 87-123. *)
Definition chain_next (d : dev) (it : chain_iter) : chain_iter * option (res chain_sector) :=
  match ci_next it with
  | None => (it, None)
  | Some l =>
      if decide (l ∈ ci_visited it) then
        (mk_chain_iter None (ci_visited it), Some (Err EChainLoop))
      else
        let visited := l :: ci_visited it in
        match sector d l with
        | Ok block =>
            match link_new block with
            | Ok (Next l') =>
                (mk_chain_iter (Some l') visited, Some (Ok (mk_cs (take BLOCK_SIZE block) l)))
            | Ok (Tail size) =>
                (mk_chain_iter None visited, Some (Ok (mk_cs (take size block) l)))
            | Err e => (mk_chain_iter None visited, Some (Err e))
            | Panic => (mk_chain_iter None visited, Some Panic)
            | NoFuel => (mk_chain_iter None visited, Some NoFuel)
            end
        | Err e => (mk_chain_iter None visited, Some (Err e))
        | Panic => (mk_chain_iter None visited, Some Panic)
        | NoFuel => (mk_chain_iter None visited, Some NoFuel)
        end
  end.

(** Driving a ChainIterator until it ends or yields an error: the sectors
    yielded and how the iteration ended. After an error the iterator only
    yields [None] ([next_sector] was taken, line 88). *)
Fixpoint chain_collect (fuel : nat) (d : dev) (it : chain_iter)
    : list chain_sector * res unit :=
  match fuel with
  | 0 => ([], NoFuel)
  | S fuel =>
      match chain_next d it with
      | (_, None) => ([], Ok tt)
      | (it, Some (Ok s)) =>
          let '(ss, r) := chain_collect fuel d it in (s :: ss, r)
      | (_, Some (Err e)) => ([], Err e)
      | (_, Some Panic) => ([], Panic)
      | (_, Some NoFuel) => ([], NoFuel)
      end
  end.

Definition chain_fuel (d : dev) : nat := length (d_blocks d) + 2.

(** A whole chain from [start]. *)
Definition chain_walk (d : dev) (start : location) : list chain_sector * res unit :=
  chain_collect (chain_fuel d) d (chain_new start).

(** [iter.collect::<io::Result<Vec<_>>>()]: all items, or the first error. *)
Definition all_or_error {A} (p : list A * res unit) : res (list A) :=
  let? _ := snd p in Ok (fst p).

(** ChainIterator::locations: lines 79-81. *)
Definition chain_locations (d : dev) (start : location) : res (list location) :=
  let? ss := all_or_error (chain_walk d start) in Ok (map cs_location ss).

(** struct ChainReader: lines 133-137. *)
Record chain_reader := mk_chain_reader {
  cr_chain : chain_iter;
  cr_block : option (list nat);
  cr_eof : bool
}.

(** ChainReader::new: lines 140-147. *)
Definition reader_new (start : location) : chain_reader :=
  mk_chain_reader (chain_new start) None false.

(** The loop of ChainReader::read: lines 153-192; [n] is the length of what is
    left of the caller's buffer. The result is the bytes copied. *)
Fixpoint reader_loop (fuel : nat) (d : dev) (r : chain_reader) (n : nat)
    : chain_reader * res (list nat) :=
  match fuel with
  | 0 => (r, NoFuel)
  | S fuel =>
      if (n =? 0) || cr_eof r then (r, Ok [])
      else
        match cr_block r with
        | Some block =>
            let nbytes := Nat.min (length block) n in
            let r' := mk_chain_reader (cr_chain r)
                        (if length block =? nbytes then None else Some (drop nbytes block))
                        (cr_eof r) in
            let '(r'', res) := reader_loop fuel d r' (n - nbytes) in
            (r'', let? bytes := res in Ok (take nbytes block ++ bytes))
        | None =>
            match chain_next d (cr_chain r) with
            | (it, Some (Ok s)) =>
                reader_loop fuel d (mk_chain_reader it (Some (drop 2 (cs_data s))) (cr_eof r)) n
            | (it, Some (Err e)) => (mk_chain_reader it None true, Err e)
            | (it, Some Panic) => (mk_chain_reader it None true, Panic)
            | (it, Some NoFuel) => (mk_chain_reader it None true, NoFuel)
            | (it, None) => reader_loop fuel d (mk_chain_reader it None true) n
            end
        end
  end.

(** ChainReader::read into a buffer of [n] bytes: lines 151-194. The result is
    the bytes stored in the buffer (their number is what Rust returns). *)
Definition reader_read (d : dev) (r : chain_reader) (n : nat) : chain_reader * res (list nat) :=
  reader_loop (2 * length (d_blocks d) + 8) d r n.

(** [Read::read_to_end] on a fresh ChainReader: the data of the whole chain, or
    the first error. ChainProofs.v proves that calling [reader_read] with any
    sequence of buffer sizes gives this. *)
Definition read_all (d : dev) (start : location) : res (list nat) :=
  let? ss := all_or_error (chain_walk d start) in
  Ok (concat (map (fun s => drop 2 (cs_data s)) ss)).

(** The loop of ChainWriter::new that looks for the last sector: lines 221-226.
    There is no loop detection in the code; [NoFuel] stands for not terminating
    (ChainProofs.v shows that it does so exactly on cyclic chains). *)
Fixpoint tail_loop (fuel : nat) (d : dev) (l : location) (block : list nat)
    : res (location * list nat) :=
  match fuel with
  | 0 => NoFuel
  | S fuel =>
      let? k := link_new block in
      match k with
      | Next l' => let? block' := sector d l' in tail_loop fuel d l' block'
      | Tail _ => Ok (l, block)
      end
  end.
Definition find_tail_fuel (fuel : nat) (d : dev) (start : location) : res (location * list nat) :=
  let? block := sector d start in tail_loop fuel d start block.
Definition find_tail (d : dev) (start : location) : res (location * list nat) :=
  find_tail_fuel (length (d_blocks d) + 1) d start.
