(** Writing to chains: /repo/src/disk/chain.rs lines 197-379. *)
From Verif Require Import Base Layout Block Bam Format Petscii GeosTypes DirEntry Header World Chain.

(** struct ChainWriter: lines 199-206; the device is that of the world. *)
Record writer := mk_writer {
  cw_bam : nat;
  cw_entry : dirent;
  cw_loc : location;
  cw_block : list nat;
  cw_dirty : bool
}.

(** ChainWriter::new: lines 209-238. *)
Definition writer_new (d : dev) (c : nat) (e : dirent) (start : location) : res writer :=
  let? (l, block) := find_tail d start in
  Ok (mk_writer c e l block true).

(** Operations of a writer act on the world and on the writer itself. *)
Definition wst (A : Type) : Type := st (world * writer) A.
Definition on_world {A} (m : st world A) : wst A := zoom fst (fun w s => (w, snd s)) m.
Definition on_writer (f : writer -> writer) : wst unit := modify (fun s => (fst s, f (snd s))).
Definition the_writer : wst writer := gets snd.

Definition set_block (b : list nat) (k : writer) : writer :=
  mk_writer (cw_bam k) (cw_entry k) (cw_loc k) b (cw_dirty k).
Definition set_loc (l : location) (k : writer) : writer :=
  mk_writer (cw_bam k) (cw_entry k) l (cw_block k) (cw_dirty k).
Definition set_entry (e : dirent) (k : writer) : writer :=
  mk_writer (cw_bam k) e (cw_loc k) (cw_block k) (cw_dirty k).
Definition set_dirty (b : bool) (k : writer) : writer :=
  mk_writer (cw_bam k) (cw_entry k) (cw_loc k) (cw_block k) b.

(** write_current_block: lines 300-307 (blocks are 256 bytes long, so the
    [copy_from_slice] does not panic). *)
Definition write_current_block : wst unit :=
  do! k := the_writer in
  on_world (on_dev (sector_mut (cw_loc k) (fun _ => cw_block k))).

(** increment_entry_blocks: lines 240-246; the u16 addition is checked. *)
Definition increment_entry_blocks : wst unit :=
  do! k := the_writer in
  do! e := on_world (asks (fun w => positioned_read (w_dev w) (cw_entry k))) in
  do_ (on_writer (set_entry e)) in
  do_ (lift (if de_size e + 1 <? N.to_nat 65536 then Ok tt else Panic)) in
  let e := set_size (de_size e + 1) e in
  do_ (on_writer (set_entry e)) in
  on_world (on_dev (positioned_write e)).

(** allocate_next_block: lines 248-298. The error branch of lines 284-288 gives
    back the new block. *)
Definition allocate_next_block : wst nat :=
  do_ write_current_block in
  do! k := the_writer in
  do! next := on_world (asks (fun w =>
      let? b := cell w (cw_bam k) in bam_next_free_block b None)) in
  do! fresh := lift (link_to_bytes (Tail 2)
                       (take 2 (cw_block k) ++ repeat 0 (BLOCK_SIZE - 2))) in
  do_ (on_writer (set_block fresh)) in
  do_ (on_world (on_dev (sector_mut next (fun _ => fresh)))) in
  do_ (on_world (update_cell (cw_bam k) (fun b => bam_allocate b next))) in
  do_ increment_entry_blocks in
  do_ (fun s =>
         match on_world (on_dev (sector_mut (cw_loc k) (write_loc next))) s with
         | (s', Err e) =>
             (do_ (on_world (update_cell (cw_bam k) (fun b => bam_free b next))) in
              (fail e : wst unit)) s'
         | x => x
         end) in
  do_ (on_writer (set_loc next)) in
  ret (BLOCK_SIZE - 2).

(** The loop of ChainWriter::write: lines 322-343. Every round consumes at least
    one byte, so [length buf] rounds are enough. *)
Fixpoint write_loop (fuel : nat) (buf : list nat) : wst unit :=
  match buf with
  | [] => ret tt
  | _ =>
      match fuel with
      | 0 => lift NoFuel
      | S fuel =>
          do! k := the_writer in
          do! link := lift (link_new (cw_block k)) in
          do! (offset, remaining) :=
            match link with
            | Next _ => panic
            | Tail nbytes =>
                if nbytes =? BLOCK_SIZE then
                  do! remaining := allocate_next_block in
                  ret (BLOCK_SIZE - remaining, remaining)
                else ret (nbytes, BLOCK_SIZE - nbytes)
            end in
          let nbytes := Nat.min remaining (length buf) in
          do! k := the_writer in
          do! block := lift (link_to_bytes (Tail (offset + nbytes))
                               (splice offset (take nbytes buf) (cw_block k))) in
          do_ (on_writer (set_block block)) in
          write_loop fuel (drop nbytes buf)
      end
  end.

(** ChainWriter::write: lines 319-345. The number returned is the length of the
    whole buffer. *)
Definition writer_write (buf : list nat) : wst nat :=
  do_ (on_writer (set_dirty true)) in
  do_ (write_loop (length buf) buf) in
  ret (length buf).

(** ChainWriter::flush: lines 347-363. *)
Definition writer_flush : wst unit :=
  do! k := the_writer in
  if cw_dirty k then
    do_ write_current_block in
    do_ (on_world (flush_cell (cw_bam k))) in
    do_ (on_world (on_dev dev_flush)) in
    on_writer (set_dirty false)
  else ret tt.

(** Drop for ChainWriter: lines 310-314: the result of the flush is ignored. *)
Definition writer_drop (k : writer) (w : world) : world := fst (fst (writer_flush (w, k))).

(** remove_chain: lines 366-379. *)
Definition remove_chain (c : nat) (start : location) : st world unit :=
  do! ls := asks (fun w => chain_locations (w_dev w) start) in
  do_ (for_each (fun l => update_cell c (fun b => bam_free b l)) ls) in
  flush_cell c.
