(** The directory iterator, one call of [next] at a time:
    /repo/src/disk/directory.rs lines 556-699. [w_iter] in Directory.v is what it
    delivers on a disk that is not changed meanwhile (TurnsList.v). *)
From Verif Require Import Base Layout Block Bam Format Petscii GeosTypes DirEntry Header World Chain Directory.

(** struct DirectoryIterator: lines 560-567. [block_iter] is the chain of
    directory sectors followed by the border sector, if there is one ([Chain] and
    [Once] of the standard library): [di_chain] is [None] once the chain has
    answered [None], [di_tail] is the border sector while it is still to come. *)
Record dir_iter := mk_dir_iter {
  di_chain : option chain_iter;
  di_tail : option (res chain_sector);
  di_chunks : list (list nat);
  di_location : location;
  di_offset : nat;
  di_error : option disk_error;
  di_border : option location;
  di_on_border : bool
}.

(** DirectoryIterator::new_error: lines 616-637. *)
Definition dir_iter_error (e : disk_error) : dir_iter :=
  mk_dir_iter None None [] (0, 0) 0 (Some e) None false.

(** DirectoryIterator::new: lines 571-614. The border sector is read here. *)
Definition dir_iter_new (w : world) : res dir_iter :=
  match w_disk_format w with
  | Ok f =>
      match w_get_header w with
      | Ok h =>
          let l := first_directory_location f in
          Ok (mk_dir_iter (Some (chain_new l))
                (match h_geos h with
                 | Some gh => Some (let? b := sector (w_dev w) (gh_border gh) in Ok (mk_cs b (gh_border gh)))
                 | None => None
                 end)
                [] l 0 None (option_map gh_border (h_geos h)) false)
      | Err e => Ok (dir_iter_error e)
      | Panic => Panic
      | NoFuel => NoFuel
      end
  | Err e => Ok (dir_iter_error e)
  | Panic => Panic
  | NoFuel => NoFuel
  end.

(** [self.block_iter.next()]: line 673. *)
Definition dir_next_block (d : dev) (it : dir_iter) : dir_iter * option (res chain_sector) :=
  let rest chain tail := mk_dir_iter chain tail (di_chunks it) (di_location it) (di_offset it)
                           (di_error it) (di_border it) (di_on_border it) in
  match di_chain it with
  | Some ci =>
      match chain_next d ci with
      | (ci, Some x) => (rest (Some ci) (di_tail it), Some x)
      | (_, None) => (rest None None, di_tail it)
      end
  | None => (rest None None, di_tail it)
  end.

(** A new sector: lines 674-687. *)
Definition dir_load (s : chain_sector) (it : dir_iter) : dir_iter :=
  mk_dir_iter (di_chain it) (di_tail it) (chunks ENTRY_SIZE (cs_data s)) (cs_location s) 0
    (di_error it) (di_border it)
    (match di_border it with Some l => bool_decide (l = cs_location s) | None => di_on_border it end).

(** The chunks of the present sector: lines 650-671, up to the next entry. Also
    the offset and the chunks after it. *)
Fixpoint dir_chunk (border : bool) (l : location) (off : nat) (cs : list (list nat))
    : res (option dirent) * (nat * list (list nat)) :=
  match cs with
  | [] => (Ok None, (off, []))
  | c :: cs =>
      if negb (length c =? ENTRY_SIZE) then dir_chunk border l off cs
      else
        let off' := (off + ENTRY_SIZE) mod 256 in
        match dirent_parse c (Some (mk_position l off ENTRY_SIZE)) with
        | Ok e =>
            let e := set_border border e in
            if is_scratched (de_attr e) then dir_chunk border l off' cs
            else (Ok (Some e), (off', cs))
        | Err e => (Err e, (off', cs))
        | Panic => (Panic, (off', cs))
        | NoFuel => (NoFuel, (off', cs))
        end
  end.

Definition dir_left (p : nat * list (list nat)) (it : dir_iter) : dir_iter :=
  mk_dir_iter (di_chain it) (di_tail it) (snd p) (di_location it) (fst p)
    (di_error it) (di_border it) (di_on_border it).

(** The loop of DirectoryIterator::next: lines 649-698. *)
Fixpoint dir_loop (fuel : nat) (d : dev) (it : dir_iter) : dir_iter * option (res dirent) :=
  match fuel with
  | 0 => (it, Some NoFuel)
  | S fuel =>
      let '(x, p) := dir_chunk (di_on_border it) (di_location it) (di_offset it) (di_chunks it) in
      let it := dir_left p it in
      match x with
      | Ok (Some e) => (it, Some (Ok e))
      | Ok None =>
          match dir_next_block d it with
          | (it, Some (Ok s)) => dir_loop fuel d (dir_load s it)
          | (it, Some (Err e)) => (it, Some (Err e))
          | (it, Some Panic) => (it, Some Panic)
          | (it, Some NoFuel) => (it, Some NoFuel)
          | (it, None) => (it, None)
          end
      | Err e => (it, Some (Err e))
      | Panic => (it, Some Panic)
      | NoFuel => (it, Some NoFuel)
      end
  end.

(** DirectoryIterator::next: lines 642-699. *)
Definition dir_next (d : dev) (it : dir_iter) : dir_iter * option (res dirent) :=
  match di_error it with
  | Some e =>
      (mk_dir_iter (di_chain it) (di_tail it) (di_chunks it) (di_location it) (di_offset it)
         None (di_border it) (di_on_border it), Some (Err e))
  | None => dir_loop (length (d_blocks d) + 3) d it
  end.
