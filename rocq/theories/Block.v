(** The block device as a list of 256-byte sectors. This is the flat device of
    Image.v cut at the sector boundaries (FlatProofs.v proves that the two
    agree), with a ghost log of sector writes used to talk about crashes. *)
From Verif Require Import Base Layout.

Record dev := mk_dev {
  d_writable : bool;                       (* Image is ReadWriteMap or Memory *)
  d_geom : geometry;
  d_blocks : list (list nat);              (* sectors in image order *)
  d_etable : list nat;                     (* bytes after the last sector *)
  d_log : list (location * list nat)       (* ghost: all sector writes so far, oldest first *)
}.

(** The location is accepted by ImageBlockDevice::get_offset: block.rs lines 90-95. *)
Definition valid_loc (g : geometry) (l : location) : bool :=
  (1 <=? fst l) && (fst l <=? g_tracks g)
  && (snd l <? sectors (g_layouts g !!! fst l)).

(** Index of a sector in image order: block.rs lines 96-97, in units of 256
    bytes ([byte_offset = 256 * sector_offset] in all tables). *)
Definition loc_index (g : geometry) (l : location) : nat :=
  sector_offset (g_layouts g !!! fst l) + snd l.

(** BlockDevice::check_writability: block.rs lines 104-106. *)
Definition check_writability (d : dev) : res unit :=
  if d_writable d then Ok tt else Err EReadOnly.

(** BlockDevice::sector / sector_owned: block.rs lines 113-116, 25-27. *)
Definition sector (d : dev) (l : location) : res (list nat) :=
  if valid_loc (d_geom d) l then
    match d_blocks d !! loc_index (d_geom d) l with
    | Some b => Ok b
    | None => Err EInvalidOffset
    end
  else Err EInvalidLocation.

(** BlockDevice::sector_mut: block.rs lines 118-122, with the caller's update of
    the sector it returns. *)
Definition sector_mut (l : location) (f : list nat -> list nat) : st dev unit :=
  fun d =>
    if d_writable d then
      match sector d l with
      | Ok b =>
          (mk_dev (d_writable d) (d_geom d)
             (<[loc_index (d_geom d) l := f b]> (d_blocks d))
             (d_etable d) (d_log d ++ [(l, f b)]), Ok tt)
      | Err e => (d, Err e)
      | Panic => (d, Panic)
      | NoFuel => (d, NoFuel)
      end
    else (d, Err EReadOnly).

(** BlockDevice::flush: block.rs lines 142-145. *)
Definition dev_flush : st dev unit := asks check_writability.

(** Location::write_bytes: block.rs lines 160-164; [bytes] has at least 2 bytes. *)
Definition write_loc (l : location) (bytes : list nat) : list nat :=
  splice 0 [fst l; snd l] bytes.

(** Position: block.rs lines 182-186. *)
Record position := mk_position { p_loc : location; p_off : nat; p_size : nat }.

(** Disk::read_sector: /repo/src/disk/mod.rs lines 479-481. *)
Definition read_sector (d : dev) (l : location) : res (list nat) := sector d l.

(** Disk::write_sector: /repo/src/disk/mod.rs lines 484-492. *)
Definition write_sector (l : location) (data : list nat) : st dev unit :=
  fun d =>
    if length data =? BLOCK_SIZE then sector_mut l (fun _ => data) d
    else (d, Err EWriteUnderrun).

(** BlockDevice::read_position: block.rs lines 29-32. *)
Definition read_position (d : dev) (p : position) : res (list nat) :=
  let? b := sector d (p_loc p) in
  if p_off p + p_size p <=? length b then Ok (slice (p_off p) (p_size p) b)
  else Panic.

(** block::LocationIterator: block.rs lines 188-251 (from_geometry, from_format,
    next). The iterator's state is [next]; collecting it uses fuel. *)
Definition loc_iter_next (layouts : list track) (last : nat) (l : location) : option location :=
  if sectors (layouts !!! fst l) <=? snd l + 1 then
    if last <? fst l + 1 then None else Some (fst l + 1, 0)
  else Some (fst l, snd l + 1).

Fixpoint loc_iter_run (fuel : nat) (layouts : list track) (last : nat)
    (next : option location) : list location :=
  match fuel with
  | 0 => []
  | S fuel =>
      match next with
      | None => []
      | Some l => l :: loc_iter_run fuel layouts last (loc_iter_next layouts last l)
      end
  end.

(** format::LocationIterator: /repo/src/disk/format.rs lines 438-474; the sector
    comparison is [==] there, which differs only for empty tracks. *)
Definition fmt_iter_next (f : disk_format) (l : location) : option location :=
  let '(t, s) :=
    if snd l + 1 =? sectors (tracks f !!! fst l) then (fst l + 1, 0)
    else (fst l, snd l + 1) in
  if last_track f <? t then None else Some (t, s).

Fixpoint fmt_iter_run (fuel : nat) (f : disk_format) (next : option location) : list location :=
  match fuel with
  | 0 => []
  | S fuel =>
      match next with
      | None => []
      | Some l => l :: fmt_iter_run fuel f (fmt_iter_next f l)
      end
  end.
