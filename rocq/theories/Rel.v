(** Relative files: /repo/src/disk/file.rs lines 314-546. *)
From Verif Require Import Base Layout Block Bam Format Petscii GeosTypes DirEntry Header World Chain Directory Writer.

(** struct RelativeFile: lines 318-326 ([rf_bam] is a BAM cell). *)
Record rel_file := mk_rel {
  rf_bam : nat;
  rf_entry : dirent;
  rf_record_size : nat;
  rf_data_sectors : list location;
  rf_side_sectors : list location;
  rf_records : nat
}.

(** Constants: lines 328-330. *)
Definition MAX_SIDE_SECTORS : nat := 6.
Definition SIDE_SECTOR_SSLIST_OFFSET : nat := 4.
Definition SIDE_SECTOR_DATA_OFFSET : nat := 16.

(** [bytes.chunks(2).map(|c| Location::new(c[0], c[1]))]; a last chunk of one
    byte makes [c[1]] panic, but both callers pass an even number of bytes. *)
Fixpoint pairs (bytes : list nat) : list location :=
  match bytes with
  | a :: b :: rest => (a, b) :: pairs rest
  | _ => []
  end.

(** The loop over the side sectors: lines 352-383. Gives the side sectors, the
    lists stored in them, and the data sectors. *)
Fixpoint side_loop (ss : list chain_sector) (r : res unit)
    : res (list location * list (list location) * list location) :=
  match ss with
  | [] => let? _ := r in Ok ([], [], [])
  | s :: ss =>
      let data := cs_data s in
      (* line 358: slicing past the used bytes panics *)
      if length data <? SIDE_SECTOR_SSLIST_OFFSET + MAX_SIDE_SECTORS * 2 then Panic else
      let lst := List.filter (fun l => negb (fst l =? 0))
                   (pairs (slice SIDE_SECTOR_SSLIST_OFFSET (MAX_SIDE_SECTORS * 2) data)) in
      let? link := link_new data in
      let size := match link with Next _ => BLOCK_SIZE | Tail size => size end in
      if (size <? SIDE_SECTOR_DATA_OFFSET) || (size mod 2 =? 1) then Err EInvalidRelativeFile
      else
        let sectors := pairs (slice SIDE_SECTOR_DATA_OFFSET (size - SIDE_SECTOR_DATA_OFFSET) data) in
        let? (sides, lists, datas) := side_loop ss r in
        Ok (cs_location s :: sides, lst :: lists, sectors ++ datas)
  end.

(** RelativeFile::new: lines 333-427. *)
Definition rel_new (d : dev) (c : nat) (e : dirent) : res rel_file :=
  let? (record_size, first_side) :=
    match de_extra e with
    | XRelative side len _ => Ok (len, side)
    | _ => Err EInvalidRelativeFile
    end in
  let '(ss, r) := chain_walk d first_side in
  let? (sides, lists, datas) := side_loop ss r in
  if MAX_SIDE_SECTORS <? length sides then Err EInvalidRelativeFile else
  if negb (forallb (fun l => bool_decide (l = sides)) lists) then Err EInvalidRelativeFile else
  let? in_last :=
    match last datas with
    | Some l =>
        let? b := sector d l in
        let? k := link_new b in
        match k with Next _ => Err EInvalidRelativeFile | Tail size => Ok (size - 2) end
    | None => Ok 0
    end in
  let data_size := (length datas - 1) * (BLOCK_SIZE - 2) + in_last in
  if record_size =? 0 then Panic (* line 413: remainder by zero *) else
  if negb (data_size mod record_size =? 0) then Err EInvalidRelativeFile else
  Ok (mk_rel c e record_size datas sides (data_size / record_size)).

(** RelativeFile::record_position: lines 432-463; indexing past the data
    sectors panics. The casts to u8 lose nothing (all values are below 256). *)
Definition record_position (f : rel_file) (index : nat) : res (position * option position) :=
  if rf_records f <=? index then Err EInvalidRecordIndex else
  let data_offset := rf_record_size f * index in
  let sector_index := data_offset / (BLOCK_SIZE - 2) in
  let sector_offset := data_offset mod (BLOCK_SIZE - 2) + 2 in
  match rf_data_sectors f !! sector_index with
  | None => Panic
  | Some l =>
      if sector_offset + rf_record_size f <=? BLOCK_SIZE then
        Ok (mk_position l sector_offset (rf_record_size f), None)
      else
        let bytes_in_next := sector_offset + rf_record_size f - BLOCK_SIZE in
        match rf_data_sectors f !! (sector_index + 1) with
        | None => Panic
        | Some l' =>
            Ok (mk_position l sector_offset (rf_record_size f - bytes_in_next),
                Some (mk_position l' 2 bytes_in_next))
        end
  end.

(** RelativeFile::record: lines 497-509. *)
Definition rel_record (d : dev) (f : rel_file) (index : nat) : res (list nat) :=
  let? (p1, p2) := record_position f index in
  let? r1 := read_position d p1 in
  let? record :=
    match p2 with
    | Some p => let? r2 := read_position d p in Ok (r1 ++ r2)
    | None => Ok r1
    end in
  if negb (length record =? rf_record_size f) then Err EInvalidRelativeFile else Ok record.

(** RelativeFile::occupied_sectors: lines 530-537. *)
Definition rel_occupied (f : rel_file) : list location :=
  loc_dedup (loc_sort (rf_data_sectors f ++ rf_side_sectors f)).

(** The entry as the delete methods leave it in the handle and write it:
    lines 245-247, 485-486 and geos/file.rs lines 110-111. *)
Definition deleted_entry (e : dirent) : dirent :=
  set_attr (set_type DEL false (de_attr e)) e.

(** RelativeFile::delete: lines 471-491. *)
Definition rel_delete (f : rel_file) : st world unit :=
  do_ (remove_chain (rf_bam f) (de_first (rf_entry f))) in
  do_ (for_each (fun l => update_cell (rf_bam f) (fun b => bam_free b l)) (rf_side_sectors f)) in
  on_dev (positioned_write (deleted_entry (rf_entry f))).
