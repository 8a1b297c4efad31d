(** GEOS files: /repo/src/disk/geos/mod.rs lines 247-394, geos/file.rs and
    geos/reader.rs. *)
From Verif Require Import Base Layout Block Bam Format Petscii GeosTypes DirEntry Header World Chain Directory Writer Rel.

(** struct GEOSInfo: geos/mod.rs lines 248-261; the icon is its 63 bytes. *)
Record geos_info := mk_geos_info {
  gi_icon : list nat;
  gi_attr : attributes;
  gi_type : geos_file_type;
  gi_structure : geos_structure;
  gi_load : nat;
  gi_end : nat;
  gi_start : nat;
  gi_class : list nat;
  gi_author : list nat;
  gi_application : list nat;
  gi_reserved : list nat;
  gi_description : list nat
}.

(** GEOSInfo::from_bytes of a 256-byte sector: geos/mod.rs lines 283-304
    (offsets: lines 264-281). *)
Definition info_from_bytes (b : list nat) : geos_info :=
  mk_geos_info (slice 5 63 b) (attr_from_byte (b !!! 68)) (geos_type_from_byte (b !!! 69))
    (structure_from_byte (b !!! 70))
    (u16_from_le (b !!! 71) (b !!! 72)) (u16_from_le (b !!! 73) (b !!! 74))
    (u16_from_le (b !!! 75) (b !!! 76))
    (slice 77 20 b) (slice 97 20 b) (slice 117 20 b) (slice 137 23 b) (slice 160 96 b).

(** [copy_from_slice] of the icon and the reserved bytes: panics when the
    lengths differ. *)
Definition copy_at (off len : nat) (src bytes : list nat) : res (list nat) :=
  geos_string_to_bytes src off len bytes.

(** GEOSInfo::to_bytes: geos/mod.rs lines 306-335. The last write goes to the
    application field (lines 333-334). *)
Definition info_to_bytes (i : geos_info) (b : list nat) : res (list nat) :=
  let? b := copy_at 5 63 (gi_icon i) b in
  let b := splice 68 [attr_to_byte (gi_attr i)] b in
  let b := splice 69 [geos_type_to_byte (gi_type i)] b in
  let b := splice 70 [structure_to_byte (gi_structure i)] b in
  let b := splice 71 (u16_to_le (gi_load i)) b in
  let b := splice 73 (u16_to_le (gi_end i)) b in
  let b := splice 75 (u16_to_le (gi_start i)) b in
  let? b := geos_string_to_bytes (gi_class i) 77 20 b in
  let? b := geos_string_to_bytes (gi_author i) 97 20 b in
  let? b := geos_string_to_bytes (gi_application i) 117 20 b in
  let? b := copy_at 137 23 (gi_reserved i) b in
  geos_string_to_bytes (gi_description i) 117 20 b.

(** GEOSDirectoryEntry::is_vlir: geos/mod.rs lines 372-382. *)
Definition entry_is_vlir (e : dirent) : res bool :=
  match de_extra e with
  | XGEOS _ GSequential _ _ _ _ _ _ => Ok false
  | XGEOS _ GVLIR _ _ _ _ _ _ => Ok true
  | XGEOS _ (GStructUndefined _) _ _ _ _ _ _ => Err EUnknownFormat
  | _ => Panic
  end.

(** GEOSDirectoryEntry::info_location: geos/mod.rs lines 383-393. *)
Definition entry_info_location (e : dirent) : res (option location) :=
  match de_extra e with
  | XGEOS info _ _ _ _ _ _ _ =>
      Ok (if (fst info =? 0) && (snd info =? 0) then None else Some info)
  | _ => Panic
  end.

(** struct GEOSFile: geos/file.rs lines 18-23. *)
Record geos_file := mk_geos_file {
  gf_bam : nat;
  gf_entry : dirent;
  gf_vlir : option (list (option location))
}.

(** The index chunks up to the first (0,0): geos/file.rs lines 31-42. *)
Fixpoint index_records (ps : list location) : list (option location) :=
  match ps with
  | [] => []
  | (t, s) :: ps =>
      if (t =? 0) && (s =? 0) then []
      else (if (t =? 0) && (s =? 255) then None else Some (t, s)) :: index_records ps
  end.

(** GEOSFile::new: geos/file.rs lines 26-54. *)
Definition geos_new (d : dev) (c : nat) (e : dirent) : res geos_file :=
  let? v := entry_is_vlir e in
  if v then
    let? index := sector d (de_first e) in
    Ok (mk_geos_file c e (Some (index_records (pairs index))))
  else Ok (mk_geos_file c e None).

(** GEOSFile::record_start: geos/file.rs lines 56-64. *)
Definition record_start (f : geos_file) (index : nat) : res (option location) :=
  match gf_vlir f with
  | Some records =>
      match records !! index with Some l => Ok l | None => Err EInvalidRecordIndex end
  | None => Ok (Some (de_first (gf_entry f)))
  end.

(** GEOSFile::info: geos/file.rs lines 67-77. *)
Definition geos_file_info (d : dev) (f : geos_file) : res (option geos_info) :=
  let? il := entry_info_location (gf_entry f) in
  match il with
  | Some l => let? b := sector d l in Ok (Some (info_from_bytes b))
  | None => Ok None
  end.

(** [Option]s flattened: [records.iter().flatten()]. *)
Fixpoint somes {A} (l : list (option A)) : list A :=
  match l with
  | [] => []
  | Some x :: l => x :: somes l
  | None :: l => somes l
  end.

(** GEOSFile::delete: geos/file.rs lines 90-116. *)
Definition geos_delete (f : geos_file) : st world unit :=
  do_ (remove_chain (gf_bam f) (de_first (gf_entry f))) in
  do! il := lift (entry_info_location (gf_entry f)) in
  do_ (match il with
       | Some l => update_cell (gf_bam f) (fun b => bam_free b l)
       | None => ret tt
       end) in
  do_ (match gf_vlir f with
       | Some records => for_each (fun l => remove_chain (gf_bam f) l) (somes records)
       | None => ret tt
       end) in
  on_dev (positioned_write (deleted_entry (gf_entry f))).

(** GEOSFile::record_count: geos/file.rs lines 118-123. *)
Definition geos_record_count (f : geos_file) : nat :=
  match gf_vlir f with Some records => length records | None => 1 end.

(** GEOSFile::record: geos/file.rs lines 125-136. *)
Definition geos_record (d : dev) (f : geos_file) (index : nat) : res (list nat) :=
  let? start := record_start f index in
  match start with
  | Some l => read_all d l
  | None => Ok []
  end.

(** The loop over VLIR records in occupied_sectors: geos/file.rs lines 212-217. *)
Fixpoint vlir_locations (d : dev) (starts : list location) : res (list location) :=
  match starts with
  | [] => Ok []
  | l :: starts =>
      let? ls := chain_locations d l in
      let? rest := vlir_locations d starts in
      Ok (ls ++ rest)
  end.

(** GEOSFile::occupied_sectors: geos/file.rs lines 200-222. *)
Definition geos_occupied (d : dev) (f : geos_file) : res (list location) :=
  let? chain := chain_locations d (de_first (gf_entry f)) in
  let? il := entry_info_location (gf_entry f) in
  let info := match il with Some l => [l] | None => [] end in
  let? records :=
    match gf_vlir f with
    | Some starts => vlir_locations d (somes starts)
    | None => Ok []
    end in
  Ok (loc_dedup (loc_sort (chain ++ info ++ records))).

(** GEOSFile's FileOps::reader: geos/file.rs lines 224-236. *)
Definition geos_linear_reader (f : geos_file) : res chain_reader :=
  match gf_vlir f with
  | Some _ => Err ENonLinearFile
  | None => Ok (reader_new (de_first (gf_entry f)))
  end.

(** GEOSFile's FileOps::writer: geos/file.rs lines 238-243. *)
Definition geos_writer {A} (f : geos_file) : res A :=
  match gf_vlir f with
  | Some _ => Err ENonLinearFile
  | None => Err EReadOnly
  end.

(** ** GEOSReader: geos/reader.rs *)

(** enum GEOSReaderState: lines 17-23. *)
Inductive geos_state := SDirectoryEntry | SInfoBlock | SVLIRIndexBlock | SRecords | SFinished.

(** struct GEOSReader: lines 28-36; a pending ChainReader is the location it starts at. *)
Record geos_reader := mk_geos_reader {
  gr_state : geos_state;
  gr_buffer : list nat;
  gr_is_vlir : bool;
  gr_info : location;
  gr_start : location;
  gr_chains : list location
}.

(** BLOCK_DATA_SIZE: line 15. *)
Definition BLOCK_DATA_SIZE : nat := 254.

(** "PRG", "SEQ" and " formatted GEOS file V1.0": lines 43-45. *)
Definition cvt_prg : list nat := [80; 82; 71].
Definition cvt_seq : list nat := [83; 69; 81].
Definition cvt_suffix : list nat :=
  [32; 102; 111; 114; 109; 97; 116; 116; 101; 100; 32; 71; 69; 79; 83; 32;
   102; 105; 108; 101; 32; 86; 49; 46; 48].

(** GEOSReader::new: lines 41-82. *)
Definition geos_reader_new (e : dirent) : res geos_reader :=
  let? entry := dirent_to_bytes e (repeat 0 ENTRY_SIZE) in
  let? v := entry_is_vlir e in
  let buffer := splice 0 entry zero_block in
  let buffer := splice 32 (if v then cvt_prg else cvt_seq) buffer in
  let buffer := splice 35 cvt_suffix buffer in
  let buffer := drop 2 buffer in
  let? il := entry_info_location e in
  match il with
  | Some l => Ok (mk_geos_reader SDirectoryEntry buffer v l (de_first e) [])
  | None => Err EGEOSInfoNotFound
  end.

(** scan_chain: lines 94-108; the count is compared with u8::MAX. *)
Definition scan_chain (d : dev) (start : location) : res (nat * nat) :=
  let? ss := all_or_error (chain_walk d start) in
  let count := length ss in
  let lst := match last ss with Some s => length (cs_data s) - 1 | None => 0 end in
  if 255 <? count then Err ERecordTooLarge else
  if 255 <? lst then Panic else Ok (count, lst).

(** The conversion of the index pairs: lines 113-129. Gives the chains to read
    and the converted pairs. *)
Fixpoint convert_index (d : dev) (ps : list location) : res (list location * list nat) :=
  match ps with
  | [] => Ok ([], [])
  | (t, s) :: ps =>
      if (t =? 0) && (s =? 0) then Ok ([], [])
      else if (t =? 0) && (s =? 255) then
        let? (chains, bytes) := convert_index d ps in Ok (chains, [0; 255] ++ bytes)
      else
        let? (count, lst) := scan_chain d (t, s) in
        let? (chains, bytes) := convert_index d ps in
        Ok ((t, s) :: chains, [count; lst] ++ bytes)
  end.

(** process_vlir_index_block: lines 88-150. *)
Definition process_index (d : dev) (r : geos_reader) : res geos_reader :=
  let? index := sector d (gr_start r) in
  let? (chains, bytes) := convert_index d (pairs (drop 2 index)) in
  Ok (mk_geos_reader (gr_state r) (bytes ++ repeat 0 (BLOCK_DATA_SIZE - length bytes))
        (gr_is_vlir r) (gr_info r) (gr_start r) chains).

Definition set_state (s : geos_state) (r : geos_reader) : geos_reader :=
  mk_geos_reader s (gr_buffer r) (gr_is_vlir r) (gr_info r) (gr_start r) (gr_chains r).
Definition set_buffer (b : list nat) (r : geos_reader) : geos_reader :=
  mk_geos_reader (gr_state r) b (gr_is_vlir r) (gr_info r) (gr_start r) (gr_chains r).
Definition set_chains (c : list location) (r : geos_reader) : geos_reader :=
  mk_geos_reader (gr_state r) (gr_buffer r) (gr_is_vlir r) (gr_info r) (gr_start r) c.

(** Padding to a multiple of 254 bytes: lines 185-191. *)
Definition pad_record (bytes : list nat) : list nat :=
  let remainder := length bytes mod BLOCK_DATA_SIZE in
  if 0 <? remainder then bytes ++ repeat 0 (BLOCK_DATA_SIZE - remainder) else bytes.

(** The Records case of next_state: lines 180-195. When reading the chain fails
    the bytes already appended to the buffer are not modelled. *)
Definition next_record (d : dev) : st geos_reader unit :=
  fun r =>
    match gr_chains r with
    | [] => (set_state SFinished r, Ok tt)
    | l :: chains =>
        let r := set_chains chains r in
        match read_all d l with
        | Ok bytes =>
            let buffer := gr_buffer r ++ bytes in
            (set_buffer (match chains with [] => buffer | _ => pad_record buffer end) r, Ok tt)
        | Err e => (r, Err e)
        | Panic => (r, Panic)
        | NoFuel => (r, NoFuel)
        end
    end.

(** next_state: lines 154-199. *)
Definition next_state (d : dev) : st geos_reader unit :=
  fun r =>
    match gr_state r with
    | SDirectoryEntry =>
        let r := set_state SInfoBlock r in
        match sector d (gr_info r) with
        | Ok b => (set_buffer (drop 2 b) r, Ok tt)
        | Err e => (r, Err e)
        | Panic => (r, Panic)
        | NoFuel => (r, NoFuel)
        end
    | SInfoBlock =>
        if gr_is_vlir r then
          let r := set_state SVLIRIndexBlock r in
          match process_index d r with
          | Ok r' => (r', Ok tt)
          | Err e => (r, Err e)
          | Panic => (r, Panic)
          | NoFuel => (r, NoFuel)
          end
        else (set_chains (gr_chains r ++ [gr_start r]) (set_state SRecords r), Ok tt)
    | SVLIRIndexBlock => next_record d (set_state SRecords r)
    | SRecords => next_record d r
    | SFinished => (r, Ok tt)
    end.

(** The loop of GEOSReader::read: lines 209-237; [n] is the length of what is
    left of the output buffer. The result is the bytes written. *)
Fixpoint geos_read_loop (fuel : nat) (d : dev) (r : geos_reader) (n : nat)
    : geos_reader * res (list nat) :=
  match fuel with
  | 0 => (r, NoFuel)
  | S fuel =>
      let bytes := Nat.min n (length (gr_buffer r)) in
      let out := take bytes (gr_buffer r) in
      if bytes =? n then (r, Ok out)
      else
        let r := set_buffer (drop bytes (gr_buffer r)) r in
        match gr_buffer r with
        | [] =>
            match next_state d r with
            | (r', Ok _) =>
                match gr_state r' with
                | SFinished => (r', Ok out)
                | _ =>
                    let '(r'', res) := geos_read_loop fuel d r' (n - bytes) in
                    (r'', let? rest := res in Ok (out ++ rest))
                end
            | (r', Err e) => (r', Err e)
            | (r', Panic) => (r', Panic)
            | (r', NoFuel) => (r', NoFuel)
            end
        | _ =>
            let '(r'', res) := geos_read_loop fuel d r (n - bytes) in
            (r'', let? rest := res in Ok (out ++ rest))
        end
  end.

(** GEOSReader::read: lines 203-239. An index has at most 127 records, so there
    are at most 127 + 4 rounds. *)
Definition geos_read (d : dev) (r : geos_reader) (n : nat) : geos_reader * res (list nat) :=
  match gr_state r with
  | SFinished => (r, Ok [])
  | _ => geos_read_loop (length (gr_chains r) + 140) d r n
  end.
