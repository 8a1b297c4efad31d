(** Directory entries: /repo/src/disk/directory.rs lines 14-551. *)
From Verif Require Import Base Layout Block Petscii GeosTypes.

(** PADDING_BYTE: /repo/src/disk/mod.rs line 131. *)
Definition PADDING_BYTE : nat := 160.

(** enum FileType: lines 29-36. *)
Inductive file_type := DEL | SEQ | PRG | USR | REL | FUnknown (b : nat).

Global Instance file_type_eq_dec : EqDecision file_type.
Proof. solve_decision. Defined.

(** struct FileAttributes: lines 68-82. *)
Record attributes := mk_attr {
  fa_type : file_type;
  fa_unused : bool;
  fa_replace : bool;
  fa_locked : bool;
  fa_closed : bool
}.

(** [byte & 0x0F] etc. on bytes held as [nat]. *)
Definition byte_and (b mask : nat) : nat := N.to_nat (N.land (N.of_nat b) (N.of_nat mask)).
Definition byte_or (b mask : nat) : nat := N.to_nat (N.lor (N.of_nat b) (N.of_nat mask)).

(** FileAttributes::from_byte: lines 86-102. *)
Definition attr_from_byte (byte : nat) : attributes :=
  mk_attr
    (match byte_and byte 15 with
     | 0 => DEL
     | 1 => SEQ
     | 2 => PRG
     | 3 => USR
     | 4 => REL
     | b => FUnknown b
     end)
    (negb (byte_and byte 16 =? 0))
    (negb (byte_and byte 32 =? 0))
    (negb (byte_and byte 64 =? 0))
    (negb (byte_and byte 128 =? 0)).

(** The type nibble: lines 106-113. *)
Definition type_to_byte (t : file_type) : nat :=
  match t with
  | DEL => 0
  | SEQ => 1
  | PRG => 2
  | USR => 3
  | REL => 4
  | FUnknown b => b
  end.

(** FileAttributes::to_byte: lines 105-127. *)
Definition attr_to_byte (a : attributes) : nat :=
  let byte := type_to_byte (fa_type a) in
  let byte := if fa_unused a then byte_or byte 16 else byte in
  let byte := if fa_replace a then byte_or byte 32 else byte in
  let byte := if fa_locked a then byte_or byte 64 else byte in
  if fa_closed a then byte_or byte 128 else byte.

(** FileAttributes::is_scratched: lines 132-134. *)
Definition is_scratched (a : attributes) : bool :=
  bool_decide (fa_type a = DEL) && negb (fa_closed a).

(** Entry offsets: lines 170-177. *)
Definition ENTRY_SIZE : nat := 32.
Definition ENTRY_FILE_ATTRIBUTE_OFFSET : nat := 2.
Definition ENTRY_FIRST_SECTOR_OFFSET : nat := 3.
Definition ENTRY_FILENAME_OFFSET : nat := 5.
Definition ENTRY_FILENAME_LENGTH : nat := 16.
Definition ENTRY_EXTRA_OFFSET : nat := 21.
Definition EXTRA_SIZE : nat := 9.
Definition ENTRY_FILE_SIZE_OFFSET : nat := 30.

(** enum Scheme: /repo/src/disk/file.rs lines 25-44. *)
Inductive scheme := SLinear | SRelative | SGEOSSequential | SGEOSVLIR.

Global Instance scheme_eq_dec : EqDecision scheme.
Proof. solve_decision. Defined.

(** enum Extra: lines 189-193, with LinearExtra (232-234), RelativeExtra
    (259-263) and GEOSExtra (301-310) inlined. *)
Inductive extra :=
| XLinear (unused : list nat)
| XRelative (first_side_sector : location) (record_length : nat) (unused : list nat)
| XGEOS (info_block : location) (structure : geos_structure) (ftype : geos_file_type)
        (year month day hour minute : nat).

(** Extra::default: lines 196-198. *)
Definition extra_default : extra := XLinear (repeat 0 EXTRA_SIZE).

(** Extra::from_bytes: lines 200-207, with 237-242, 270-279 and 322-336. *)
Definition extra_from_bytes (s : scheme) (bytes : list nat) : extra :=
  match s with
  | SLinear => XLinear bytes
  | SRelative => XRelative (bytes !!! 0, bytes !!! 1) (bytes !!! 2) (slice 3 6 bytes)
  | SGEOSSequential | SGEOSVLIR =>
      XGEOS (bytes !!! 0, bytes !!! 1)
            (structure_from_byte (bytes !!! 2)) (geos_type_from_byte (bytes !!! 3))
            (bytes !!! 4) (bytes !!! 5) (bytes !!! 6) (bytes !!! 7) (bytes !!! 8)
  end.

(** Extra::to_bytes over the nine bytes already present: lines 209-216, with
    244-247, 281-286 (the record length is not written) and 338-349.
    [copy_from_slice] panics when the lengths differ. *)
Definition extra_to_bytes (x : extra) (bytes : list nat) : res (list nat) :=
  match x with
  | XLinear unused => if length unused =? EXTRA_SIZE then Ok unused else Panic
  | XRelative side _ unused =>
      if length unused =? 6 then
        Ok (splice 3 unused (splice 0 [fst side; snd side] bytes))
      else Panic
  | XGEOS info s t year month day hour minute =>
      Ok [fst info; snd info; structure_to_byte s; geos_type_to_byte t;
          year; month; day; hour; minute]
  end.

(** struct DirectoryEntry: lines 390-401. *)
Record dirent := mk_dirent {
  de_attr : attributes;
  de_first : location;
  de_name : list nat;
  de_extra : extra;
  de_size : nat;
  de_pos : option position;
  de_scheme : scheme;
  de_border : bool
}.

(** GEOSExtra::is_entry_geos: lines 352-364. *)
Definition is_entry_geos (bytes : list nat) : bool :=
  (byte_and (bytes !!! ENTRY_FILE_ATTRIBUTE_OFFSET) 7 <? 4)
  && (negb (bytes !!! (ENTRY_EXTRA_OFFSET + 2) =? 0)
      || negb (bytes !!! (ENTRY_EXTRA_OFFSET + 3) =? 0))
  && (bytes !!! (ENTRY_EXTRA_OFFSET + 2) <=? 1).

(** GEOSExtra::is_entry_vlir: lines 367-369. *)
Definition is_entry_vlir (bytes : list nat) : bool :=
  bytes !!! (ENTRY_EXTRA_OFFSET + 2) =? 1.

(** The scheme selection of DirectoryEntry::parse: lines 419-429. *)
Definition entry_scheme (a : attributes) (bytes : list nat) : scheme :=
  if decide (fa_type a = REL) then SRelative
  else if is_entry_geos bytes then
    if is_entry_vlir bytes then SGEOSVLIR else SGEOSSequential
  else SLinear.

(** DirectoryEntry::parse: lines 413-451. *)
Definition dirent_parse (bytes : list nat) (pos : option position) : res dirent :=
  if negb (length bytes =? ENTRY_SIZE) then Panic else
  let a := attr_from_byte (bytes !!! ENTRY_FILE_ATTRIBUTE_OFFSET) in
  let s := entry_scheme a bytes in
  Ok (mk_dirent a
        (bytes !!! ENTRY_FIRST_SECTOR_OFFSET, bytes !!! (ENTRY_FIRST_SECTOR_OFFSET + 1))
        (from_padded_bytes (slice ENTRY_FILENAME_OFFSET ENTRY_FILENAME_LENGTH bytes) PADDING_BYTE)
        (extra_from_bytes s (slice ENTRY_EXTRA_OFFSET EXTRA_SIZE bytes))
        (bytes !!! (ENTRY_FILE_SIZE_OFFSET + 1) * 256 + bytes !!! ENTRY_FILE_SIZE_OFFSET)
        pos s false).

(** DirectoryEntry::reset: lines 454-461. *)
Definition dirent_reset (e : dirent) : dirent :=
  mk_dirent (attr_from_byte 0) (0, 0) (repeat 0 ENTRY_FILENAME_LENGTH) extra_default 0
    (de_pos e) (de_scheme e) (de_border e).

(** DirectoryEntry::to_bytes over the 32 bytes already present: lines 474-489.
    A name of more than 16 bytes makes the [unwrap] panic (the bytes written
    before that point are not modelled). *)
Definition dirent_to_bytes (e : dirent) (bytes : list nat) : res (list nat) :=
  if negb (length bytes =? ENTRY_SIZE) then Panic else
  let bytes := splice ENTRY_FILE_ATTRIBUTE_OFFSET [attr_to_byte (de_attr e)] bytes in
  let bytes := splice ENTRY_FIRST_SECTOR_OFFSET [fst (de_first e); snd (de_first e)] bytes in
  match write_bytes_with_padding (de_name e) ENTRY_FILENAME_LENGTH PADDING_BYTE with
  | None => Panic
  | Some name =>
      let bytes := splice ENTRY_FILENAME_OFFSET name bytes in
      let? x := extra_to_bytes (de_extra e) (slice ENTRY_EXTRA_OFFSET EXTRA_SIZE bytes) in
      let bytes := splice ENTRY_EXTRA_OFFSET x bytes in
      Ok (splice ENTRY_FILE_SIZE_OFFSET [de_size e mod 256; de_size e / 256] bytes)
  end.

(** BlockDevice::positioned_read of a directory entry: /repo/src/disk/block.rs
    lines 34-41 with directory.rs lines 498-512 and reread_from_bytes 466-469. *)
Definition positioned_read (d : dev) (e : dirent) : res dirent :=
  match de_pos e with
  | None => Err EUnpositioned
  | Some p =>
      let? b := sector d (p_loc p) in
      if length b <? p_off p + p_size p then Panic
      else dirent_parse (slice (p_off p) (p_size p) b) (de_pos e)
  end.

(** BlockDevice::positioned_write of a directory entry: /repo/src/disk/block.rs
    lines 43-50 with directory.rs lines 514-521. *)
Definition positioned_write (e : dirent) : st dev unit :=
  fun d =>
    match de_pos e with
    | None => (d, Err EUnpositioned)
    | Some p =>
        match (let? _ := check_writability d in
               let? b := sector d (p_loc p) in
               if length b <? p_off p + p_size p then Panic
               else dirent_to_bytes e (slice (p_off p) (p_size p) b)) with
        | Ok bytes => sector_mut (p_loc p) (splice (p_off p) bytes) d
        | Err err => (d, Err err)
        | Panic => (d, Panic)
        | NoFuel => (d, NoFuel)
        end
    end.

(** check_filename_validity: lines 790-795. *)
Definition check_filename_validity (name : list nat) : res unit :=
  if ENTRY_FILENAME_LENGTH <? length name then Err EFilenameTooLong else Ok tt.

(** Record updates used by the callers. *)
Definition set_attr (a : attributes) (e : dirent) : dirent :=
  mk_dirent a (de_first e) (de_name e) (de_extra e) (de_size e) (de_pos e) (de_scheme e) (de_border e).
Definition set_first (l : location) (e : dirent) : dirent :=
  mk_dirent (de_attr e) l (de_name e) (de_extra e) (de_size e) (de_pos e) (de_scheme e) (de_border e).
Definition set_name (n : list nat) (e : dirent) : dirent :=
  mk_dirent (de_attr e) (de_first e) n (de_extra e) (de_size e) (de_pos e) (de_scheme e) (de_border e).
Definition set_size (n : nat) (e : dirent) : dirent :=
  mk_dirent (de_attr e) (de_first e) (de_name e) (de_extra e) n (de_pos e) (de_scheme e) (de_border e).
Definition set_border (b : bool) (e : dirent) : dirent :=
  mk_dirent (de_attr e) (de_first e) (de_name e) (de_extra e) (de_size e) (de_pos e) (de_scheme e) b.

(** [file_type = t] and [closed_flag = c]: the other flags are kept. *)
Definition set_type (t : file_type) (c : bool) (a : attributes) : attributes :=
  mk_attr t (fa_unused a) (fa_replace a) (fa_locked a) c.
