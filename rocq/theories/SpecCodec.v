(** Specifications for the codec properties. *)
From Verif Require Import Base Layout Petscii GeosTypes DirEntry Header.

(** A file type whose nibble decodes to itself. *)
Definition type_ok (t : file_type) : Prop :=
  match t with FUnknown b => 5 <= b < 16 | _ => True end.

Definition structure_ok (s : geos_structure) : Prop :=
  match s with GStructUndefined b => 2 <= b < 256 | _ => True end.
Definition geos_type_ok (t : geos_file_type) : Prop :=
  match t with GTypeUndefined b => 15 <= b < 256 | _ => True end.

(** An entry that a slot can hold. *)
Record entry_ok (e : dirent) : Prop := {
  eo_type : type_ok (fa_type (de_attr e));
  eo_first : is_byte (fst (de_first e)) /\ is_byte (snd (de_first e));
  eo_name : length (de_name e) <= 16;
  eo_name_end : last (de_name e) <> Some PADDING_BYTE;
  eo_size : de_size e < 256 * 256;
  eo_extra :
    match de_scheme e, de_extra e with
    | SRelative, XRelative side len unused =>
        fa_type (de_attr e) = REL /\ length unused = 6
    | SGEOSSequential, XGEOS _ GSequential ft _ _ _ _ _ =>
        geos_type_ok ft /\ ft <> GNonGEOS
        /\ fa_type (de_attr e) <> REL /\ type_to_byte (fa_type (de_attr e)) mod 8 < 4
    | SGEOSVLIR, XGEOS _ GVLIR ft _ _ _ _ _ =>
        geos_type_ok ft
        /\ fa_type (de_attr e) <> REL /\ type_to_byte (fa_type (de_attr e)) mod 8 < 4
    | SLinear, XLinear unused =>
        length unused = 9 /\ fa_type (de_attr e) <> REL
        /\ (4 <= type_to_byte (fa_type (de_attr e)) mod 8
            \/ (unused !!! 2 = 0 /\ unused !!! 3 = 0) \/ 2 <= unused !!! 2)
    | _, _ => False
    end
}.

(** The record length is the one field that is not written. *)
Definition record_length_kept (e : dirent) (bytes : list nat) : Prop :=
  match de_extra e with
  | XRelative _ len _ => bytes !!! 23 = len
  | _ => True
  end.

(** The bytes of the header sector that belong to the header. *)
Definition header_field (t : disk_type) (i : nat) : Prop :=
  match t with
  | D64 => i <= 2 \/ 144 <= i <= 170
  | D71 => i <= 3 \/ 144 <= i <= 170
  | D81 => i <= 2 \/ 4 <= i <= 28
  end.

(** Number of set bits of a 64-bit map. *)
Definition free_bits (m : N) : nat :=
  length (List.filter (fun s => N.testbit m (N.of_nat s)) (seq 0 64)).

(** Operations on the BAM entry of one track. *)
Inductive bit_op := OpAllocate (sector : nat) | OpFree (sector : nat).
Definition op_sector (o : bit_op) : nat := match o with OpAllocate s | OpFree s => s end.

(** Whether a sector is free after the operations: the last one on it decides. *)
Definition bit_after (free : bool) (ops : list bit_op) (s : nat) : bool :=
  fold_left (fun b o => if op_sector o =? s
                        then match o with OpAllocate _ => false | OpFree _ => true end
                        else b) ops free.

(** ** The byte layout of a directory entry *)

(** The attribute byte: type in the low four bits, then four flags. *)
Definition attr_value (a : attributes) : nat :=
  (match fa_type a with DEL => 0 | SEQ => 1 | PRG => 2 | USR => 3 | REL => 4 | FUnknown b => b end)
  + (if fa_unused a then 16 else 0) + (if fa_replace a then 32 else 0)
  + (if fa_locked a then 64 else 0) + (if fa_closed a then 128 else 0).

(** The nine extra bytes; byte 2 of the extra bytes of a relative file is its
    record length. *)
Definition extra_value (x : extra) : list nat :=
  match x with
  | XLinear unused => unused
  | XRelative (t, s) len unused => [t; s; len] ++ unused
  | XGEOS (t, s) st ft year month day hour minute =>
      [t; s; structure_to_byte st; geos_type_to_byte ft; year; month; day; hour; minute]
  end.

(** Bytes 2 to 31 of a slot holding the entry (bytes 0 and 1 do not belong to it). *)
Definition entry_value (e : dirent) : list nat :=
  [attr_value (de_attr e); fst (de_first e); snd (de_first e)]
  ++ de_name e ++ repeat 160 (16 - length (de_name e))
  ++ extra_value (de_extra e)
  ++ [de_size e mod 256; de_size e / 256].

(** ** The byte layout of the header sector: the offset of the disk name and
    the bytes from there on (bytes 0 and 1 point to the directory, byte 2 is the
    format type, byte 3 of a D71 is 128). *)
Definition header_tail (t : disk_type) (h : header) : nat * list nat :=
  let v := (h_disk_name h ++ repeat 160 (16 - length (h_disk_name h)))
           ++ [160; 160; fst (h_disk_id h); snd (h_disk_id h); 160;
               h_directory_dos_version h; h_directory_format_type h; 160; 160] in
  match t with
  | D81 => (4, v)
  | _ => (144, v ++ [160; 160])
  end.
