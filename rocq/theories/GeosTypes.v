(** GEOS metadata: /repo/src/disk/geos/mod.rs. *)
From Verif Require Import Base.

(** enum GEOSFileStructure: lines 60-64. *)
Inductive geos_structure := GSequential | GVLIR | GStructUndefined (b : nat).

(** GEOSFileStructure::from_byte: lines 67-73. *)
Definition structure_from_byte (b : nat) : geos_structure :=
  match b with
  | 0 => GSequential
  | 1 => GVLIR
  | _ => GStructUndefined b
  end.

(** GEOSFileStructure::to_byte: lines 75-81. *)
Definition structure_to_byte (s : geos_structure) : nat :=
  match s with
  | GSequential => 0
  | GVLIR => 1
  | GStructUndefined b => b
  end.

(** enum GEOSFileType: lines 99-116. *)
Inductive geos_file_type :=
| GNonGEOS | GBASIC | GAssembler | GDataFile | GSystemFile | GDeskAccessory
| GApplication | GApplicationData | GFontFile | GPrinterDriver | GInputDriver
| GDiskDriver | GSystemBootFile | GTemporary | GAutoExecuteFile
| GTypeUndefined (b : nat).

(** GEOSFileType::from_byte: lines 119-138. *)
Definition geos_type_from_byte (b : nat) : geos_file_type :=
  match b with
  | 0 => GNonGEOS
  | 1 => GBASIC
  | 2 => GAssembler
  | 3 => GDataFile
  | 4 => GSystemFile
  | 5 => GDeskAccessory
  | 6 => GApplication
  | 7 => GApplicationData
  | 8 => GFontFile
  | 9 => GPrinterDriver
  | 10 => GInputDriver
  | 11 => GDiskDriver
  | 12 => GSystemBootFile
  | 13 => GTemporary
  | 14 => GAutoExecuteFile
  | _ => GTypeUndefined b
  end.

(** GEOSFileType::to_byte: lines 140-159. *)
Definition geos_type_to_byte (t : geos_file_type) : nat :=
  match t with
  | GNonGEOS => 0
  | GBASIC => 1
  | GAssembler => 2
  | GDataFile => 3
  | GSystemFile => 4
  | GDeskAccessory => 5
  | GApplication => 6
  | GApplicationData => 7
  | GFontFile => 8
  | GPrinterDriver => 9
  | GInputDriver => 10
  | GDiskDriver => 11
  | GSystemBootFile => 12
  | GTemporary => 13
  | GAutoExecuteFile => 14
  | GTypeUndefined b => b
  end.

(** GEOS_SIGNATURE ("GEOS format"), GEOS_SIGNATURE_OFFSET, GEOS_ID_OFFSET,
    GEOS_ID_SIZE, GEOS_BORDER_OFFSET: lines 21-31. *)
Definition geos_signature : list nat := [71; 69; 79; 83; 32; 102; 111; 114; 109; 97; 116].
Definition geos_signature_offset : nat := 173.
Definition geos_id_offset : nat := 173.
Definition geos_id_size : nat := 16.
Definition geos_border_offset : nat := 171.

(** struct GEOSDiskHeader: lines 35-42; a GEOSString (lines 193-195) is its bytes. *)
Record geos_header := mk_geos_header { gh_border : location; gh_id : list nat }.

(** GEOSDiskHeader::new: lines 45-56. *)
Definition geos_header_new (block : list nat) : option geos_header :=
  if decide (slice geos_signature_offset (length geos_signature) block = geos_signature)
  then Some (mk_geos_header
               (block !!! geos_border_offset, block !!! (geos_border_offset + 1))
               (slice geos_id_offset geos_id_size block))
  else None.

(** GEOSString::to_bytes into a slice of [len] bytes: lines 204-206;
    [copy_from_slice] panics when the lengths differ. *)
Definition geos_string_to_bytes (s : list nat) (off len : nat) (bytes : list nat)
    : res (list nat) :=
  if (length bytes <? off + len) || negb (length s =? len) then Panic
  else Ok (splice off s bytes).

(** u16_from_le: lines 237-239 (the first two bytes of the slice). *)
Definition u16_from_le (lo hi : nat) : nat := hi * 256 + lo.

(** u16_to_le: lines 242-245. *)
Definition u16_to_le (n : nat) : list nat := [n mod 256; (n / 256) mod 256].
