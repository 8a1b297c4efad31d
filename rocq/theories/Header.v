(** The disk header: /repo/src/disk/header.rs. *)
From Verif Require Import Base Layout Block Petscii GeosTypes DirEntry.

(** DISK_NAME_SIZE: /repo/src/disk/mod.rs line 132. *)
Definition DISK_NAME_SIZE : nat := 16.

(** struct Header: lines 32-42; an Id (mod.rs line 638) is a pair of bytes. *)
Record header := mk_header {
  h_first_directory : location;
  h_disk_format_type : nat;
  h_disk_name : list nat;
  h_disk_id : nat * nat;
  h_directory_dos_version : nat;
  h_directory_format_type : nat;
  h_geos : option geos_header
}.

(** Header::new: lines 45-60. *)
Definition header_new (hf : header_format) (f : disk_format) (name : list nat) (id : nat * nat)
    : header :=
  mk_header (first_directory_location f) (hf_default_disk_format_type hf) name id
    (hf_default_directory_dos_version hf) (hf_default_directory_format_type hf) None.

(** Header::read: lines 63-99. *)
Definition header_read (d : dev) (hf : header_format) : res header :=
  let? block := sector d (hf_location hf) in
  let? _ :=
    match hf_double_sided_flag_expectation hf with
    | Some (offset, value) => if block !!! offset =? value then Ok tt else Err EInvalidHeader
    | None => Ok tt
    end in
  Ok (mk_header
        (block !!! hf_first_directory_offset hf, block !!! (hf_first_directory_offset hf + 1))
        (block !!! hf_disk_format_type_offset hf)
        (slice (hf_disk_name_offset hf) DISK_NAME_SIZE block)
        (block !!! hf_disk_id_offset hf, block !!! (hf_disk_id_offset hf + 1))
        (block !!! hf_directory_dos_version_offset hf)
        (block !!! hf_directory_format_type_offset hf)
        (geos_header_new block)).

(** The rendering part of Header::write: lines 110-140. *)
Definition header_render (h : header) (hf : header_format) (block : list nat) : res (list nat) :=
  let block := splice (hf_first_directory_offset hf)
                 [fst (h_first_directory h); snd (h_first_directory h)] block in
  let block := splice (hf_disk_format_type_offset hf) [h_disk_format_type h] block in
  match write_bytes_with_padding (h_disk_name h) DISK_NAME_SIZE PADDING_BYTE with
  | None => Err EFilenameTooLong
  | Some name =>
      let block := splice (hf_disk_name_offset hf) name block in
      let block := splice (hf_disk_id_offset hf) [fst (h_disk_id h); snd (h_disk_id h)] block in
      let block := splice (hf_directory_dos_version_offset hf) [h_directory_dos_version h] block in
      let block := splice (hf_directory_format_type_offset hf) [h_directory_format_type h] block in
      let block :=
        match hf_double_sided_flag_expectation hf with
        | Some (offset, value) => splice offset [value] block
        | None => block
        end in
      Ok (fold_left (fun b o => splice o [PADDING_BYTE] b) (hf_padding_offsets hf) block)
  end.

(** Header::write: lines 105-148. *)
Definition header_write (h : header) (hf : header_format) : st dev unit :=
  do! block := asks (fun d => sector d (hf_location hf)) in
  do! block := lift (header_render h hf block) in
  sector_mut (hf_location hf) (fun _ => block).
