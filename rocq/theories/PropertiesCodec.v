(** Properties of the codecs: links, BAM entries, directory entries, names,
    headers, GEOS metadata, sprites and hex dumps. *)
From Verif Require Import Base ListFacts Layout Block Petscii GeosTypes DirEntry Header Bam Chain
  Sprite Hexdump Spec SpecCodec SpecText GeomFacts FlatProofs DevFacts BitFacts CodecProofs EntryProofs
  HeaderProofs TextProofs CodecMore.

(** C07: chain links as two bytes. *)
Theorem C07_link_encode : forall k bytes,
  2 <= length bytes ->
  (match k with Next l => fst l <> 0 | Tail size => 2 <= size <= 256 end) ->
  let bytes' := (match k with Next l => [fst l; snd l] | Tail size => [0; size - 1] end)
                ++ drop 2 bytes in
  link_to_bytes k bytes = Ok bytes' /\ link_new bytes' = Ok k.
Proof. exact link_layout. Qed.
Print Assumptions C07_link_encode.

Theorem C07_link_decode : forall bytes,
  2 <= length bytes -> Forall is_byte bytes ->
  (link_new bytes = Err EInvalidChainLink /\ take 2 bytes = [0; 0])
  \/ (exists k, link_new bytes = Ok k /\ link_to_bytes k bytes = Ok bytes).
Proof. exact link_decode_any. Qed.
Print Assumptions C07_link_decode.

Example C07_example :
  link_to_bytes (Tail 256) (repeat 7 256) = Ok ([0; 255] ++ repeat 7 254)
  /\ link_new [0; 0; 9] = Err EInvalidChainLink.
Proof. split; reflexivity. Qed.

(** C08: operations on the BAM entry of a track. *)
Theorem C08_bam_entry_bits : forall e ops,
  (e_map e < 2 ^ 64)%N -> Forall (fun o => op_sector o < 64) ops ->
  exists e', run_ops e ops = Ok e'
    /\ (forall s, N.testbit (e_map e') (N.of_nat s)
                  = bit_after (N.testbit (e_map e) (N.of_nat s)) ops s)
    /\ (ops <> [] -> e_free e' = free_bits (e_map e'))
    /\ (e_map e' < 2 ^ 64)%N.
Proof. exact bit_ops. Qed.
Print Assumptions C08_bam_entry_bits.

Example C08_example :
  run_ops (entry_new 21) [OpAllocate 3; OpFree 3; OpAllocate 20; OpAllocate 20]
  = Ok (mk_entry 20 (N.ones 20)).
Proof. vm_compute. reflexivity. Qed.

(** C09: bitmaps as bytes. *)
Theorem C09_bitmap_bytes : forall bytes c,
  length bytes <= 8 -> Forall is_byte bytes ->
  bitmap_bytes (length bytes) (e_map (entry_from_bytes c bytes)) = bytes
  /\ e_free (entry_from_bytes c bytes) = c
  /\ forall s, s < 8 * length bytes ->
       N.testbit (e_map (entry_from_bytes c bytes)) (N.of_nat s)
       = N.testbit (N.of_nat (bytes !!! (s / 8))) (N.of_nat (s mod 8)).
Proof. exact bitmap_reread. Qed.
Print Assumptions C09_bitmap_bytes.

Theorem C09_bitmap_reread : forall n m c,
  n <= 8 -> (m < 2 ^ (8 * N.of_nat n))%N ->
  entry_from_bytes c (bitmap_bytes n m) = mk_entry c m
  /\ length (bitmap_bytes n m) = n /\ Forall is_byte (bitmap_bytes n m).
Proof. exact bitmap_rewrite. Qed.
Print Assumptions C09_bitmap_reread.

Example C09_example :
  e_map (entry_from_bytes 17 [254; 255; 31]) = (2 ^ 21 - 2)%N
  /\ bitmap_bytes 3 (2 ^ 21 - 2)%N = [254; 255; 31].
Proof. split; reflexivity. Qed.

(** C14: rewriting an entry that was read. *)
Theorem C14_entry_rewrite : forall bytes pos,
  length bytes = 32 -> Forall is_byte bytes ->
  exists e, dirent_parse bytes pos = Ok e /\ dirent_to_bytes e bytes = Ok bytes
    /\ entry_value e = drop 2 bytes /\ last (de_name e) <> Some PADDING_BYTE
    /\ de_pos e = pos.
Proof. exact entry_rewrite. Qed.
Print Assumptions C14_entry_rewrite.

Example C14_example :
  Forall is_byte (repeat 131 32) /\ length (repeat 131 32) = 32.
Proof. split; [|done]. repeat constructor. Qed.

(** C15: an entry written into a slot and read back. Partial: for a relative
    file the slot must already hold its record length, which is not written. *)
Theorem C15_entry_write_read_partial : forall e bytes,
  length bytes = 32 -> entry_ok e -> record_length_kept e bytes ->
  exists bytes', dirent_to_bytes e bytes = Ok bytes' /\ length bytes' = 32
    /\ bytes' = take 2 bytes ++ entry_value e
    /\ forall pos, dirent_parse bytes' pos =
         Ok (mk_dirent (de_attr e) (de_first e) (de_name e) (de_extra e) (de_size e) pos
               (de_scheme e) false).
Proof. exact entry_write_read. Qed.
Print Assumptions C15_entry_write_read_partial.

Theorem C15_entry_write_read_refuted :
  exists e bytes bytes' e', length bytes = 32 /\ entry_ok e
    /\ dirent_to_bytes e bytes = Ok bytes' /\ dirent_parse bytes' None = Ok e'
    /\ de_extra e' <> de_extra e.
Proof. exact entry_write_read_fails. Qed.
Print Assumptions C15_entry_write_read_refuted.

Example C15_example :
  entry_ok (mk_dirent (mk_attr PRG false false true true) (17, 3) [72; 73]
              (XLinear (repeat 0 9)) 300 None SLinear false).
Proof. split; simpl; unfold is_byte; try lia; try done. split; [done|]. split; [done|]. right. by left. Qed.

(** C16: attribute bytes. *)
Theorem C16_attribute_byte : forall b,
  b < 256 ->
  attr_to_byte (attr_from_byte b) = b /\ attr_value (attr_from_byte b) = b
  /\ is_scratched (attr_from_byte b) = (b mod 16 =? 0) && (b <? 128).
Proof. exact attr_byte. Qed.
Print Assumptions C16_attribute_byte.

Theorem C16_attributes : forall a,
  type_ok (fa_type a) ->
  attr_to_byte a = attr_value a /\ attr_from_byte (attr_to_byte a) = a /\ attr_to_byte a < 256.
Proof. exact attr_any. Qed.
Print Assumptions C16_attributes.

Example C16_example : attr_from_byte 194 = mk_attr PRG false false true true.
Proof. reflexivity. Qed.

(** C17: names in padded fields. *)
Theorem C17_padded_names : forall s n pad,
  (length s <= n ->
     write_bytes_with_padding s n pad = Some (s ++ repeat pad (n - length s))
     /\ (last s <> Some pad -> from_padded_bytes (s ++ repeat pad (n - length s)) pad = s))
  /\ (n < length s -> write_bytes_with_padding s n pad = None).
Proof. exact padded_names. Qed.
Print Assumptions C17_padded_names.

Theorem C17_padded_field : forall field pad,
  write_bytes_with_padding (from_padded_bytes field pad) (length field) pad = Some field
  /\ last (from_padded_bytes field pad) <> Some pad.
Proof. exact padded_field. Qed.
Print Assumptions C17_padded_field.

(** A name that ends in the padding byte is not read back. *)
Theorem C17_padded_names_refuted :
  exists s field, length s <= 16 /\ write_bytes_with_padding s 16 160 = Some field
    /\ from_padded_bytes field 160 <> s.
Proof. exact padded_names_fail. Qed.
Print Assumptions C17_padded_names_refuted.

Example C17_example :
  write_bytes_with_padding [160; 65] 5 160 = Some [160; 65; 160; 160; 160]
  /\ from_padded_bytes [160; 65; 160; 160; 160] 160 = [160; 65].
Proof. split; reflexivity. Qed.

(** C18: conversion between PETSCII and Unicode. *)
Theorem C18_display_stable : forall s,
  Forall is_byte s -> petscii_display (from_str_lossy (petscii_display s)) = petscii_display s.
Proof. exact display_stable. Qed.
Print Assumptions C18_display_stable.

Theorem C18_text_kept : forall text,
  (forall c, In c text -> exists b, b < 256 /\ petscii_display [b] = [c]) ->
  petscii_display (from_str_lossy text) = text.
Proof. exact text_kept. Qed.
Print Assumptions C18_text_kept.

Theorem C18_one_byte_each : forall text,
  length (from_str_lossy text) = length text /\ Forall is_byte (from_str_lossy text).
Proof. exact one_byte_each. Qed.
Print Assumptions C18_one_byte_each.

(** Digits and letters: lower case letters are the codes 65 to 90, upper case
    letters the codes 97 to 122, digits and punctuation as in ASCII. *)
Theorem C18_letters : forall n,
  (n < 26 -> from_str_lossy [N.of_nat (97 + n)] = [65 + n]
             /\ from_str_lossy [N.of_nat (65 + n)] = [97 + n]
             /\ petscii_display [193 + n] = [N.of_nat (65 + n)])
  /\ (32 <= n <= 64 -> from_str_lossy [N.of_nat n] = [n] /\ petscii_display [n] = [N.of_nat n]).
Proof. exact letters. Qed.
Print Assumptions C18_letters.

Example C18_example :
  petscii_display (from_str_lossy [72; 105; 33]%N) = [72; 105; 33]%N.
Proof. reflexivity. Qed.

(** C19: the disk header. *)
Theorem C19_header_roundtrip : forall t d h,
  dev_shape t d -> d_writable d = true -> length (h_disk_name h) <= 16 ->
  exists d' block block',
    header_write h (header_fmt (native_format t)) d = (d', Ok tt)
    /\ header_read d' (header_fmt (native_format t))
      = Ok (mk_header (h_first_directory h) (h_disk_format_type h)
              (h_disk_name h ++ repeat 160 (16 - length (h_disk_name h)))
              (h_disk_id h) (h_directory_dos_version h) (h_directory_format_type h)
              (geos_header_new block))
    /\ sector d (hf_location (header_fmt (native_format t))) = Ok block
    /\ sector d' (hf_location (header_fmt (native_format t))) = Ok block' /\ length block' = 256
    /\ take 3 block' = [fst (h_first_directory h); snd (h_first_directory h); h_disk_format_type h]
    /\ (t = D71 -> block' !!! 3 = 128)
    /\ (let '(o, v) := header_tail t h in slice o (length v) block' = v)
    /\ (forall i, ~ header_field t i -> block' !!! i = block !!! i)
    /\ (forall l, l <> hf_location (header_fmt (native_format t)) -> sector d' l = sector d l)
    /\ d_etable d' = d_etable d /\ d_geom d' = d_geom d.
Proof. exact header_roundtrip. Qed.
Print Assumptions C19_header_roundtrip.

Theorem C19_header_long_name : forall t d h,
  dev_shape t d -> 16 < length (h_disk_name h) ->
  header_write h (header_fmt (native_format t)) d = (d, Err EFilenameTooLong).
Proof. exact header_name_too_long. Qed.
Print Assumptions C19_header_long_name.

Example C19_example : exists d, dev_shape D81 d /\ d_writable d = true.
Proof. exact (some_device D81). Qed.

(** C43: sprites. *)
Theorem C43_sprite_text : forall data,
  Forall is_byte data -> sprite_to_unicode data = sprite_text data.
Proof. exact sprite_faithful. Qed.
Print Assumptions C43_sprite_text.

Theorem C43_sprite_injective : forall data data',
  length data = 63 -> length data' = 63 -> Forall is_byte data -> Forall is_byte data' ->
  sprite_to_unicode data = sprite_to_unicode data' -> data = data'.
Proof. exact sprite_injective. Qed.
Print Assumptions C43_sprite_injective.

Example C43_example :
  sprite_text ([128; 0; 1] ++ repeat 0 60) !! 0 = Some 9624%N
  /\ sprite_text ([128; 0; 1] ++ repeat 0 60) !! 11 = Some 9629%N
  /\ length (sprite_text ([128; 0; 1] ++ repeat 0 60)) = 143.
Proof. split; [|split]; vm_compute; reflexivity. Qed.

(** C48: GEOS metadata. *)
Theorem C48_geos_codecs : forall b,
  structure_to_byte (structure_from_byte b) = b /\ geos_type_to_byte (geos_type_from_byte b) = b.
Proof. exact geos_bytes. Qed.
Print Assumptions C48_geos_codecs.

Theorem C48_geos_values : forall s t,
  (structure_ok s -> structure_from_byte (structure_to_byte s) = s)
  /\ (geos_type_ok t -> geos_type_from_byte (geos_type_to_byte t) = t).
Proof. exact geos_values. Qed.
Print Assumptions C48_geos_values.

Theorem C48_geos_extra : forall sch bytes,
  length bytes = 9 -> extra_to_bytes (extra_from_bytes sch bytes) bytes = Ok bytes
                      /\ extra_value (extra_from_bytes sch bytes) = bytes.
Proof. exact geos_extra. Qed.
Print Assumptions C48_geos_extra.

Example C48_example :
  geos_type_from_byte 6 = GApplication
  /\ extra_from_bytes SGEOSVLIR [17; 2; 1; 6; 88; 3; 9; 13; 0]
     = XGEOS (17, 2) GVLIR GApplication 88 3 9 13 0.
Proof. split; reflexivity. Qed.

(** C49: hex dumps. *)
Theorem C49_hexdump_faithful : forall prefix buffer,
  ~ In 10 prefix -> Forall is_byte buffer ->
  read_dump (length prefix) (hexdump prefix buffer) = Some buffer.
Proof. exact hexdump_faithful. Qed.
Print Assumptions C49_hexdump_faithful.

Example C49_example :
  read_dump 2 (hexdump [62; 32] (seq 0 40)) = Some (seq 0 40).
Proof. vm_compute. reflexivity. Qed.
