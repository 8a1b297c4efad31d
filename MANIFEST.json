{
 "claims": [
  {
   "property": "C01",
   "status": "proved",
   "theorems": [
    "C01_sector_addressing"
   ],
   "note": ""
  },
  {
   "property": "C02",
   "status": "proved",
   "theorems": [
    "C02_raw_store",
    "C02_error_table",
    "C02_flush",
    "C02_same_store"
   ],
   "note": ""
  },
  {
   "property": "C03",
   "status": "proved",
   "theorems": [
    "C03_size_selects_layout"
   ],
   "note": ""
  },
  {
   "property": "C07",
   "status": "proved",
   "theorems": [
    "C07_link_encode",
    "C07_link_decode"
   ],
   "note": ""
  },
  {
   "property": "C08",
   "status": "proved",
   "theorems": [
    "C08_bam_entry_bits"
   ],
   "note": ""
  },
  {
   "property": "C09",
   "status": "proved",
   "theorems": [
    "C09_bitmap_bytes",
    "C09_bitmap_reread"
   ],
   "note": ""
  },
  {
   "property": "C14",
   "status": "proved",
   "theorems": [
    "C14_entry_rewrite"
   ],
   "note": ""
  },
  {
   "property": "C15",
   "status": "partial",
   "theorems": [
    "C15_entry_write_read_partial",
    "C15_entry_write_read_refuted"
   ],
   "note": "REFUTED for relative files: the record length is not written. Proved for every entry whose slot already holds the record length, and for all other entries without condition."
  },
  {
   "property": "C16",
   "status": "proved",
   "theorems": [
    "C16_attribute_byte",
    "C16_attributes"
   ],
   "note": ""
  },
  {
   "property": "C17",
   "status": "proved",
   "theorems": [
    "C17_padded_names",
    "C17_padded_field",
    "C17_padded_names_refuted"
   ],
   "note": "The refutation shows the stated side condition (no trailing padding byte) is needed."
  },
  {
   "property": "C18",
   "status": "proved",
   "theorems": [
    "C18_display_stable",
    "C18_text_kept",
    "C18_one_byte_each",
    "C18_letters"
   ],
   "note": ""
  },
  {
   "property": "C19",
   "status": "proved",
   "theorems": [
    "C19_header_roundtrip",
    "C19_header_long_name"
   ],
   "note": ""
  },
  {
   "property": "C43",
   "status": "proved",
   "theorems": [
    "C43_sprite_text",
    "C43_sprite_injective"
   ],
   "note": ""
  },
  {
   "property": "C48",
   "status": "proved",
   "theorems": [
    "C48_geos_codecs",
    "C48_geos_values",
    "C48_geos_extra"
   ],
   "note": ""
  },
  {
   "property": "C49",
   "status": "proved",
   "theorems": [
    "C49_hexdump_faithful",
    "C49_layout"
   ],
   "note": ""
  },
  {
   "property": "C05",
   "status": "proved",
   "theorems": [
    "C05_chain_traversal",
    "C05_chain_fused"
   ],
   "note": ""
  },
  {
   "property": "C06",
   "status": "proved",
   "theorems": [
    "C06_reading",
    "C06_reading_any"
   ],
   "note": ""
  },
  {
   "property": "C41",
   "status": "partial",
   "theorems": [
    "C41_open_writer_partial",
    "C41_open_writer_refuted"
   ],
   "note": "REFUTED: on a cyclic chain the search for the last sector never ends. Proved: it ends on every chain that does not come back to itself."
  },
  {
   "property": "C10",
   "status": "proved",
   "theorems": [
    "C10_flush_reload"
   ],
   "note": ""
  },
  {
   "property": "C11",
   "status": "proved",
   "theorems": [
    "C11_new_file_block",
    "C13_block_after"
   ],
   "note": "The request takes the BAM by reference and returns a value; Panic and NoFuel results are excluded by the statement."
  },
  {
   "property": "C12",
   "status": "proved",
   "theorems": [
    "C12_new_file_block_geos"
   ],
   "note": ""
  },
  {
   "property": "C13",
   "status": "proved",
   "theorems": [
    "C13_block_after"
   ],
   "note": ""
  },
  {
   "property": "C51",
   "status": "proved",
   "theorems": [
    "C51_one_sector",
    "C51_lists_and_count"
   ],
   "note": ""
  },
  {
   "property": "C52",
   "status": "proved",
   "theorems": [
    "C52_order"
   ],
   "note": ""
  },
  {
   "property": "C44",
   "status": "proved",
   "theorems": [
    "C44_enumeration_geometry",
    "C44_enumeration_format",
    "C44_all_sectors_complete",
    "C44_fresh_allocation"
   ],
   "note": ""
  },
  {
   "property": "C20",
   "status": "proved",
   "theorems": [
    "C20_format"
   ],
   "note": ""
  },
  {
   "property": "C22",
   "status": "proved",
   "theorems": [
    "C22_create_write_read",
    "C22_append",
    "C22_read"
   ],
   "note": "Consistent disks are those reached by a history of calls from a formatted disk or from an existing image in order (sound_image)."
  },
  {
   "property": "C23",
   "status": "proved",
   "theorems": [
    "C23_other_files"
   ],
   "note": "Consistent disks are those reached by a history of calls from a formatted disk or from an existing image in order (sound_image)."
  },
  {
   "property": "C24",
   "status": "proved",
   "theorems": [
    "C24_table_of_files",
    "C24_existing_image"
   ],
   "note": ""
  },
  {
   "property": "C25",
   "status": "proved",
   "theorems": [
    "C25_blocks_conserved",
    "C25_total"
   ],
   "note": ""
  },
  {
   "property": "C26",
   "status": "proved",
   "theorems": [
    "C26_write",
    "C27_create"
   ],
   "note": "C27_create gives the exact condition for DiskFull on creation."
  },
  {
   "property": "C27",
   "status": "proved",
   "theorems": [
    "C27_create",
    "C27_capacity",
    "C27_reuse",
    "C27_total"
   ],
   "note": ""
  },
  {
   "property": "C28",
   "status": "proved",
   "theorems": [
    "C28_delete"
   ],
   "note": ""
  },
  {
   "property": "C31",
   "status": "proved",
   "theorems": [
    "C31_validates"
   ],
   "note": ""
  },
  {
   "property": "C33",
   "status": "proved",
   "theorems": [
    "C33_reopen"
   ],
   "note": ""
  },
  {
   "property": "C47",
   "status": "proved",
   "theorems": [
    "C47_crash"
   ],
   "note": "A crash point is any prefix of the sequence of sector writes."
  },
  {
   "property": "C50",
   "status": "proved",
   "theorems": [
    "C50_follow",
    "C50_dropped",
    "C50_reinitialise",
    "C50_reformat",
    "C50_refused"
   ],
   "note": ""
  },
  {
   "property": "C04",
   "status": "proved",
   "theorems": [
    "C04_read_only"
   ],
   "note": "Every method of the Disk trait, the file and writer operations, with any handles and arguments."
  },
  {
   "property": "C29",
   "status": "proved",
   "theorems": [
    "C29_rename"
   ],
   "note": ""
  },
  {
   "property": "C32",
   "status": "proved",
   "theorems": [
    "C32_report",
    "C32_file_sectors",
    "C32_clean",
    "C32_outcome"
   ],
   "note": ""
  },
  {
   "property": "C35",
   "status": "proved",
   "theorems": [
    "C35_records"
   ],
   "note": "A data sector named outside the disk makes the records on it fail with InvalidLocation."
  },
  {
   "property": "C30",
   "status": "partial",
   "theorems": [
    "C30_unique_names_partial",
    "C30_unique_names_refuted"
   ],
   "note": "REFUTED for names ending in the padding byte 0xA0: two files of the same name can be created. Proved for all other names."
  },
  {
   "property": "C21",
   "status": "partial",
   "theorems": [
    "C21_format_failure_refuted",
    "C21_data_loss_refuted",
    "C21_format_failure_partial"
   ],
   "note": "REFUTED: formatting with a name longer than 16 bytes fails after erasing every sector (proved for every writable image). Proved: with a name of at most 16 bytes it fails only on a read-only image and changes nothing."
  },
  {
   "property": "C34",
   "status": "partial",
   "theorems": [
    "C34_created_refuted",
    "C34_reopen_partial"
   ],
   "note": "REFUTED: a file created but not yet written uses a sector whose allocation is not on the image. Proved: after any history, reopening shows the same directory, name and file contents."
  },
  {
   "property": "C36",
   "status": "partial",
   "theorems": [
    "C36_relative_refuted",
    "C36_geos_refuted",
    "C36_side_sectors_refuted",
    "C36_info_block_refuted",
    "C36_saved_partial",
    "C36_delete_partial"
   ],
   "note": "REFUTED for every relative file and every GEOS file without VLIR records on an image in order: side sectors and info block stay allocated on the image. Proved: which sectors are free on the image after the call (C36_saved_partial); in memory all of them are (C28_delete), and a later flush saves that map (C33_reopen)."
  },
  {
   "property": "C37",
   "status": "partial",
   "theorems": [
    "C37_open_refuted",
    "C37_open_partial"
   ],
   "note": "REFUTED: record length 0 or a short side sector makes opening panic. Proved: those are the only causes."
  },
  {
   "property": "C38",
   "status": "partial",
   "theorems": [
    "C38_convert_refuted",
    "C38_convert_partial"
   ],
   "note": "REFUTED: reads that do not drain the internal buffer repeat bytes. Proved: a read with a buffer larger than the stream returns exactly the specified stream; the result of every sequence of reads is characterised."
  },
  {
   "property": "C39",
   "status": "partial",
   "theorems": [
    "C39_record_numbers_refuted",
    "C39_record_numbers_partial"
   ],
   "note": "REFUTED: record numbers are off by one. Proved: record i+1 is the record in slot i."
  },
  {
   "property": "C40",
   "status": "partial",
   "theorems": [
    "C40_info_refuted"
   ],
   "note": "REFUTED for every info block: writing it panics."
  },
  {
   "property": "C42",
   "status": "partial",
   "theorems": [
    "C42_create_refuted",
    "C42_delete_refuted",
    "C42_failure_partial"
   ],
   "note": "REFUTED: failed creation and deletion on a read-only image change the in-memory map. Proved: nothing else is changed by a failed call, and calls other than these change nothing."
  },
  {
   "property": "C45",
   "status": "partial",
   "theorems": [
    "C45_directory_refuted",
    "C45_directory_partial"
   ],
   "note": "REFUTED: a directory whose last sector is partial makes creation panic. Proved: with whole directory sectors neither the slot search nor creation panics."
  },
  {
   "property": "C46",
   "status": "partial",
   "theorems": [
    "C46_delete_refuted",
    "C46_delete_partial",
    "C46_linear_partial"
   ],
   "note": "REFUTED: a file on a track the map does not describe (36-40 of a D64) makes deletion panic. Proved: without such sectors deletion never panics."
  },
  {
   "property": "C53",
   "status": "proved",
   "theorems": [
    "C53_any_map",
    "C53_map_of_image"
   ],
   "note": ""
  },
  {
   "property": "C54",
   "status": "proved",
   "theorems": [
    "C54_left_in_order",
    "C54_validated",
    "C54_in_order_validates"
   ],
   "note": "The hypothesis plain_image lists what validate() does not check."
  },
  {
   "property": "C55",
   "status": "proved",
   "theorems": [
    "C55_existing",
    "C55_formatted",
    "C55_further",
    "C55_write_read"
   ],
   "note": "Outside the table (no claim): names and types that cannot be stored, labels of more than 16 bytes (C21), and the creation of finding 7 that leaves one more directory sector."
  },
  {
   "property": "C56",
   "status": "partial",
   "theorems": [
    "C56_append_refuted",
    "C56_program_refuted"
   ],
   "note": "REFUTED: for every image, file and source the command leaves the image as it was and fails (the image is opened read-only)."
  },
  {
   "property": "C57",
   "status": "partial",
   "theorems": [
    "C57_bam_edit_partial",
    "C57_all_tracks_refuted",
    "C57_missing_sector_refuted",
    "C57_missing_track_refuted"
   ],
   "note": "REFUTED: 'all' covers the first 35 tracks only, a sector that does not exist can be freed, and a track outside the map makes the command panic. Proved: for sectors that exist, and 'all' of a D64, exactly the chosen sectors change."
  },
  {
   "property": "C58",
   "status": "proved",
   "theorems": [
    "C58_create",
    "C58_extension",
    "C58_history"
   ],
   "note": ""
  },
  {
   "property": "C59",
   "status": "proved",
   "theorems": [
    "C59_read"
   ],
   "note": ""
  },
  {
   "property": "C60",
   "status": "partial",
   "theorems": [
    "C60_geosread_partial",
    "C60_geosread_refuted",
    "C60_plain_refuted"
   ],
   "note": "REFUTED: streams at least as long as the buffer are copied with repeated bytes, or the command never ends; files that are not GEOS files make it panic. Proved: exact for streams shorter than the buffer."
  },
  {
   "property": "C61",
   "status": "proved",
   "theorems": [
    "C61_layout",
    "C61_faithful",
    "C61_outcome"
   ],
   "note": ""
  },
  {
   "property": "C62",
   "status": "proved",
   "theorems": [
    "C62_map",
    "C62_unformatted"
   ],
   "note": ""
  },
  {
   "property": "C63",
   "status": "proved",
   "theorems": [
    "C63_image",
    "C63_file",
    "C63_layout",
    "C63_file_layout"
   ],
   "note": ""
  },
  {
   "property": "C66",
   "status": "proved",
   "theorems": [
    "C66_layout",
    "C66_faithful"
   ],
   "note": ""
  },
  {
   "property": "C67",
   "status": "proved",
   "theorems": [
    "C67_report",
    "C67_message",
    "C67_text"
   ],
   "note": "The texts of the disk errors themselves are the table of the model."
  },
  {
   "property": "C64",
   "status": "proved",
   "theorems": [
    "C64_round_trip",
    "C64_equal",
    "C64_foreign",
    "C64_text",
    "C64_not_found"
   ],
   "note": ""
  },
  {
   "property": "C65",
   "status": "partial",
   "theorems": [
    "C65_track",
    "C65_sector",
    "C65_plain",
    "C65_type",
    "C65_type_names",
    "C65_reach_refuted"
   ],
   "note": "Parsing is proved exactly. REFUTED: the last part; sectors of D71 and D81 outside tracks 1-40 and sectors 0-20 cannot be named."
  },
  {
   "property": "C68",
   "status": "partial",
   "theorems": [
    "C68_unformatted",
    "C68_detected_refuted"
   ],
   "note": "Proved for D71 images without the flag. REFUTED for D64 and D81: no image is ever refused as unformatted."
  },
  {
   "property": "C69",
   "status": "proved",
   "theorems": [
    "C69_calls",
    "C69_layout",
    "C69_size",
    "C69_other_files",
    "C69_looking"
   ],
   "note": ""
  },
  {
   "property": "C70",
   "status": "proved",
   "theorems": [
    "C70_runs",
    "C70_format",
    "C70_copy",
    "C70_from_nothing"
   ],
   "note": ""
  },
  {
   "property": "C71",
   "status": "proved",
   "theorems": [
    "C71_opening",
    "C71_missing",
    "C71_wrong_size",
    "C71_existing"
   ],
   "note": ""
  },
  {
   "property": "C72",
   "status": "partial",
   "theorems": [
    "C72_status_refuted",
    "C72_message"
   ],
   "note": "REFUTED: main prints the error and returns normally, so the status is 0. The error line is printed exactly on failure."
  },
  {
   "property": "C73",
   "status": "partial",
   "theorems": [
    "C73_new",
    "C73_existing",
    "C73_overwrite_refuted"
   ],
   "note": "Proved with create_new. REFUTED without it."
  },
  {
   "property": "C74",
   "status": "proved",
   "theorems": [
    "C74_records_kept",
    "C74_handle_kept",
    "C74_crash"
   ],
   "note": "Formatting the disk, and renaming or deleting the file itself, are the calls excluded."
  },
  {
   "property": "C75",
   "status": "partial",
   "theorems": [
    "C75_others_kept_partial",
    "C75_loss_refuted"
   ],
   "note": "REFUTED for relative files whose entry names a sector outside the list of their side sectors, on an image that validates clean. Proved for all other files in all histories."
  },
  {
   "property": "C76",
   "status": "proved",
   "theorems": [
    "C76_listed_last",
    "C76_border_kept"
   ],
   "note": "Images in order are those of sound_image; a GEOS disk among them is geos_disk (C76_example)."
  },
  {
   "property": "C77",
   "status": "proved",
   "theorems": [
    "C77_label",
    "C77_image",
    "C77_too_long"
   ],
   "note": "The GEOS part of the header is not written by the library."
  },
  {
   "property": "C78",
   "status": "proved",
   "theorems": [
    "C78_reader",
    "C78_stream",
    "C78_convert"
   ],
   "note": "Formatting the disk and opening the image again are not among the calls in between. Relative and VLIR files have no reader but the Convert stream."
  },
  {
   "property": "C79",
   "status": "proved",
   "theorems": [
    "C79_ends",
    "C79_lists",
    "C79_undisturbed"
   ],
   "note": "In C79_undisturbed formatting the disk and opening the image again are not among the calls in between."
  },
  {
   "property": "C80",
   "status": "proved",
   "theorems": [
    "C80_growing",
    "C80_ends"
   ],
   "note": "Plain files in C80_growing; formatting the disk and opening the image again are not among the calls in between."
  },
  {
   "property": "C81",
   "status": "proved",
   "theorems": [
    "C81_writer"
   ],
   "note": "Formatting the disk and opening the image again are not among the calls in between. One writer per file, see C82."
  },
  {
   "property": "C82",
   "status": "partial",
   "theorems": [
    "C82_two_writers_refuted"
   ],
   "note": "REFUTED: all calls succeed and the bytes of the first writer are missing. With one writer per file the claim is C81."
  },
  {
   "property": "C83",
   "status": "partial",
   "theorems": [
    "C83_handle_refuted",
    "C83_writer_refuted",
    "C83_again_partial"
   ],
   "note": "REFUTED: a deleted file's handle deletes the file that took its directory slot, and its open writer writes into that file. Proved: deleting again right away, any number of times, makes no difference to later calls."
  },
  {
   "property": "C84",
   "status": "partial",
   "theorems": [
    "C84_successful_calls_refuted"
   ],
   "note": "REFUTED: two writers on one file, all calls succeed, and a sector stays allocated that no file occupies. With one writer per file and no use of handles of deleted files it is C31."
  },
  {
   "property": "C85",
   "status": "proved",
   "theorems": [
    "C85_info",
    "C85_verbose"
   ],
   "note": ""
  },
  {
   "property": "C86",
   "status": "proved",
   "theorems": [
    "C86_details",
    "C86_succeeds"
   ],
   "note": "The details are those of the file that is found under the name of the entry, as in the program."
  },
  {
   "property": "C87",
   "status": "proved",
   "theorems": [
    "C87_dump",
    "C87_dump_file",
    "C87_map",
    "C87_short",
    "C87_list",
    "C87_listing_ends",
    "C87_details",
    "C87_validate",
    "C87_bam_edit"
   ],
   "note": "bam with the track 'all' is stated for D64 only (C57); a sector outside the map is excluded (C57)."
  },
  {
   "property": "C88",
   "status": "partial",
   "theorems": [
    "C88_read",
    "C88_broken",
    "C88_records",
    "C88_geosread_partial",
    "C88_geosread_refuted",
    "C88_plain_refuted"
   ],
   "note": "REFUTED for geosread: it does not end if a block of the stream is as long as the buffer, and panics on files that are not GEOS files; it is right if the buffer is larger than the stream. Everything else is proved. A destination that is the image file itself is not modelled."
  },
  {
   "property": "C89",
   "status": "proved",
   "theorems": [
    "C89_opens",
    "C89_not_an_image",
    "C89_usage",
    "C89_existing",
    "C89_source",
    "C89_missing",
    "C89_rename_missing",
    "C89_rename_taken",
    "C89_write_taken"
   ],
   "note": ""
  }
 ]
}