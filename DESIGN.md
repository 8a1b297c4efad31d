# Formal model of simmons/cbm in Rocq: design

## Trusted base

* The Coq 8.16.1 kernel, including its virtual machine (used by `vm_compute` on
  closed terms; `coqchk` re-checks them without it).
* The hand translation from Rust to Gallina. Every definition in the model files
  cites the file and lines in /repo that it models, and says where it simplifies.
* Axioms: none. `Print Assumptions` stands beneath every property theorem in
  `theories/Properties*.v`, and prints "Closed under the global context" for each
  of them. (`coqchk` over the whole library context lists
  `Coq.ssr.ssrunder.Under_rel.*`: those are abstract module fields of the standard
  library's ssreflect plugin files, loaded by std++; no theorem uses them.)
* Libraries: the Coq standard library and std++ (lists, decidability).

## Files

Model (definitions only; each cites the code):

| file in /repo/src | model | remarks |
|---|---|---|
| disk/image.rs | Image.v | a flat byte list; a memory map is a byte list, `flush` only checks writability |
| disk/block.rs | Image.v, Block.v | the flat device, and the device with one list per sector used above it (FlatProofs.v and ErrorTable.v prove that they agree); a ghost log of sector writes for crash reasoning |
| disk/d64.rs d71.rs d81.rs, Geometry in disk/mod.rs | Layout.v | all tables verbatim |
| disk/bam.rs | Bam.v | all of it except Debug |
| disk/format.rs | Format.v | all |
| disk/chain.rs | Chain.v, Writer.v | all; where nothing can come in between, a walk is the list of items it delivers |
| disk/directory.rs | DirEntry.v, Directory.v, DirIter.v | all except text rendering; the iterator both as the list it delivers and step by step (C79_lists: they agree) |
| disk/header.rs | Header.v | all |
| disk/mod.rs and the three `impl Disk` | World.v, Directory.v, File.v | all trait methods except Display and hex dumps |
| disk/file.rs | File.v, Rel.v | linear and relative files, except `details` text |
| disk/geos/*.rs | GeosTypes.v, GeosFile.v | codecs, VLIR index, Convert reader, delete |
| disk/validation.rs | Validate.v | all |
| petscii.rs sprite.rs util/mod.rs | Petscii.v Sprite.v Hexdump.v | all |
| bin/cdisk.rs | Cdisk.v | the commands' effects on the image and their data path |
| bin/cdisk.rs: main, argument validators, exit status | Main.v | clap is modelled by what it guarantees; stdin, buffer sizes and how reads cut a file are parameters |
| disk/image.rs: open and create by path, disk/mod.rs: open | Host.v | the host's files are a map from paths to bytes; no directories, links, permissions or failures of the system |
| disk/error.rs: conversions | Errors.v | all |
| Display, `details`, `dump` of all modules, disk/error.rs (messages), output of bin/cdisk.rs | Text.v | the text printed, as lists of Unicode scalar values |

Session.v packs the calls of a client (create, open, write, flush, close, read,
delete, rename, list, format, reopen, ...) into one type of calls with answers.

Specifications (small, independent of the model's helpers): Spec.v SpecCodec.v
SpecText.v SpecChain.v SpecBam.v SpecValidate.v SpecFiles.v SpecDisk.v
SpecHandle.v SpecKinds.v SpecGeos.v SpecTool.v SpecOutput.v SpecDetails.v SpecHost.v SpecProgram.v
SpecLabel.v SpecTurns.v.

Proofs: the remaining files. Property theorems: PropertiesDisk.v
PropertiesCodec.v PropertiesChain.v PropertiesBam.v PropertiesFiles.v
PropertiesImages.v PropertiesFindings.v PropertiesTool.v PropertiesText.v
PropertiesHost.v PropertiesRecords.v PropertiesBorder.v PropertiesLabel.v
PropertiesTurns.v PropertiesOverlap.v PropertiesDetails.v
PropertiesProgram.v, each followed by `Print Assumptions` and an `Example` that meets its hypotheses.

Not modelled: how memory mapping works (a mapping is the bytes of the file) and
failures of the operating system, derived `Debug` implementations, clap itself,
a command that names the image as its own source or destination (`Unmodelled` in
Main.v), `RefCell` borrow panics (no two overlapping borrows occur in the modelled code, by reading),
`u32`/`usize` overflow.

## Modelling conventions

* A function returning `io::Result<T>` returns `res T` = `Ok`, `Err e`, `Panic`
  (index out of range, failed assertion, arithmetic overflow, unwrap) or
  `NoFuel` (the fuel of a loop ran out: the theorems show it does not happen,
  or, for a loop that does not terminate, that it happens for every fuel).
* A method with `&mut self` is a state transformer; the state reached before an
  error is kept, as in Rust.
* Bytes, tracks, sectors and lengths are `nat`; bitmaps are `N`. Overflow of
  `u8`/`u16` arithmetic is explicit. Where a theorem needs the fact that a Rust
  `u8` is below 256 it says so (`is_byte`, `holds_bytes`).
* The shared `Rc<RefCell<_>>` cells (device, BAM) are components of one world
  record passed through all functions; a handle keeps the index of its BAM cell.
* A crash leaves the image after any prefix of the sequence of sector writes
  (the ghost log of the device).

## Properties, modelling and proof method

* C01, C02, C03, C44: layout tables as data; table facts by computation over
  the complete finite table, lifted to all track/sector pairs; disjointness by
  linear arithmetic; store laws by list lemmas on the flat image; refinement to
  the sector-list device used above.
* C04, C42: every call preserves the image when `writable = false`: one lemma
  per operation in an invariant style over the state monad.
* C05, C06, C07, C41: chain walk with fuel; termination by pigeonhole on visited
  sectors; reader invariant (delivered ++ remaining = contents).
* C08, C09, C10, C51: bit-level lemmas on `N.testbit`; induction over sections and
  tracks with an explicit byte layout.
* C11, C12, C13, C52, C53: the track search as a step function; proof that the search
  equals "first available track on a path"; path coverage checked by
  computation for all tracks of the three formats; sector search by an
  invariant over the scan loop.
* C14..C19, C48: codecs, by case analysis and list lemmas; finite parts by
  computation over all byte values.
* C20, C21: symbolic execution of the format routine over arbitrary contents.
* C22..C31, C33, C34, C54: a representation invariant (`view`, `wok`, `related`)
  linking the world with a table of files (`astate`, `astep` in SpecDisk.v); one
  preservation lemma per operation; induction over histories. A history starts
  with formatting any writable image, or with opening an existing image in order
  (`sound_image`). `sound_image` is shown to be what validate() accepts plus what
  it does not look at (C54). The table of an existing image may hold relative and
  GEOS files: each has a kind (its records, or its data) that tells what its
  handles answer (SpecKinds.v), and is opened, read, renamed, listed and deleted
  within the protocol (OpDelete.v). After such a deletion the table is marked as
  not saved, because side sectors and info blocks are freed in memory only
  (finding 9). A relative file whose data chain is not the list in its side
  sectors may not be deleted: that frees sectors of other files (C75). On a
  GEOS disk the first eight slots of the table are those of the border sector
  (`as_border`): no file is created in them, they are listed last, and the sector
  counts as a data block unless it lies on the directory track. Formatting makes
  a disk that is not a GEOS disk.
* C74: from the table of files: no call of the protocol but a rename or a delete of the file changes the
  slot of such a file; the reading functions depend on its sectors only
  (SpecialFiles.v).
* C75: from C28 and C31; false for relative files that are not linked as their
  side sectors say.
* C76: from the table of files, slot by slot (GeosDisk.v).
* C77: the invariant behind the table of files does not depend on the header but
  for its GEOS part; the map reads the same from the bytes outside the header
  (Relabel.v).
* C78: what a reader has still to deliver is a suffix of the file's contents; calls
  on other files change neither its sectors nor their links (TurnsRead.v); the
  readers of a GEOS file look at no sectors but its own (TurnsGeos.v).
* C79: for any image, a bound on the sectors still to be loaded; in histories, an
  invariant that counts how often a file is still to be listed (TurnsList.v,
  TurnsTable.v).
* C80: calls that do not delete a file only extend its sectors and its data
  (step_grows in Refine.v), so what a reader holds stays a piece of the file; on any
  image, a bound on the sectors still to be read (TurnsGrow.v).
* C81: the refinement of histories by the table of files; a call that is not about a
  file leaves its entry in the table and its writer alone (Overlap.v).
* C82, C83: false; concrete histories (DemoOverlap.v, PropertiesOverlap.v). Deleting
  again at once: the chain is still there and its sectors are free already (Overlap.v).
* C84: false; a concrete history with two writers on a file (DemoOverlap.v).
* C32: specification of the defect sets, set reasoning over arbitrary images.
* C35: arithmetic of record positions over the tiling of the stream.
* C36..C40, C45, C46: false as stated; a `_refuted` theorem, and the strongest
  true variant.
* C43, C49: exhaustive cell analysis and injectivity by list induction.
* C47: induction over prefixes of the write log.
* C50: the cell index of the BAM.
* C55, C58, C59: every command of cdisk as a function from the image to the image
  and a reply; one simulation lemma per command against the table of files
  (`tstep` in SpecTool.v), by way of the histories of C24; induction over the
  sequence of commands.
* C85, C86 and the layouts of C49, C63 and C67: a description of each printed line by what can be read
  back from it (SpecDetails.v); each printing function is shown to print such lines
  whenever it succeeds, composed over the files (DetailsProofs.v).
* C87: the file of the host and the opened device determine each other (HostProofs.v), so
  the theorems about devices hold of the runs of the program (ProgramProofs.v).
* C88: likewise for the copies of read and geosread (CopyOut.v); what it is to copy out is
  in SpecProgram.v. The claim about geosread is false for streams as long as the buffer (C60).
* C89: case analysis over the commands, with C03 for the sizes of images (Refused.v).
* C61, C62, C63, C66, C67: the printed text as a function of the image; layout by
  evaluation of the printing functions line by line, faithfulness by injectivity
  of each field between its delimiters.
* C64, C65: case analysis; numerals by induction over the digits.
* C68: the header is the only thing that is checked on opening.
* C69: an invariant of all calls (Keeps.v), one lemma per command (CmdKeeps.v).
* C70: the image file is the flat form of the device of C55; one lemma for a
  run, induction over runs.
* C71, C72, C73: case analysis of opening and creating.
* C56, C57, C60: false as stated; a `_refuted` theorem for all images, and the
  strongest true variant.

## Findings

Each is a behaviour of the code at the pinned commit. Those marked with a theorem are
proved in PropertiesFindings.v (or the file named).

1. `GEOSReader::read` does not drain its buffer when the output fills up: bytes
   are repeated (C38_convert_refuted).
2. VLIR records are numbered off by one: record `i` is the one in slot `i - 1`
   (C39_record_numbers_refuted).
3. `GEOSInfo::to_bytes` panics for every info block (C40_info_refuted).
4. `RelativeExtra::to_bytes` does not write the record length
   (C15_entry_write_read_refuted). Creating a REL file makes one that cannot be
   opened.
5. Names ending in the padding byte 0xA0 are cut when read back: two files of the
   same name can be created (C30_unique_names_refuted, C17_padded_names_refuted).
6. Opening a writer on a cyclic chain never ends (C41_open_writer_refuted).
7. `create_file` does not write the BAM: a created file that is never flushed uses
   a sector that is free on the image (C34_created_refuted). A creation that fails
   for lack of space may leave one more directory sector.
8. Failed creation and deletion on a read-only image change the map in memory
   (C42_create_refuted, C42_delete_refuted).
9. Deleting writes the BAM before the entry is marked, and frees side sectors of
   relative files and the info sector of sequential GEOS files only in memory
   (C36_relative_refuted, C36_geos_refuted).
10. `write_format` with a name of more than 16 bytes erases the image and then
    fails (C21_data_loss_refuted).
11. BAM lookups panic for tracks the map does not describe, such as 36 to 40 of a
    40-track D64 (C46_delete_refuted).
12. A directory whose last sector is partial makes `create_file` panic
    (C45_directory_refuted).
13. A relative file with record length 0, or with a short side sector, makes
    opening panic (C37_open_refuted).
14. `validate` looks at the bitmaps only: wrong free counts, wrong block counts in
    the directory, duplicate names and files on the directory track are not
    reported (the hypothesis `plain_image` of C54_validated lists them).
15. An all-zero image of a D64 or D81, in fact every image of the right size, is
    taken for a formatted one (C68_detected_refuted).
16. `rename(x, x)` fails with FileExists.
17. A chain reader that meets an error drops the bytes it had read before it in
    the same call (C06_reading_any).
18. A write that fails with DiskFull has stored the longest prefix that fits
    (C26_write).
19. Flushing a writer that has nothing to write does not write the BAM.
20. A flush on a BAM that was dropped by re-reading the image writes the block
    first, and then fails with InvalidBAM (C50_refused).
21. If a writer is left open while its file is deleted, closing it writes to
    freed sectors; such calls are outside the protocol of SpecDisk.v.
22. `cdisk append` opens the image read-only, so it always fails
    (C56_append_refuted).
23. `cdisk bam allocate all` / `free all` stop at track 35 on D71 and D81 images
    (C57_all_tracks_refuted).
24. `cdisk bam free` accepts sectors that the track does not have; the map then
    counts a block that does not exist (C57_missing_sector_refuted). A track
    outside the map, such as 36 to 40 of a 40-track D64, makes it panic
    (C57_missing_track_refuted).
25. `cdisk geosread` panics (`unreachable!`) on files that are not GEOS files
    (C60_plain_refuted), repeats bytes when the Convert stream is as long as the
    copy buffer (8 KiB in std), and never ends when one block of the stream is
    (C60_geosread_refuted).
26. `cdisk` prints errors and exits with status 0 (C72_status_refuted).
27. `create` of the three disk types without `create_new` does not create: a
    missing file is refused, and the contents of an existing file are kept
    (C73_overwrite_refuted).
28. `cdisk bam` accepts tracks 1 to 40 and sectors 0 to 20 for all types of disk
    (C65_reach_refuted).
29. `cdisk read` with the image as destination cuts the image to length zero while
    it is mapped (`Unmodelled` in Main.v).
30. `cdisk dir -vv` shows one VLIR record too many.
31. Deleting a relative file frees the chain that starts at its directory entry,
    while reading and validating it go by its side sectors. When the two differ,
    on an image that validates clean, sectors of other files are freed and later
    overwritten (C75_loss_refuted).
32. Two writers that are open on the same file overwrite each other: all calls
    succeed, and what the first wrote is lost (C82_two_writers_refuted in
    PropertiesOverlap.v). With more to write, a sector stays allocated that no file
    occupies (C84_successful_calls_refuted).
33. A handle keeps the place of its directory entry. After its file is deleted,
    deleting through the handle removes the file that has taken the place
    (C83_handle_refuted), and a writer that is still open writes into it
    (C83_writer_refuted).

## Tests against wrong programs

`seeded/LOG.jsonl` records the edits of the model that were tried (in a scratch
copy), the claim each breaks, and the theorems that then fail.
