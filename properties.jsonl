{"id": "C01", "title": "Sector addressing is exact", "statement": "For every supported image layout, each valid (track, sector) pair names its own 256-byte range: the ranges of two different pairs never overlap, all ranges together cover every byte of the image before the error table, none reaches into the error table or past the end, and every pair outside the layout is refused with InvalidLocation.", "quantifier": "all eight geometries, all track/sector byte pairs, all byte offsets of the image", "why_tests_cant": "Tests touch a few sectors; disjointness and coverage is a claim about every pair of sectors and every byte.", "anchors": ["src/disk/block.rs: ImageBlockDevice::get_offset, sector, sector_mut", "src/disk/d64.rs, d71.rs, d81.rs: TRACKS, GEOMETRY_*", "src/disk/mod.rs: Geometry::size, error_table_offset", "src/disk/image.rs: Image::slice"]}
{"id": "C02", "title": "Raw sector store law", "statement": "write_sector(l, data) followed by read_sector(l) returns data; every other sector and the error table are unchanged; data that is not exactly 256 bytes long, an invalid location, or a read-only image is refused with an error and then no byte of the image changes. Likewise changing the error table changes that table only, is refused on a read-only image and does nothing on an image without one; flushing works exactly on a writable image.", "quantifier": "all images of the right size, all locations, all data buffers, writable or not", "why_tests_cant": "Frame conditions quantify over all other sectors and all contents.", "anchors": ["src/disk/mod.rs: Disk::read_sector, Disk::write_sector", "src/disk/block.rs: sector, sector_mut", "src/disk/image.rs: slice_mut", "src/disk/block.rs: error_table_mut, flush"]}
{"id": "C03", "title": "Image size selects one layout", "statement": "At most one layout (over all disk types) has a given byte size, so opening an image by size is unambiguous: an image opens as D64, D71 or D81 exactly when its length is one of that type's sizes, and any other length is refused with InvalidLayout.", "quantifier": "all image lengths", "why_tests_cant": "Tests open a few sizes; the claim covers every length.", "anchors": ["src/disk/mod.rs: open, Geometry::find_by_size, Geometry::size", "src/disk/d64.rs, d71.rs, d81.rs: ALLOWED_GEOMETRIES, new"]}
{"id": "C04", "title": "A read-only image never changes", "statement": "On a read-only image no API call (format, create, rename, delete, open a writer, write, flush, write_sector, BAM flush), and no sequence of such calls, changes any byte of the image.", "quantifier": "all images, all finite sequences of API calls with all arguments", "why_tests_cant": "Quantifies over all call histories.", "anchors": ["src/disk/image.rs: Image::check_writability, slice_mut", "src/disk/block.rs: sector_mut", "src/disk/mod.rs: Disk", "src/disk/chain.rs: ChainWriter, remove_chain"]}
{"id": "C05", "title": "Chain traversal terminates, never repeats a sector, reports loops", "statement": "Following a sector chain from any location of any image ends after at most as many steps as the disk has sectors; the sectors delivered are pairwise distinct and valid; a chain that comes back to a sector already delivered ends in a ChainLoop error; a link byte pair (0,0) ends in InvalidChainLink; leaving the disk ends in InvalidLocation.", "quantifier": "all images (including corrupt ones), all starting locations", "why_tests_cant": "Termination on every corrupt image cannot be sampled.", "anchors": ["src/disk/chain.rs: ChainIterator::next, ChainIterator::locations, ChainLink::new"]}
{"id": "C06", "title": "Reading a file does not depend on buffer sizes", "statement": "For any file whose chain is sound, reading it with any sequence of buffer sizes delivers consecutive pieces whose concatenation is the file's contents (254 bytes of each full sector, then the used part of the last), each read fills the buffer unless the end is reached, and after the end every read returns 0.", "quantifier": "all images, all sound chains, all finite sequences of buffer sizes", "why_tests_cant": "All partitions of the stream into buffers, for all contents.", "anchors": ["src/disk/chain.rs: ChainReader::read", "src/disk/file.rs: LinearFile::reader, record"]}
{"id": "C07", "title": "Chain link encoding round trips", "statement": "Encoding a chain link and decoding it gives the link back for every next-sector link with a non-zero track and every tail size from 2 to 256; decoding never fails except for the byte pair (0,0), and encoding a decoded link reproduces the two bytes.", "quantifier": "all links, all byte pairs", "why_tests_cant": "Full domain of a codec.", "anchors": ["src/disk/chain.rs: ChainLink::new, ChainLink::to_bytes"]}
{"id": "C08", "title": "BAM entries: one bit per sector, count equals bits", "statement": "Allocating a sector in a BAM entry clears exactly that sector's bit, freeing sets exactly that bit, no other sector's state changes, and afterwards the free count equals the number of free sectors in the bitmap. Both are idempotent, and freeing undoes allocating a free sector.", "quantifier": "all 64-bit bitmaps, all sector numbers below 64, all operation sequences", "why_tests_cant": "All 2^64 bitmaps.", "anchors": ["src/disk/bam.rs: BamEntry::allocate, free, update_free_sectors, new"]}
{"id": "C09", "title": "BAM bitmap bytes round trip", "statement": "Reading a bitmap of n bytes (n up to 8) and writing it back reproduces the bytes; writing an entry whose bitmap fits in n bytes and reading it back reproduces the entry; sector s of the track is bit s mod 8 of byte s/8.", "quantifier": "all byte strings of length up to 8, all bitmaps", "why_tests_cant": "Full domain of a codec.", "anchors": ["src/disk/bam.rs: BamEntry::from_bytes, BamEntry::write_bitmap"]}
{"id": "C10", "title": "BAM flush and reload agree and touch only BAM bytes", "statement": "After flushing the BAM of a disk and reading it again the same allocation map is obtained, for each disk type; every image byte outside the format's BAM fields, including the disk name, ids and the directory, is unchanged.", "quantifier": "all three disk types, all writable images, all allocation maps whose bitmaps fit the format", "why_tests_cant": "All maps and all image contents.", "anchors": ["src/disk/bam.rs: BamWriter::write, Bam::read, Bam::flush", "src/disk/d64.rs, d71.rs, d81.rs: BAM_FORMAT"]}
{"id": "C11", "title": "Allocation for new data returns a free data sector, and DiskFull means full", "statement": "Asking for a free block for a new file or for extending a file returns a sector that is on the disk, marked free, and not on the directory track; when the free counts agree with the bitmaps it answers DiskFull exactly when no sector outside the directory track is free. The request never changes the BAM, never panics and never overflows.", "quantifier": "all three disk types, all BAM states with counts agreeing with bitmaps", "why_tests_cant": "All BAM states.", "anchors": ["src/disk/format.rs: first_free_track, first_free_block, next_free_block", "src/disk/bam.rs: Bam::next_free_block"]}
{"id": "C12", "title": "Allocation on GEOS disks is sound and complete", "statement": "On GEOS-formatted disks the same request returns a free sector outside the directory and reserved tracks and answers DiskFull exactly when there is none.", "quantifier": "all three disk types with the GEOS flag set, all BAM states with counts agreeing with bitmaps", "why_tests_cant": "All BAM states and a different search order.", "anchors": ["src/disk/format.rs: next_free_track_geos, next_free_block_from_previous"]}
{"id": "C13", "title": "Allocation after a given sector is sound, complete and terminates", "statement": "Asking for the next free block after any valid sector returns a free sector: on the directory track if and only if the given sector is there; otherwise never on the directory or reserved track unless the given sector already was; DiskFull is answered exactly when the area searched (the directory track, or all data tracks) has no free sector. The search terminates without arithmetic overflow for CBM and GEOS modes.", "quantifier": "all three disk types, CBM and GEOS, all valid previous sectors, all BAM states with counts agreeing with bitmaps", "why_tests_cant": "All previous sectors times all BAM states.", "anchors": ["src/disk/format.rs: next_free_track_cbm, next_free_track_geos, next_free_block_from_previous"]}
{"id": "C14", "title": "Rewriting an unchanged directory entry changes nothing", "statement": "Parsing any 32-byte directory slot and writing the parsed entry back into the same slot reproduces all 32 bytes, whatever the file type, flags, padding or extra bytes (linear, relative, GEOS).", "quantifier": "all 2^256 slot contents", "why_tests_cant": "Full domain of a codec.", "anchors": ["src/disk/directory.rs: DirectoryEntry::parse, to_bytes, Extra, FileAttributes"]}
{"id": "C15", "title": "Directory entries survive being written and re-read", "statement": "Writing any well-formed entry into a slot and parsing the slot again yields the same attributes, first sector, file name, extra data and size.", "quantifier": "all well-formed entries, all previous slot contents", "why_tests_cant": "Full domain; fails for relative files written over a slot with a different record length.", "anchors": ["src/disk/directory.rs: DirectoryEntry::to_bytes, RelativeExtra::to_bytes, parse"]}
{"id": "C16", "title": "File attribute byte is lossless", "statement": "Decoding an attribute byte and encoding it gives the same byte for all 256 values; the entry counts as scratched exactly when the type nibble is 0 and the closed bit is clear.", "quantifier": "all 256 bytes", "why_tests_cant": "Exhaustive claim.", "anchors": ["src/disk/directory.rs: FileAttributes::from_byte, to_byte, is_scratched"]}
{"id": "C17", "title": "Padded names round trip", "statement": "A name of at most n bytes written into an n-byte field and read back is the same name; a longer name is refused without writing. The field's bytes are reproduced when a name read from it is written back.", "quantifier": "all names, all field contents, all field sizes; false for names that end in the padding byte 0xA0", "why_tests_cant": "All names.", "anchors": ["src/petscii.rs: Petscii::from_padded_bytes, write_bytes_with_padding"]}
{"id": "C18", "title": "PETSCII/Unicode conversion is stable", "statement": "Every text that was produced by displaying a PETSCII string converts back to a PETSCII string which displays identically; a text made of characters that occur in the PETSCII table is displayed unchanged after conversion; conversion yields one byte per character.", "quantifier": "all byte strings, all character strings", "why_tests_cant": "All strings.", "anchors": ["src/petscii.rs: PETSCII_TO_CHAR_MAP, from_str_lossy, Display"]}
{"id": "C19", "title": "Disk header round trip", "statement": "Writing a header with a name of at most 16 bytes and reading it back gives the same ids, DOS version, format type and directory pointer, and the name padded to 16 bytes with 0xA0; bytes of the header sector that belong to no header field are preserved; a longer name is refused and then nothing is written.", "quantifier": "all three disk types, all header values, all previous sector contents", "why_tests_cant": "All header values and frame condition.", "anchors": ["src/disk/header.rs: Header::read, Header::write"]}
{"id": "C20", "title": "Formatting yields an empty, consistent disk", "statement": "write_format with a name of at most 16 bytes succeeds on every writable image whatever it held before; afterwards the directory is empty, blocks_free is 664 / 1328 / 3160 for D64 / D71 / D81 (the documented total_data_blocks), validate reports nothing, and the disk name and id are the given ones.", "quantifier": "all three disk types, all eight geometries, all previous image contents, all names and ids", "why_tests_cant": "All previous contents.", "anchors": ["src/disk/mod.rs: write_format, initialize", "src/disk/format.rs: system_locations, total_data_blocks", "src/disk/bam.rs: Bam::new"]}
{"id": "C21", "title": "A failed format leaves the disk as it was", "statement": "If write_format returns an error the image is unchanged.", "quantifier": "all images, names and ids", "why_tests_cant": "All failure causes; false for names longer than 16 bytes.", "anchors": ["src/disk/mod.rs: write_format", "src/disk/header.rs: Header::write"]}
{"id": "C22", "title": "What is written is what is read", "statement": "After creating a file and writing any bytes to it in any number of write calls and flushing, opening it by name and reading it gives exactly those bytes, and the directory lists it with its type and with a size of max(1, ceil(n/254)) blocks; appending through a new writer extends the contents.", "quantifier": "all disks in a consistent state, all names without trailing padding, all contents that fit, all splits into writes", "why_tests_cant": "All contents, sizes and splits, on all consistent disks.", "anchors": ["src/disk/mod.rs: create_file, open_file", "src/disk/chain.rs: ChainWriter, ChainReader", "src/disk/file.rs: LinearFile"]}
{"id": "C23", "title": "Operations on one file leave every other file alone", "statement": "Creating, writing, renaming or deleting a file never changes the name, type, block count or contents of any other file.", "quantifier": "all consistent disks, all operations and arguments", "why_tests_cant": "Frame condition over all files of all disks.", "anchors": ["src/disk/mod.rs: create_file, rename", "src/disk/chain.rs: ChainWriter", "src/disk/file.rs: LinearFile::delete"]}
{"id": "C24", "title": "The disk behaves like a table of files", "statement": "From a freshly formatted disk, or from an existing image in order, every finite sequence of create, open-writer, write, flush, close, rename, delete, list, read and blocks_free calls, with any number of writers on different files open at once and interleaved in any way, returns exactly the results of a simple model: a table of directory slots each holding a name, a type and contents.", "quantifier": "all three disk types, all call sequences and interleavings, all arguments of the supported kinds", "why_tests_cant": "All histories and interleavings.", "anchors": ["src/disk/mod.rs: Disk", "src/disk/chain.rs: ChainWriter, ChainReader, remove_chain", "src/disk/directory.rs: DirectoryIterator, next_free_directory_entry", "src/disk/bam.rs", "src/disk/format.rs"]}
{"id": "C25", "title": "Free blocks are conserved", "statement": "After any history from a formatted disk or an existing image in order, blocks_free plus the block counts of all listed files (plus one for the border sector of a GEOS disk, if it lies among the data blocks) equals the documented total number of data blocks of the format.", "quantifier": "all call sequences from a formatted disk or an existing image in order", "why_tests_cant": "All histories.", "anchors": ["src/disk/bam.rs: blocks_free", "src/disk/mod.rs: Disk::blocks_free", "src/disk/chain.rs: increment_entry_blocks"]}
{"id": "C26", "title": "Running out of space is precise and harmless", "statement": "A write fails with DiskFull exactly when the bytes do not fit in the last sector plus all free blocks; then the file holds its old contents followed by the longest prefix that fits, it stays readable, and no other file changes. create_file fails with DiskFull exactly when no data block is free or the directory is full.", "quantifier": "all consistent disks, all contents", "why_tests_cant": "All fill levels.", "anchors": ["src/disk/chain.rs: ChainWriter::write, allocate_next_block", "src/disk/mod.rs: create_file"]}
{"id": "C27", "title": "Directory capacity", "statement": "The directory accepts exactly max_directory_entries files (144 / 144 / 296; 8 fewer on a GEOS disk whose border sector lies on the directory track), not counting the files in the border sector of a GEOS disk: creation of a file with a fresh name succeeds whenever fewer are listed and a data block is free, and the number listed never exceeds it; slots of deleted files are reused before the directory grows.", "quantifier": "all histories from a formatted disk or an existing image in order", "why_tests_cant": "All histories of creations and deletions.", "anchors": ["src/disk/directory.rs: next_free_directory_entry", "src/disk/format.rs: max_directory_entries"]}
{"id": "C28", "title": "Deleting a file frees exactly its sectors", "statement": "Deleting a file removes exactly that name from the directory and returns exactly the sectors of the file to the free pool: the chain of a plain file; the chain and side sectors of a relative file; the chain or index, record chains and info block of a GEOS file. It can then not be opened, and its name can be reused. (For a relative file the data chain must be the list of its side sectors, see C75.)", "quantifier": "all consistent disks, all files on them", "why_tests_cant": "All disks and files.", "anchors": ["src/disk/file.rs: LinearFile::delete, RelativeFile::delete", "src/disk/geos/file.rs: GEOSFile::delete", "src/disk/chain.rs: remove_chain"]}
{"id": "C29", "title": "Renaming touches only the name", "statement": "A successful rename changes only the 16 name bytes of that one directory slot; every other byte of the image is unchanged. It fails with NotFound, FilenameTooLong or FileExists, changing nothing, when the old name is absent, the new one is longer than 16 bytes, or the new one is taken.", "quantifier": "all images (also inconsistent ones), all name pairs", "why_tests_cant": "All images, frame condition.", "anchors": ["src/disk/mod.rs: rename, find_directory_entry, check_filename_availability, write_directory_entry"]}
{"id": "C30", "title": "File names stay unique", "statement": "After any history from a formatted disk or an existing image in order no two listed files have the same name.", "quantifier": "all call sequences; false if names ending in the padding byte 0xA0 are allowed", "why_tests_cant": "All histories.", "anchors": ["src/disk/mod.rs: create_file, rename, check_filename_availability"]}
{"id": "C31", "title": "Every reachable disk validates clean", "statement": "After any history of the supported operations from a formatted disk or an existing image in order, validate() returns no errors.", "quantifier": "all call sequences from a formatted disk or an existing image in order", "why_tests_cant": "All histories.", "anchors": ["src/disk/validation.rs: validate"]}
{"id": "C32", "title": "validate is sound and complete for what it checks", "statement": "validate reports SystemSectorNotAllocated, SectorMisallocated, SectorMisoccupied, SectorOveroccupied and FileScanError for precisely the sectors and files that have the respective defect; an empty report on a disk means that every listed file can be scanned, no two files share a sector, and within the standard tracks the allocated sectors are precisely the system, directory and file sectors.", "quantifier": "all images, including corrupt ones", "why_tests_cant": "All images.", "anchors": ["src/disk/validation.rs: validate, invert_locations, scan_file", "src/disk/bam.rs: allocated_sectors, free_sectors"]}
{"id": "C33", "title": "Flushed work survives reopening", "statement": "After a writer has been flushed or closed (or a plain file deleted), closing the image and opening it again shows the same directory, the same file contents, the same allocation map and the same number of free blocks.", "quantifier": "all histories from a formatted disk or an existing image in order, reopened at any point after a flush", "why_tests_cant": "All histories and reopen points.", "anchors": ["src/disk/mod.rs: initialize", "src/disk/chain.rs: ChainWriter::flush, Drop", "src/disk/bam.rs: flush, read"]}
{"id": "C34", "title": "A created file is durable without a writer", "statement": "After create_file returns, the image on disk is consistent even if the process stops before any writer is flushed.", "quantifier": "all histories with a crash after any call", "why_tests_cant": "Crash points; false: the allocation map on disk is stale until a flush.", "anchors": ["src/disk/mod.rs: create_file", "src/disk/bam.rs: flush"]}
{"id": "C35", "title": "Relative file records tile the data stream", "statement": "For a relative file that opens, record(i) for i below record_count returns bytes i*len .. (i+1)*len of the data stream formed by its data sectors, each record has exactly the record length, and record(i) beyond the count is refused.", "quantifier": "all images with a relative file that opens, all record indices", "why_tests_cant": "All record lengths and straddling positions.", "anchors": ["src/disk/file.rs: RelativeFile::new, record_position, record"]}
{"id": "C36", "title": "Deleting a relative or GEOS file is persistent", "statement": "After deleting a relative or GEOS file successfully, reopening the image shows all its sectors as free.", "quantifier": "all images with such a file; false: side sectors and info block are freed only in memory", "why_tests_cant": "All images and reopen.", "anchors": ["src/disk/file.rs: RelativeFile::delete", "src/disk/geos/file.rs: GEOSFile::delete"]}
{"id": "C37", "title": "Opening or scanning a file never panics", "statement": "Opening any listed file of any image returns a file or an error.", "quantifier": "all images; false for relative files with record length 0 or with a short side sector", "why_tests_cant": "All corrupt images.", "anchors": ["src/disk/file.rs: RelativeFile::new", "src/disk/geos/file.rs: GEOSFile::new"]}
{"id": "C38", "title": "GEOS files read as Convert streams", "statement": "Reading a GEOS file as a Convert stream yields the 254-byte directory block, the 254-byte info block, the converted index (VLIR) and all records padded to sector multiples except the last, regardless of the buffer sizes used.", "quantifier": "all GEOS files with sound chains, all buffer sizes; false for buffers the stream fills", "why_tests_cant": "All buffer partitions.", "anchors": ["src/disk/geos/reader.rs: GEOSReader::read, next_state, process_vlir_index_block"]}
{"id": "C39", "title": "VLIR record numbers are consistent", "statement": "record(i) of a VLIR file is the i-th record of the file, the same record the Convert stream emits as its i-th.", "quantifier": "all VLIR files; false: record 0 is the index sector's own link", "why_tests_cant": "All files.", "anchors": ["src/disk/geos/file.rs: GEOSFile::new, record_start", "src/disk/geos/reader.rs: process_vlir_index_block"]}
{"id": "C40", "title": "GEOS info blocks can be rewritten", "statement": "Writing a parsed GEOS info block back into its sector reproduces it.", "quantifier": "all 256-byte info sectors; false: serialising panics", "why_tests_cant": "All sectors.", "anchors": ["src/disk/geos/mod.rs: GEOSInfo::from_bytes, to_bytes"]}
{"id": "C41", "title": "Opening a writer terminates", "statement": "Opening a writer on any file of any image returns a writer or an error.", "quantifier": "all images; false for cyclic chains", "why_tests_cant": "Termination over all images.", "anchors": ["src/disk/chain.rs: ChainWriter::new"]}
{"id": "C42", "title": "A failing call on a read-only disk leaves the session unchanged", "statement": "If create_file or delete fails because the image is read-only, blocks_free and all other observable results stay as they were.", "quantifier": "all images; false: the in-memory allocation map has been changed", "why_tests_cant": "All states.", "anchors": ["src/disk/mod.rs: create_file", "src/disk/chain.rs: remove_chain"]}
{"id": "C43", "title": "Sprite rendering is faithful", "statement": "The text rendering of a sprite has 11 lines of 12 glyphs; the glyph at a position encodes exactly the four pixels of that 2x2 cell, so two different sprites render differently.", "quantifier": "all 63-byte sprites", "why_tests_cant": "All 2^504 sprites.", "anchors": ["src/sprite.rs: Sprite::to_unicode"]}
{"id": "C44", "title": "Sector enumeration is exact", "statement": "The location iterators of formats and geometries yield every sector exactly once, in increasing order; the system sectors are those marked allocated on a fresh disk.", "quantifier": "all formats and geometries", "why_tests_cant": "Exhaustive claim over all sectors.", "anchors": ["src/disk/format.rs: LocationIterator, system_locations", "src/disk/block.rs: LocationIterator"]}
{"id": "C45", "title": "Directory growth never panics", "statement": "Looking for a free directory slot on any image returns a slot or an error.", "quantifier": "all images; false if the last directory sector is only partly used", "why_tests_cant": "All images.", "anchors": ["src/disk/directory.rs: next_free_directory_entry"]}
{"id": "C46", "title": "Deleting never panics", "statement": "Deleting any listed file of any image succeeds or returns an error.", "quantifier": "all images; false for files on tracks 36-40 of 40-track D64 images", "why_tests_cant": "All images.", "anchors": ["src/disk/file.rs: LinearFile::delete", "src/disk/bam.rs: entry_mut"]}
{"id": "C47", "title": "Other files survive a crash at any point", "statement": "If the process stops after any of the sector writes made by create, write, flush, rename or delete, every file not being operated on can still be read from the image with its contents intact.", "quantifier": "all histories, all prefixes of the sequence of sector writes", "why_tests_cant": "Crash points.", "anchors": ["src/disk/chain.rs: allocate_next_block, flush", "src/disk/mod.rs: create_file"]}
{"id": "C48", "title": "GEOS metadata codecs are lossless", "statement": "The GEOS file structure and file type bytes and the nine extra directory bytes of GEOS entries decode and encode back to the same bytes.", "quantifier": "all byte values", "why_tests_cant": "Exhaustive claim.", "anchors": ["src/disk/geos/mod.rs: GEOSFileStructure, GEOSFileType", "src/disk/directory.rs: GEOSExtra"]}
{"id": "C49", "title": "Hex dumps are faithful", "statement": "A hex dump shows every byte of the buffer, in order: the two-digit groups of its lines decode to the buffer.", "quantifier": "all byte buffers", "why_tests_cant": "All buffers.", "anchors": ["src/util/mod.rs: hexdump"]}
{"id": "C50", "title": "Handles follow re-initialisation", "statement": "After the BAM is reloaded or the disk reformatted, handles opened before work on the new allocation map; after the disk has become unreadable (BAM dropped) they are refused with InvalidBAM instead of using a stale map.", "quantifier": "all sequences of set/replace/drop of the BAM", "why_tests_cant": "All histories.", "anchors": ["src/disk/mod.rs: set_bam", "src/disk/bam.rs: invalidate, check_validity"]}
{"id": "C51", "title": "Allocating or freeing changes exactly one sector; lists and count agree", "statement": "Marking a sector of the disk allocated or free succeeds, changes the state of that sector and of no other, and keeps every track's free count equal to the number of its free sectors. The list of free sectors, the list of allocated sectors and the reported number of free blocks (which leaves out the directory track) are those the map defines.", "quantifier": "all three disk types, all allocation maps whose counts agree with the bitmaps, all sectors they describe", "why_tests_cant": "All maps and all sectors.", "anchors": ["src/disk/bam.rs: Bam::allocate, Bam::free, BamEntry::update_free_sectors, Bam::blocks_free, Bam::allocated_sectors, Bam::free_sectors"]}
{"id": "C52", "title": "A new file starts on the free track nearest the directory", "statement": "On a disk without GEOS the block chosen for a new file is the free sector on the track nearest the directory track (of two equally near tracks the lower), and on that track the one with the lowest number.", "quantifier": "all three disk types, all allocation maps whose counts agree with the bitmaps", "why_tests_cant": "All maps.", "anchors": ["src/disk/format.rs: first_free_track, first_free_block"]}
{"id": "C53", "title": "Choosing a sector never panics, whatever the allocation map", "statement": "On any image of a supported size, including one whose allocation map was damaged, asking for a sector for a new file or for the sector after a given one never panics and never loops: the answer is a sector of the disk that the map marks free, or DiskFull, or InvalidBAM (only when a track's free count contradicts its bitmap).", "quantifier": "all images of the three types, all allocation maps read from them, all previous sectors the map describes", "why_tests_cant": "All corrupted maps.", "anchors": ["src/disk/bam.rs: next_free_block", "src/disk/format.rs: next_free_block_from_previous, first_free_track, next_free_track_from_previous"]}
{"id": "C54", "title": "An image that validates clean can be worked on", "statement": "An image made by any program that validates clean and is in order where validate() does not look (free counts, names, block counts, the area used, records that can be read, the place of the border sector of a GEOS disk) opens as the table of files that its directory lists, plain, relative and GEOS, and every guarantee about histories holds from there on. Conversely every image left behind by a history with its writers closed is such an image.", "quantifier": "all images of the three types; all histories", "why_tests_cant": "Foreign images are unboundedly many and the guarantee is about every later history of calls on them.", "anchors": ["src/disk/validation.rs: validate", "src/disk/mod.rs: Disk", "src/disk/directory.rs: DirectoryIterator", "src/disk/chain.rs: ChainIterator"]}
{"id": "C55", "title": "A sequence of cdisk commands acts like a table of files", "statement": "Every sequence of the commands write, append, read, delete, rename, format, dir and validate of the program cdisk, on an image in order or on any writable image when the first command is format, gives exactly the replies of a table of files (name, type, block count, contents) and leaves an image of the resulting table, on which the next commands act in the same way. A file written by one command is what a later read command copies out, whatever the size of the copy buffer and of the pieces in which the source is delivered.", "quantifier": "all sequences of commands, all names, contents, pieces and buffer sizes, all three types", "why_tests_cant": "Sequences of commands are unboundedly many, and every command opens the image anew.", "anchors": ["src/bin/cdisk.rs: cmd_write, cmd_append, cmd_read, cmd_delete, cmd_rename, cmd_format, cmd_dir, cmd_validate", "src/disk/mod.rs: open, Disk"]}
{"id": "C56", "title": "cdisk append adds bytes to a file", "statement": "The command append adds the bytes of its source to the end of the file it names, and leaves the other files as they were.", "quantifier": "all images, names and sources", "why_tests_cant": "All images and files.", "anchors": ["src/bin/cdisk.rs: cmd_append, open_cbm_appender, open_cbm_file"]}
{"id": "C57", "title": "cdisk bam changes exactly the chosen sectors", "statement": "The commands bam allocate and bam free give exactly the sectors chosen by the track and sector arguments (a number or 'all') the new state, keep the free counts right, and change no byte of the image outside the allocation map; choices that name no sector of the disk are refused.", "quantifier": "all images of the three types, all maps, all choices of track and sector", "why_tests_cant": "All maps and all choices.", "anchors": ["src/bin/cdisk.rs: cmd_bam_edit", "src/disk/bam.rs: allocate, free, flush"]}
{"id": "C58", "title": "cdisk create makes a blank image of the type its extension names", "statement": "The command create makes an image file of zeros whose size is that of the disk type named by the file's extension in either case of letters (D64 without such an extension); the file opens as that type, and after the format command every sequence of commands acts on it like the table of files.", "quantifier": "all file names, all copy buffer sizes, all later sequences of commands", "why_tests_cant": "All file names and histories.", "anchors": ["src/bin/cdisk.rs: cmd_create, FillReader", "src/disk/mod.rs: DiskType::from_extension, open"]}
{"id": "C59", "title": "cdisk read on any image", "statement": "On any image the command read copies out the whole contents of a plain file with a sound chain, whatever the buffer; with a damaged chain it reports the error after copying only bytes of the sectors before the fault, and it always ends.", "quantifier": "all images, all plain files, all buffer sizes", "why_tests_cant": "All corrupted images.", "anchors": ["src/bin/cdisk.rs: cmd_read, open_cbm_reader", "src/disk/chain.rs: ChainReader"]}
{"id": "C60", "title": "cdisk geosread copies out the Convert stream", "statement": "The command geosread copies out exactly the Convert stream of a GEOS file (entry block, info block, index, records), whatever the size of the copy buffer, and refuses other files with an error.", "quantifier": "all images, all GEOS files, all buffer sizes", "why_tests_cant": "All files and buffer sizes.", "anchors": ["src/bin/cdisk.rs: cmd_geosread, open_geos_reader, open_geos_file", "src/disk/geos/reader.rs: GEOSReader"]}
{"id": "C61", "title": "The printed directory shows the disk", "statement": "The directory printed for an image has one line for the header, one for each file in directory order and one with the number of free blocks; two images print the same text exactly when what these lines show (names, sizes, types, marks, and at the higher level the extra data) is the same; the listing fails exactly when the image is unformatted or its directory cannot be read.", "quantifier": "all images of the right size, all pairs of images", "why_tests_cant": "All directories and names, including control characters and quotes.", "anchors": ["src/bin/cdisk.rs: cmd_dir", "src/disk/directory.rs: Display for DirectoryEntry, FileType", "src/disk/header.rs: Display", "src/petscii.rs: Display"]}
{"id": "C62", "title": "The printed block map shows the block map", "statement": "The map printed for an image has one line per track; the mark of each sector says whether the block availability map has it free, and the last line has the number of free blocks.", "quantifier": "all images of the right size", "why_tests_cant": "All maps.", "anchors": ["src/bin/cdisk.rs: cmd_bam", "src/disk/bam.rs: Debug for Bam"]}
{"id": "C63", "title": "The printed dump determines the image or the file", "statement": "Two images have the same dump exactly when they have the same bytes (sectors and error table); two files with readable records have the same dump exactly when their displayed names and all records are the same.", "quantifier": "all pairs of images and of files", "why_tests_cant": "All contents.", "anchors": ["src/bin/cdisk.rs: cmd_dump", "src/disk/mod.rs: dump", "src/disk/file.rs: dump", "src/util/mod.rs: hex"]}
{"id": "C66", "title": "The display of a GEOS info block shows its icon and its fields", "statement": "The display of an info block is eleven lines, each with two rows of the icon, and beside the first six the fields of the block; two blocks have the same display exactly when the icon and the displayed fields agree.", "quantifier": "all 256-byte info blocks", "why_tests_cant": "All block contents.", "anchors": ["src/disk/geos/mod.rs: Display for GEOSInfo", "src/sprite.rs: to_unicode"]}
{"id": "C67", "title": "The printed validation report shows the defects", "statement": "The validate command says that the image is good exactly when validation found nothing, and two images have the same report exactly when the defects shown are the same in the same order.", "quantifier": "all pairs of images that can be validated", "why_tests_cant": "All images.", "anchors": ["src/bin/cdisk.rs: cmd_validate", "src/disk/validation.rs: Display for ValidationError"]}
{"id": "C64", "title": "Errors keep their identity", "statement": "A disk error converted to io::Error and back is the same error; comparing a disk error with an io::Error, either way round, is true exactly when the io::Error was made from that disk error; any other io::Error becomes Unknown (or None); different disk errors have different messages; only NotFound has the kind NotFound.", "quantifier": "all disk errors and all io errors", "why_tests_cant": "Every pair of errors, including errors of the operating system.", "anchors": ["src/disk/error.rs: From<DiskError> for io::Error, From<io::Error> for DiskError, from_io_error, to_io_error, PartialEq, message"]}
{"id": "C65", "title": "Arguments of cdisk mean what they say", "statement": "A track or sector argument is accepted exactly when it is the word \"all\" or a decimal numeral in the range, and then has that value; a type argument is accepted exactly when it is prg, seq or usr, and the default is seq; the names of file types read back as the types; every sector of a disk can be named (false: D71 and D81 have more tracks and sectors than the range allows).", "quantifier": "all strings", "why_tests_cant": "Unbounded strings, leading zeros, signs, overflow.", "anchors": ["src/bin/cdisk.rs: optional_u8_parser, optional_track_validator, optional_sector_validator, main", "src/disk/directory.rs: FileType::from_string"]}
{"id": "C68", "title": "Unformatted images are refused", "statement": "On an image that has not been formatted every call that needs the directory or the map fails with Unformatted and changes nothing (true of a D71 image without the flag of the second side; false of D64 and D81: every image of the right size, also an all-zero one, is taken for formatted).", "quantifier": "all images of the right size, all calls that need no file handle", "why_tests_cant": "All contents.", "anchors": ["src/disk/header.rs: Header::read", "src/disk/d64.rs, d71.rs, d81.rs: initialize, header, disk_format, bam"]}
{"id": "C69", "title": "Commands touch nothing else", "statement": "No sequence of calls changes the size, the layout, the error table or the access mode of an image; no command of cdisk changes the size or the layout of the image file or any file but the image and the destination of a copy; commands that only look (bam, read, append, geosread, dir, dump, validate) leave the image as it is, unless the image itself is named as destination.", "quantifier": "all images, all sequences of calls, all commands and host files", "why_tests_cant": "All histories and contents.", "anchors": ["src/disk/block.rs", "src/disk/mod.rs: Disk", "src/bin/cdisk.rs"]}
{"id": "C70", "title": "cdisk keeps a table of files", "statement": "Seen from the host's file system, every sequence of cdisk commands (write, read, delete, rename, format, dir, validate, append) is a sequence of operations on a table of files: the image file stands for the table, a copy puts exactly the stored bytes in the destination or on standard output, other files stay as they are, and what is printed is the reply. In particular a file copied into a new image and out again is the same.", "quantifier": "all host files, images in order, sequences of commands, buffer sizes, ways of cutting input into pieces", "why_tests_cant": "Unbounded sequences and contents, every buffer size.", "anchors": ["src/bin/cdisk.rs: main, cmd_*, open_fs_reader, open_fs_writer", "src/disk/mod.rs: open", "src/disk/image.rs: open_read_only, open_read_write"]}
{"id": "C71", "title": "Files that are no images are reported and left alone", "statement": "Opening a path succeeds exactly when the file exists and has a size of the type its extension names (any type's size if there is no known extension), and then shows exactly the bytes of the file; a missing file, an empty file and a file of a wrong size give NotFound, InvalidInput and InvalidLayout, and every command then changes nothing; create refuses an existing file and leaves it as it is.", "quantifier": "all paths, files, commands", "why_tests_cant": "All sizes and names.", "anchors": ["src/disk/mod.rs: open, DiskType::from_extension", "src/disk/image.rs: open_read_only, open_read_write", "src/bin/cdisk.rs: cmd_create"]}
{"id": "C72", "title": "The exit status of cdisk tells whether the command has succeeded", "statement": "The exit status is zero exactly when the command has succeeded (false: it is zero after errors too); an error line is printed exactly when the command has failed.", "quantifier": "all runs", "why_tests_cant": "All commands and failures.", "anchors": ["src/bin/cdisk.rs: main"]}
{"id": "C73", "title": "Creating an image file", "statement": "D64/D71/D81::create with create_new makes an all-zero image of the right size, or refuses an existing file without changing it; without create_new it makes a new image in place of any existing file (false: a missing file is refused, and the bytes of an existing file are kept).", "quantifier": "all paths, geometries and host files", "why_tests_cant": "All files.", "anchors": ["src/disk/image.rs: Image::create", "src/disk/d64.rs, d71.rs, d81.rs: create"]}
{"id": "C74", "title": "Relative and GEOS files keep their records", "statement": "In any session of calls within the protocol on an image in order, a relative or GEOS file that is on the image stays listed, opens under its name and gives the same records (or data) as before, until it is itself renamed or deleted or the disk is formatted; an open handle on it gives the same records also after a rename; and the same holds for the image left by a crash after any of the sector writes of a call.", "quantifier": "all images in order of the three types with any mixture of files, all sequences of calls, all crash points, all record indices", "why_tests_cant": "All histories; record boundaries, side sectors and VLIR indices over arbitrary contents.", "anchors": ["src/disk/file.rs: File, RelativeFile", "src/disk/geos/file.rs: GEOSFile", "src/disk/mod.rs: Disk::open_file, create_file, rename"]}
{"id": "C75", "title": "Deleting a file leaves the other files intact", "statement": "After deleting a file from an image that validates clean, every other file still opens with the same contents, its sectors stay allocated, and later writes to new files do not change it.", "quantifier": "all images that validate clean, all files on them; false for relative files whose directory entry names another first sector than their side sectors list", "why_tests_cant": "All images, all files and all later histories.", "anchors": ["src/disk/file.rs: RelativeFile::delete, RelativeFile::new, RelativeFile::occupied_sectors", "src/disk/validation.rs: validate", "src/disk/chain.rs: remove_chain"]}
{"id": "C76", "title": "The border sector of a GEOS disk is left to its files", "statement": "On a GEOS disk the files of the border sector are listed after all others and marked as such, at most eight of them. No call puts a file there: new files go in the directory even when the border sector has unused slots. Creating, writing, reading and validating leave the names listed there as they are, a rename changes the name in its place, and only deleting a file or formatting the disk takes one away.", "quantifier": "all images in order of the three types, GEOS or not, all sequences of calls", "why_tests_cant": "All histories on all images; the border sector may lie anywhere on the disk.", "anchors": ["src/disk/directory.rs: DirectoryIterator, next_free_directory_entry", "src/disk/mod.rs: Disk::iter, find_directory_entry", "src/disk/geos/mod.rs: GEOSDiskHeader"]}
{"id": "C77", "title": "Changing the disk header changes nothing else", "statement": "Changing the name, the id or the other fields of the disk header (header_mut) and flushing it, at any point of a history, succeeds and writes one sector, of which only the bytes of the header change: files, free blocks, open handles and writers, the border sector and every later call stay as they were, only the name of the disk differs, also after the image is opened again. A name of more than 16 bytes is refused when it is flushed, and leaves the image as it was.", "quantifier": "all images in order of the three types, all histories, all headers that keep the GEOS part, all later calls", "why_tests_cant": "All histories before and after; on two of the three types the header shares its sector with the allocation map.", "anchors": ["src/disk/d64.rs, d71.rs, d81.rs: header_mut, flush_header", "src/disk/header.rs: Header::write"]}
{"id": "C78", "title": "A reader is not disturbed by changes to other files", "statement": "A reader obtained for a file at any point of a history delivers the bytes of that file, each read the next so many of them and then none, even if between its reads other files are created, written, closed, renamed or deleted and their sectors are used again. The same holds for the reader of a sequential GEOS file, and the reader of the Convert stream of a GEOS file answers as if nothing came in between.", "quantifier": "all histories, all files and handles, all sequences of reads of any sizes interleaved with any calls that are not about the file", "why_tests_cant": "All interleavings; the reader follows links on the image that the other calls are changing.", "anchors": ["src/disk/chain.rs: ChainReader, ChainIterator", "src/disk/file.rs: File::reader", "src/disk/geos/file.rs: GEOSFile::reader", "src/disk/geos/reader.rs: GEOSReader"]}
{"id": "C79", "title": "A directory iterator may be used while the disk changes", "statement": "The directory iterator on any image, whatever is written to the image between its steps, comes to an end: it never panics, it answers a bounded number of entries and errors, and nothing after the end. On an image that stays as it is it answers exactly the directory. When files are created, written, renamed or deleted between its steps, it never fails, every entry it answers was in the directory at some moment since it was made, and by the end it has answered every file that was there from the beginning and was not itself changed exactly once, with its name, type and size.", "quantifier": "all images, all changes between the steps; all histories and all interleavings of the steps with calls", "why_tests_cant": "All interleavings: the iterator buffers one sector, follows the chain on the image as it is, and has read the border sector at the beginning.", "anchors": ["src/disk/directory.rs: DirectoryIterator::new, next_block, next", "src/disk/mod.rs: Disk::iter"]}
{"id": "C80", "title": "A reader may be used while its own file, or anything else, changes", "statement": "If the file of a reader is appended to or renamed between the reads, but not deleted, no read fails; what the reads deliver, put together, is the beginning of what the file holds in the end; once a read comes short, nothing more is delivered, and by then at least all that the file held when the reader was made has been delivered. On any image, whatever is written to it between the reads, a reader never panics, answers at most what was asked for, in all at most what a disk can hold, and nothing after an error or a short read.", "quantifier": "all histories and all interleavings of reads of any sizes with calls that do not delete the file; all images, all starting sectors, all changes between the reads", "why_tests_cant": "All interleavings; the reader keeps one sector and follows links that the writer is changing.", "anchors": ["src/disk/chain.rs: ChainReader, ChainIterator, ChainWriter", "src/disk/file.rs: File::reader, File::writer"]}
{"id": "C81", "title": "A writer is not disturbed by calls on other files", "statement": "If a writer is opened on a file at any point of a history, used in turns with any calls that are not about this file (other files created, written, renamed and deleted, other writers opened, used and closed, the directory listed), and closed, and every write answered its full count, then the file keeps its name and type and contains what it contained before, followed by everything written through the writer, in order; and the other calls answer as they would without it.", "quantifier": "all histories, all files, all interleavings of writes of any sizes with calls on other files", "why_tests_cant": "All interleavings; the allocation of sectors is shared by all writers.", "anchors": ["src/disk/chain.rs: ChainWriter", "src/disk/bam.rs: BAM::allocate", "src/disk/file.rs: File::writer"]}
{"id": "C82", "title": "Two writers on one file keep what both have written", "statement": "If two writers are open on the same file, both are written to and closed, every call succeeds and there is room, then the file contains what it contained before and what both writers wrote.", "quantifier": "all histories, all files, all data written", "why_tests_cant": "All histories; the effect depends on the state of both writers and of the image.", "anchors": ["src/disk/chain.rs: ChainWriter", "src/disk/file.rs: File::writer"]}
{"id": "C83", "title": "A handle or a writer does not outlive its file", "statement": "A handle or a writer whose file has been deleted does nothing to other files: deleting through such a handle removes no other file, and writing through such a writer does not reach a file created since. Deleting again right away changes nothing a client can see.", "quantifier": "all histories, all files, all calls in between", "why_tests_cant": "All histories; the directory slot and the sectors of the deleted file are used again at a time that depends on all later calls.", "anchors": ["src/disk/file.rs: File::delete, File::writer", "src/disk/directory.rs: DirectoryEntry", "src/disk/chain.rs: ChainWriter"]}
{"id": "C84", "title": "Calls that all succeed leave a valid disk", "statement": "If a client makes any calls on a valid disk, holding any handles and writers, and every call succeeds, then the disk validates without a defect when all writers are closed.", "quantifier": "all histories of calls, with any number of handles and writers per file", "why_tests_cant": "All histories and all ways to hold handles and writers at the same time.", "anchors": ["src/disk/chain.rs: ChainWriter", "src/disk/file.rs: File::writer", "src/disk/validation.rs: validate"]}
{"id": "C85", "title": "The verbose listing shows the kind of each file and the fields of its info block", "statement": "With one -v flag, the line that cdisk dir prints for a file also shows whether it is a regular, relative or GEOS file, with the side sector and the record length, or with the structure, the type by its name, and the date and time. The info block of a GEOS file is shown with its type, structure, three addresses, class, author, application and description, each read from its place in the block and printed under its own name.", "quantifier": "all images, all files, all info blocks", "why_tests_cant": "All contents of the directory and of the info block, including codes without a name and texts with any bytes.", "anchors": ["src/bin/cdisk.rs: cmd_dir", "src/disk/directory.rs: Display for DirectoryEntry, Debug for Extra", "src/disk/geos/mod.rs: Display for GEOSInfo, GEOSFileType, GEOSFileStructure"]}
{"id": "C86", "title": "The detailed listing shows the sectors, records and info block of each file", "statement": "With two or more -v flags, the listing shows under each file the details of the file found under its name: with two flags the number of records and the info block of GEOS files, with three also the place of the directory entry, the sectors the file occupies, the data and side sectors of a relative file, and the sectors of each record of a VLIR file. It succeeds whenever all that it shows can be read.", "quantifier": "all images, all numbers of flags, all files", "why_tests_cant": "All directories, chains, index blocks and info blocks.", "anchors": ["src/bin/cdisk.rs: cmd_dir", "src/disk/file.rs: FileOps::details", "src/disk/geos/file.rs: details", "src/disk/block.rs: Location::format_locations"]}
{"id": "C87", "title": "The program shows an image file as it is and its bam command changes only the map", "statement": "Run on any image file that opens, cdisk dump, bam, dir and validate print what is in that file to the standard output, leave every file of the host as it was and end without an error; validate ends with an error message that counts the defects if there are any. cdisk bam with a track and a sector allocates or frees exactly the chosen sectors as the image shows when it is opened again, changes nothing in the image but the map, and no other file.", "quantifier": "all hosts, paths, image files, file names, numbers of flags, tracks and sectors", "why_tests_cant": "All contents of the image file and of the other files.", "anchors": ["src/bin/cdisk.rs: main, cmd_dump, cmd_dir, cmd_validate, cmd_bam_show, cmd_bam_edit", "src/disk/mod.rs: open", "src/disk/image.rs: Image::open"]}
{"id": "C88", "title": "The program copies files out of any image file", "statement": "Run on any image file that opens, cdisk read copies the data of a file to the destination, a file of the host or standard output, and changes no other file; if the chain of the file has a fault it ends with an error that tells the fault, and the copy has no bytes but data from before it; a file of records is refused without making a file. cdisk geosread copies the stream of any GEOS file and ends.", "quantifier": "all hosts, paths, image files, file names, destinations and buffer sizes", "why_tests_cant": "All contents of the image file, all chains with and without faults, all buffer sizes.", "anchors": ["src/bin/cdisk.rs: cmd_read, cmd_geosread, open_fs_writer", "src/disk/chain.rs: ChainReader", "src/disk/geos/reader.rs: GEOSReader"]}
{"id": "C89", "title": "A run of the program that is refused changes no file", "statement": "cdisk opens a file as an image exactly if it has the size of an image of the type its extension names, or of any type if it names none. On any other file every command but create changes nothing and reports an error; so do arguments that are not understood, a source that does not exist, the name of a file that is not on the disk, and a new name that is there already. create does not touch a file that exists.", "quantifier": "all hosts, paths, contents of files, commands and arguments", "why_tests_cant": "All files and all commands with all arguments.", "anchors": ["src/bin/cdisk.rs: main, cmd_read, cmd_write, cmd_append, cmd_geosread, cmd_create, cmd_delete, cmd_dump", "src/disk/mod.rs: open", "src/disk/image.rs: Image::open_read_only, Image::open_read_write"]}
