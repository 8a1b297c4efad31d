(** Text shown to the user: the [Display] and [Debug] implementations and the
    output of the commands dir, bam show, dump and validate of cdisk. Text is a
    list of code points; a newline is 10. *)
From Coq Require Import Ascii String.
From Verif Require Import Base Layout Block Bam Format Petscii Sprite Hexdump GeosTypes DirEntry Header World Chain Directory Writer Rel GeosFile
  File Validate Cdisk.
Local Open Scope list_scope.

(** A string literal. *)
Definition str (s : string) : list N := List.map N_of_ascii (list_ascii_of_string s).

(** [{}] of a number: decimal digits. *)
Fixpoint dec_digits (fuel : nat) (n : N) : list N :=
  match fuel with
  | 0 => []
  | S fuel => (if (n / 10 =? 0)%N then [] else dec_digits fuel (n / 10)) ++ [48 + n mod 10]%N
  end.
Definition dec (n : nat) : list N := dec_digits (S (N.to_nat (N.size (N.of_nat n)))) (N.of_nat n).

(** [{:0w}] of a number, [{:<w}] of a number and [{:w}] of a string: widths count
    characters, and longer texts are not cut. *)
Definition zero_padded (w : nat) (s : list N) : list N := repeat 48%N (w - length s) ++ s.
Definition padded (w : nat) (s : list N) : list N := s ++ repeat 32%N (w - length s).

(** [{:02x}] and [{:04x}] *)
Definition hex02 (n : nat) : list N := List.map N.of_nat (hex2 n).
Definition hex04 (n : nat) : list N := List.map N.of_nat (hex4 n).

(** Display for Location: /repo/src/disk/block.rs lines 175-179. *)
Definition show_location (l : location) : list N := str "(" ++ dec (fst l) ++ str "," ++ dec (snd l) ++ str ")".

(** Location::format_locations: block.rs lines 165-171. *)
Fixpoint show_locations (ls : list location) : list N :=
  match ls with
  | [] => []
  | [l] => show_location l
  | l :: ls => show_location l ++ str " " ++ show_locations ls
  end.

(** Display for Position: block.rs lines 194-202. *)
Definition show_position (p : position) : list N :=
  str "(" ++ dec (fst (p_loc p)) ++ str "," ++ dec (snd (p_loc p)) ++ str "@0x" ++ hex02 (p_off p) ++ str ")".

(** Display for FileType: /repo/src/disk/directory.rs lines 52-63. *)
Definition show_type (t : file_type) : list N :=
  match t with
  | DEL => str "del"
  | SEQ => str "seq"
  | PRG => str "prg"
  | USR => str "usr"
  | REL => str "rel"
  | FUnknown _ => str "unk"
  end.

(** Display for FileAttributes: directory.rs lines 137-152. *)
Definition show_attributes (a : attributes) : list N :=
  (if fa_closed a then str " " else str "*") ++ show_type (fa_type a)
  ++ match fa_locked a, fa_replace a with
     | true, false => str "<"
     | false, true => str "@"
     | true, true => str "<@"
     | false, false => str " "
     end.

(** Display for GEOSFileStructure and GEOSFileType: /repo/src/disk/geos/mod.rs
    lines 84-96 and 162-187. *)
Definition show_structure (s : geos_structure) : list N :=
  match s with
  | GSequential => str "Sequential"
  | GVLIR => str "VLIR"
  | GStructUndefined b => str "Unknown(0x" ++ hex02 b ++ str ")"
  end.
Definition show_geos_type (t : geos_file_type) : list N :=
  match t with
  | GNonGEOS => str "Non-GEOS"
  | GBASIC => str "BASIC"
  | GAssembler => str "Assembler"
  | GDataFile => str "Data file"
  | GSystemFile => str "System File"
  | GDeskAccessory => str "Desk Accessory"
  | GApplication => str "Application"
  | GApplicationData => str "Application Data"
  | GFontFile => str "Font File"
  | GPrinterDriver => str "Printer Driver"
  | GInputDriver => str "Input Driver"
  | GDiskDriver => str "Disk Driver"
  | GSystemBootFile => str "System Boot File"
  | GTemporary => str "Temporary"
  | GAutoExecuteFile => str "Auto-Execute File"
  | GTypeUndefined b => str "Unknown(0x" ++ hex02 b ++ str ")"
  end.

(** Debug for Extra: directory.rs lines 219-227, with 250-254, 289-297 and 372-387. *)
Definition show_extra (x : extra) : list N :=
  match x with
  | XLinear _ => str "REGULAR"
  | XRelative side len _ => str "REL(side=" ++ show_location side ++ str " rec_len=" ++ dec len ++ str ")"
  | XGEOS _ s t year month day hour minute =>
      str "GEOS(" ++ show_structure s ++ str ", " ++ show_geos_type t ++ str ", "
      ++ zero_padded 4 (dec (1900 + year)) ++ str "-" ++ zero_padded 2 (dec month) ++ str "-" ++ zero_padded 2 (dec day) ++ str "-"
      ++ zero_padded 2 (dec hour) ++ str ":" ++ zero_padded 2 (dec minute) ++ str ")"
  end.

(** A name in quotes: directory.rs line 526. *)
Definition quoted (name : list nat) : list N := str """" ++ petscii_display name ++ str """".

(** Display for DirectoryEntry: directory.rs lines 524-541; [alternate] is [{:#}]. *)
Definition show_entry (alternate : bool) (e : dirent) : list N :=
  padded 4 (dec (de_size e)) ++ str " " ++ padded 18 (quoted (de_name e)) ++ show_attributes (de_attr e)
  ++ (if alternate then str " " ++ show_extra (de_extra e) else [])
  ++ (if de_border e then str " (GEOS border)" else []).

(** std::ascii::escape_default of a byte. *)
Definition escape_byte (b : nat) : list N :=
  if b =? 9 then str "\t" else if b =? 13 then str "\r" else if b =? 10 then str "\n"
  else if b =? 39 then str "\'" else if b =? 34 then str "\""" else if b =? 92 then str "\\"
  else if (32 <=? b) && (b <=? 126) then [N.of_nat b] else str "\x" ++ hex02 b.

(** GEOSString::get_trimmed_buffer and to_escaped_string: geos/mod.rs lines 208-228. *)
Fixpoint trimmed (s : list nat) : list nat :=
  match s with
  | [] => []
  | b :: s => if b =? 0 then [] else b :: trimmed s
  end.
Definition show_geos_string (s : list nat) : list N := List.concat (List.map escape_byte (trimmed s)).

(** DiskError::message: /repo/src/disk/error.rs lines 155-186. *)
Definition show_error (e : disk_error) : list N :=
  match e with
  | EUnknown => str "unknown error"
  | EReadOnly => str "write access attempted to read-only media"
  | EInvalidLocation => str "bad track or sector"
  | EInvalidOffset => str "offset out of bounds"
  | EInvalidHeader => str "invalid header"
  | EInvalidBAM => str "invalid BAM"
  | EInvalidLayout => str "invalid layout"
  | EInvalidRecord => str "record out of bounds"
  | EReadOverflow => str "read overflow"
  | EReadUnderrun => str "read underrun"
  | EWriteUnderrun => str "write underrun"
  | EUnformatted => str "attempt to use unformatted media"
  | ENotFound => str "file not found"
  | EChainLoop => str "chain loop detected"
  | EInvalidChainLink => str "invalid chain link"
  | EInvalidRelativeFile => str "invalid relative file layout"
  | EUnpositioned => str "attempt to write a resource with no embedded position"
  | EFilenameTooLong => str "filename exceeds maximum length"
  | EFileExists => str "a file with the specified filename already exists"
  | EDiskFull => str "disk is full"
  | EInvalidRecordIndex => str "invalid record index"
  | EUnknownFormat => str "unknown format"
  | EGEOSInfoNotFound => str "a required GEOS info block was not found"
  | ERecordTooLarge => str "a record exceeded the maximum size"
  | ENonLinearFile => str "attempt to linearly access non-linear file"
  end.

(** Display for Id: /repo/src/disk/mod.rs lines 722-726. *)
Definition show_id (id : nat * nat) : list N := petscii_display [fst id; snd id].

(** Display for Disk: mod.rs lines 525-548. The width in [{:16}] has no effect:
    Display for Petscii (/repo/src/petscii.rs lines 207-215) ignores it. *)
Definition show_disk (w : world) : list N :=
  match w_get_header w with
  | Ok h =>
      str "0 " ++ quoted (h_disk_name h) ++ str " " ++ show_id (h_disk_id h) ++ str " "
      ++ petscii_display [h_directory_dos_version h; h_directory_format_type h]
      ++ match h_geos h with Some g => str " (" ++ show_geos_string (gh_id g) ++ str ")" | None => [] end
  | Err e => str "Cannot read header: " ++ show_error e
  | _ => []
  end.

(** One line of Debug for Bam: /repo/src/disk/bam.rs lines 352-368; [track] counts from 0. *)
Fixpoint map_chars (n : nat) (m : N) : list N :=
  match n with
  | 0 => []
  | S n => (if (N.land m 1 =? 1)%N then 46%N else 120%N) :: map_chars n (N.shiftr m 1)
  end.
Definition show_track (b : bam) (track : nat) : res (list N) :=
  match b_entries b !! track, tracks (b_format b) !! (track + 1) with
  | Some e, Some tr =>
      Ok (str "t" ++ zero_padded 2 (dec (track + 1)) ++ str ": [" ++ zero_padded 2 (dec (e_free e)) ++ str "/"
          ++ zero_padded 2 (dec (sectors tr)) ++ str "] " ++ map_chars (sectors tr) (e_map e) ++ [10%N])
  | _, _ => Panic
  end.

(** What a command has printed, and how it ended. *)
Definition printing (A : Type) : Type := st (list N) A.
Definition print (s : list N) : printing unit := modify (fun out => out ++ s).
Definition println (s : list N) : printing unit := print (s ++ [10%N]).

(** Debug for Bam: bam.rs lines 349-373. *)
Definition show_bam (b : bam) : printing unit :=
  do_ (for_each (fun track => do! s := lift (show_track b track) in print s) (seq 0 (last_track (b_format b)))) in
  do! n := lift (blocks_free_count b) in
  println (dec n ++ str " blocks free.").

(** cmd_bam_show: /repo/src/bin/cdisk.rs lines 269-274. *)
Definition cmd_bam_show (t : disk_type) (d : dev) : printing unit :=
  let w := tool_open t false d in
  do! b := lift (let? c := w_get_bam w in cell w c) in
  show_bam b.

(** Display for GEOSInfo: geos/mod.rs lines 338-365. [lines] of the icon and of the text: *)
Fixpoint lines (s : list N) : list (list N) :=
  match s with
  | [] => []
  | c :: s =>
      if (c =? 10)%N then [] :: lines s
      else match lines s with l :: ls => (c :: l) :: ls | [] => [[c]] end
  end.
(** the zip of the two, each continued with empty lines, up to the first pair of
    empty lines; [a] and [b] end at the same time because the shorter is filled up: *)
Fixpoint zip_lines (fuel : nat) (a b : list (list N)) : list N :=
  match fuel with
  | 0 => []
  | S fuel =>
      match hd [] a, hd [] b with
      | [], [] => []
      | x, y => padded 12 x ++ str " " ++ y ++ [10%N] ++ zip_lines fuel (tl a) (tl b)
      end
  end.
Definition info_lines (i : geos_info) : list N :=
  str "Type: " ++ show_geos_type (gi_type i) ++ str " (" ++ show_structure (gi_structure i) ++ str ")" ++ [10%N]
  ++ str "Program addresses: load=0x" ++ hex04 (gi_load i) ++ str " end=0x" ++ hex04 (gi_end i) ++ str " start=0x" ++ hex04 (gi_start i) ++ [10%N]
  ++ str "Class: " ++ show_geos_string (gi_class i) ++ [10%N]
  ++ str "Author: " ++ show_geos_string (gi_author i) ++ [10%N]
  ++ str "Application: " ++ show_geos_string (gi_application i) ++ [10%N]
  ++ str "Description: " ++ show_geos_string (gi_description i) ++ [10%N].
Definition show_info (i : geos_info) : list N :=
  let icon := lines (sprite_to_unicode (gi_icon i)) in
  let text := lines (info_lines i) in
  zip_lines (S (length icon + length text)) icon text.

(** FileOps::details: /repo/src/disk/file.rs lines 269-283 and 511-528, geos/file.rs
    lines 138-198. [verbose] is [verbosity > 0]. *)
Definition show_entry_position (e : dirent) : printing unit :=
  match de_pos e with
  | Some p => println (str "Directory position: " ++ show_position p)
  | None => ret tt
  end.
(** The number of records up to the last present one, or all if none is: geos/file.rs lines 148-154. *)
Fixpoint last_present (i : nat) (records : list (option location)) : option nat :=
  match records with
  | [] => None
  | r :: rs =>
      match last_present (S i) rs with
      | Some n => Some n
      | None => match r with Some _ => Some (S i) | None => None end
      end
  end.
Definition available_records (records : list (option location)) : nat :=
  match last_present 0 records with Some n => n | None => length records end.
(** The loop over the records: geos/file.rs lines 159-182. *)
Fixpoint show_records (d : dev) (i available total : nat) (records : list (option location)) : printing unit :=
  match records with
  | [] => ret tt
  | r :: rs =>
      if available <=? i then println (dec (total - available) ++ str " unavailable records follow...")
      else
        do! ls := lift (match r with Some l => chain_locations d l | None => Ok [] end) in
        do_ (println (str "Record " ++ dec i ++ str " sectors: " ++ show_locations ls)) in
        show_records d (S i) available total rs
  end.
Definition geos_details (d : dev) (f : geos_file) (verbose : bool) : printing unit :=
  do_ (if verbose then show_entry_position (gf_entry f) else ret tt) in
  do_ (match gf_vlir f with
       | Some records =>
           let available := available_records records in
           if verbose then
             do_ (println (str "VLIR record sector: " ++ show_location (de_first (gf_entry f)))) in
             show_records d 0 available (length records) records
           else println (str "VLIR records: " ++ dec available)
       | None =>
           if verbose then
             do! ls := lift (chain_locations d (de_first (gf_entry f))) in
             println (str "Occupied sectors: " ++ show_locations ls)
           else ret tt
       end) in
  do! info := lift (geos_file_info d f) in
  match info with
  | Some i => do_ (println (str "GEOS info block:")) in print (show_info i)
  | None => ret tt
  end.
Definition file_details (d : dev) (f : file) (verbose : bool) : printing unit :=
  match f with
  | FLinear _ e =>
      if verbose then
        do_ (show_entry_position e) in
        do! ls := lift (chain_locations d (de_first e)) in
        println (str "Occupied sectors: " ++ show_locations ls)
      else ret tt
  | FRelative f =>
      if verbose then
        do_ (show_entry_position (rf_entry f)) in
        do_ (println (str "Data sectors: " ++ show_locations (rf_data_sectors f))) in
        println (str "Side sectors: " ++ show_locations (rf_side_sectors f))
      else ret tt
  | FGEOSSequential f | FGEOSVLIR f => geos_details d f verbose
  end.

(** cmd_dir: cdisk.rs lines 442-462; [verbosity] is the number of -v flags. *)
Definition print_dir (t : disk_type) (verbosity : nat) (d : dev) : printing unit :=
  let w := tool_open t false d in
  let '(es, r) := w_iter w in
  do_ (println (show_disk w)) in
  do_ (for_each (fun e =>
         if 0 <? verbosity then
           do_ (println (show_entry true e)) in
           if 1 <? verbosity then
             do! f := lift (open_file w (de_name e)) in
             do_ (file_details (w_dev w) f (0 <? verbosity - 2)) in
             println []
           else ret tt
         else println (show_entry false e)) es) in
  do_ (lift r) in
  do! n := lift (w_blocks_free w) in
  println (dec n ++ str " blocks free.").

(** Hex for a block followed by a newline: /repo/src/util/mod.rs lines 57-67. *)
Definition println_hex (bytes : list nat) : printing unit := println (List.map N.of_nat (hexdump [] bytes)).

(** BlockDevice::dump: block.rs lines 52-76. The fuel of the iterator is the
    number of sectors. *)
Fixpoint dump_errors (d : dev) (index : nat) (ts : list nat) : printing unit :=
  match ts with
  | [] => ret tt
  | t :: ts =>
      let n := sectors (g_layouts (d_geom d) !!! t) in
      do_ (print (str "track " ++ zero_padded 2 (dec t) ++ str ": ")) in
      do_ (for_each (fun i =>
             match d_etable d !! i with Some x => print (hex02 x ++ str " ") | None => panic end) (seq index n)) in
      do_ (println []) in
      dump_errors d (index + n) ts
  end.
Definition dump_dev (d : dev) : printing unit :=
  do_ (for_each (fun l =>
         do_ (println []) in
         do_ (println (str "track " ++ zero_padded 2 (dec (fst l)) ++ str " sector " ++ zero_padded 2 (dec (snd l)))) in
         do! b := lift (sector d l) in
         println_hex b)
       (loc_iter_run (length (d_blocks d)) (g_layouts (d_geom d)) (g_tracks (d_geom d)) (Some (1, 0)))) in
  if g_errors (d_geom d) then
    do_ (println []) in
    do_ (println (str "Error table:")) in
    dump_errors d 0 (range_incl 1 (g_tracks (d_geom d)))
  else ret tt.

(** FileOps::dump: file.rs lines 111-118. *)
Definition dump_file (d : dev) (f : file) : printing unit :=
  do_ (println (str "Filename: " ++ quoted (de_name (file_entry f)))) in
  for_each (fun i =>
    do_ (println (str "Record: " ++ dec i)) in
    do! bytes := lift (file_record d f i) in
    println_hex bytes) (seq 0 (file_record_count f)).

(** cmd_dump: cdisk.rs lines 483-493. *)
Definition cmd_dump (t : disk_type) (name : option (list N)) (d : dev) : printing unit :=
  let w := tool_open t true d in
  match name with
  | Some name => do! f := lift (open_file w (from_str_lossy name)) in dump_file (w_dev w) f
  | None => dump_dev (w_dev w)
  end.

(** Debug for Petscii: petscii.rs lines 217-231. *)
Definition debug_name (name : list nat) : list N :=
  str """" ++ List.concat (List.map (fun b => if (petscii_to_char b =? 34)%N then str "\""" else [petscii_to_char b]) name) ++ str """".

(** Display for ValidationError: /repo/src/disk/validation.rs lines 36-57. *)
Definition show_validation (v : validation_error) : list N :=
  match v with
  | VSystemSectorNotAllocated l => str "System sector not allocated: " ++ show_location l
  | VSectorMisallocated l => str "Sector misallocated: " ++ show_location l
  | VSectorMisoccupied l n => str "Sector " ++ show_location l ++ str " misoccupied by file: " ++ debug_name n
  | VSectorOveroccupied l n1 n2 =>
      str "Sector " ++ show_location l ++ str " occupied by multiple files, including at least: "
      ++ debug_name n1 ++ str " " ++ debug_name n2
  | VFileScanError e n => str "Error scanning " ++ debug_name n ++ str ": " ++ show_error e
  end.

(** The report of cmd_validate: cdisk.rs lines 495-510. The result is whether
    the command succeeds. *)
Definition print_validate (t : disk_type) (d : dev) : printing bool :=
  do! vs := lift (cmd_validate t d) in
  do_ (for_each (fun v => println (show_validation v)) vs) in
  match vs with
  | [] => do_ (println (str "Disk validates successfully.")) in ret true
  | _ => ret false
  end.
