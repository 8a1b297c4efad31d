(** What the verbose listings say about each file, beside SpecOutput.v. *)
From Coq Require Import Ascii String.
From Verif Require Import Base Layout Block Petscii GeosTypes DirEntry Header World Chain Rel GeosFile File Validate Cdisk Spec SpecText SpecOutput.
Local Open Scope list_scope.

(** The characters of a literal. *)
Definition chars (s : string) : list N := List.map N_of_ascii (list_ascii_of_string s).

(** Reading a number in hexadecimal, with small letters. *)
Definition hex_value (c : N) : option N :=
  if ((48 <=? c) && (c <=? 57))%N then Some (c - 48)%N
  else if ((97 <=? c) && (c <=? 102))%N then Some (c - 87)%N else None.
Fixpoint hex_from (acc : N) (s : list N) : option N :=
  match s with
  | [] => Some acc
  | c :: s => match hex_value c with Some v => hex_from (acc * 16 + v)%N s | None => None end
  end.
Definition hexadecimal (s : list N) : option N := match s with [] => None | _ => hex_from 0 s end.

(** A GEOS text, up to the first zero: a printable character stands for itself,
    except quotes and the backslash; anything else is shown by an escape sequence. *)
Definition shows_byte (b : nat) (part : list N) : Prop :=
  if (32 <=? b) && (b <=? 126) && negb (b =? 34) && negb (b =? 39) && negb (b =? 92) then part = [N.of_nat b]
  else head part = Some 92%N /\ 2 <= length part.
Definition shows_string (bytes : list nat) (text : list N) : Prop :=
  exists parts, text = concat parts /\ Forall2 shows_byte (up_to_zero bytes) parts.

(** The names of the GEOS file types and structures, by their codes. *)
Definition type_names : list (list N) :=
  List.map chars ["Non-GEOS"; "BASIC"; "Assembler"; "Data file"; "System File"; "Desk Accessory"; "Application"; "Application Data"; "Font File";
    "Printer Driver"; "Input Driver"; "Disk Driver"; "System Boot File"; "Temporary"; "Auto-Execute File"]%string.
Definition structure_names : list (list N) := List.map chars ["Sequential"; "VLIR"]%string.
Definition shows_code (names : list (list N)) (code : nat) (text : list N) : Prop :=
  match names !! code with
  | Some name => text = name
  | None => exists h, text = chars "Unknown(0x" ++ h ++ chars ")" /\ length h = 2 /\ hexadecimal h = Some (N.of_nat code)
  end.

(** The six lines of text beside the icon of an info block, from its 256 bytes. *)
Definition word (b : list nat) (i : nat) : N := N.of_nat (b !!! i + 256 * (b !!! S i)).
Definition shows_address (n : N) (text : list N) : Prop := length text = 4 /\ hexadecimal text = Some n.
Definition shows_info (b : list nat) (texts : list (list N)) : Prop :=
  exists type structure load last start class author application description,
    texts = [chars "Type: " ++ type ++ chars " (" ++ structure ++ chars ")";
             chars "Program addresses: load=0x" ++ load ++ chars " end=0x" ++ last ++ chars " start=0x" ++ start;
             chars "Class: " ++ class; chars "Author: " ++ author; chars "Application: " ++ application; chars "Description: " ++ description]
    /\ shows_code type_names (b !!! 69) type /\ shows_code structure_names (b !!! 70) structure
    /\ shows_address (word b 71) load /\ shows_address (word b 73) last /\ shows_address (word b 75) start
    /\ shows_string (slice 77 20 b) class /\ shows_string (slice 97 20 b) author
    /\ shows_string (slice 117 20 b) application /\ shows_string (slice 160 96 b) description.

(** The first line of a listing: the name of the disk, its id and its version, and
    on a GEOS disk the GEOS identifier in parentheses. *)
Definition disk_line (h : header) (line : list N) : Prop :=
  exists suffix, line = chars "0 """ ++ petscii_display (h_disk_name h) ++ chars """ " ++ petscii_display [fst (h_disk_id h); snd (h_disk_id h)]
      ++ chars " " ++ petscii_display [h_directory_dos_version h; h_directory_format_type h] ++ suffix
    /\ match h_geos h with
       | None => suffix = []
       | Some g => exists id, suffix = chars " (" ++ id ++ chars ")" /\ shows_string (gh_id g) id
       end.

(** Sectors: [(track,sector)], and several with spaces between them. *)
Definition shows_location (l : location) (text : list N) : Prop :=
  exists a b, text = chars "(" ++ a ++ chars "," ++ b ++ chars ")" /\ decimal a = Some (N.of_nat (fst l)) /\ decimal b = Some (N.of_nat (snd l)).
Fixpoint spaced (parts : list (list N)) : list N :=
  match parts with
  | [] => []
  | [p] => p
  | p :: ps => p ++ [32%N] ++ spaced ps
  end.
Definition shows_locations (ls : list location) (text : list N) : Prop :=
  exists parts, text = spaced parts /\ Forall2 shows_location ls parts.

(** The kind of a file at the end of its line. *)
Definition two_digits (n : nat) (text : list N) : Prop := 2 <= length text /\ decimal text = Some (N.of_nat n).
Definition shows_extra (x : extra) (text : list N) : Prop :=
  match x with
  | XLinear _ => text = chars "REGULAR"
  | XRelative side len _ =>
      exists l n, text = chars "REL(side=" ++ l ++ chars " rec_len=" ++ n ++ chars ")" /\ shows_location side l /\ decimal n = Some (N.of_nat len)
  | XGEOS _ s t year month day hour minute =>
      exists structure type yy mm dd hh mi,
        text = chars "GEOS(" ++ structure ++ chars ", " ++ type ++ chars ", "
               ++ yy ++ chars "-" ++ mm ++ chars "-" ++ dd ++ chars "-" ++ hh ++ chars ":" ++ mi ++ chars ")"
        /\ (exists code, structure_from_byte code = s /\ shows_code structure_names code structure)
        /\ (exists code, geos_type_from_byte code = t /\ shows_code type_names code type)
        /\ decimal yy = Some (1900 + N.of_nat year)%N
        /\ two_digits month mm /\ two_digits day dd /\ two_digits hour hh /\ two_digits minute mi
  end.
Definition verbose_line (e : dirent) (line : list N) : Prop :=
  exists plain kind border, line = plain ++ [32%N] ++ kind ++ border
    /\ file_line (set_border false e) plain /\ shows_extra (de_extra e) kind /\ border = if de_border e then chars " (GEOS border)" else [].

(** The place of a directory entry: [(track,sector@0xoffset)]. *)
Definition shows_position (p : position) (text : list N) : Prop :=
  exists a b c, text = chars "(" ++ a ++ chars "," ++ b ++ chars "@0x" ++ c ++ chars ")"
    /\ decimal a = Some (N.of_nat (fst (p_loc p))) /\ decimal b = Some (N.of_nat (snd (p_loc p)))
    /\ length c = 2 /\ (p_off p < 256 -> hexadecimal c = Some (N.of_nat (p_off p))).

(** ** The lines under a file, with two or more -v flags; [v] is true from the third on *)

Definition position_lines (e : dirent) (ls : list (list N)) : Prop :=
  match de_pos e with
  | Some p => exists text, ls = [chars "Directory position: " ++ text] /\ shows_position p text
  | None => ls = []
  end.
Definition sector_line (label : list N) (locs : list location) (line : list N) : Prop :=
  exists text, line = label ++ text /\ shows_locations locs text.

(** The records before position [n] are shown: [n] is just after the last record
    that is present, or after all places when none is. *)
Definition shown_records (records : list (option location)) (n : nat) : Prop :=
  (exists l, 0 < n /\ records !! (n - 1) = Some (Some l) /\ forall i l', n <= i -> records !! i <> Some (Some l'))
  \/ (n = length records /\ forall i l', records !! i <> Some (Some l')).
Definition record_line (d : dev) (records : list (option location)) (i : nat) (line : list N) : Prop :=
  exists number locs, decimal number = Some (N.of_nat i)
    /\ match records !! i with
       | Some (Some l) => chain_locations d l = Ok locs
       | _ => locs = []
       end
    /\ sector_line (chars "Record " ++ number ++ chars " sectors: ") locs line.
Definition vlir_lines (v : bool) (d : dev) (e : dirent) (records : list (option location)) (ls : list (list N)) : Prop :=
  exists n, shown_records records n
    /\ if v then
         exists place lines rest, ls = (chars "VLIR record sector: " ++ place) :: lines ++ rest
           /\ shows_location (de_first e) place
           /\ length lines = n /\ (forall i line, lines !! i = Some line -> record_line d records i line)
           /\ if n <? length records
              then exists number, rest = [number ++ chars " unavailable records follow..."] /\ decimal number = Some (N.of_nat (length records - n))
              else rest = []
       else exists number, ls = [chars "VLIR records: " ++ number] /\ decimal number = Some (N.of_nat n).
Definition info_part (d : dev) (e : dirent) (ls : list (list N)) : Prop :=
  match entry_info_location e with
  | Ok (Some l) => exists b texts, sector d l = Ok b /\ shows_info b texts
      /\ ls = chars "GEOS info block:" :: map (fun k => icon_row (slice 5 63 b) k ++ [32%N] ++ nth k texts []) (seq 0 11)
  | _ => ls = []
  end.
Definition chain_line (d : dev) (e : dirent) (line : list N) : Prop :=
  exists locs, chain_locations d (de_first e) = Ok locs /\ sector_line (chars "Occupied sectors: ") locs line.
Definition details (v : bool) (d : dev) (f : file) (ls : list (list N)) : Prop :=
  match f with
  | FLinear _ e =>
      if v then exists pos line, ls = pos ++ [line] /\ position_lines e pos /\ chain_line d e line else ls = []
  | FRelative f =>
      if v then exists pos data side, ls = pos ++ [data; side] /\ position_lines (rf_entry f) pos
        /\ sector_line (chars "Data sectors: ") (rf_data_sectors f) data /\ sector_line (chars "Side sectors: ") (rf_side_sectors f) side
      else ls = []
  | FGEOSSequential f | FGEOSVLIR f =>
      exists pos body info, ls = pos ++ body ++ info
        /\ (if v then position_lines (gf_entry f) pos else pos = [])
        /\ match gf_vlir f with
           | Some records => vlir_lines v d (gf_entry f) records body
           | None => if v then exists line, body = [line] /\ chain_line d (gf_entry f) line else body = []
           end
        /\ info_part d (gf_entry f) info
  end.
(** The lines about one file: its own, those of the file found under its name, and an empty one. *)
Definition file_block (v : bool) (t : disk_type) (d : dev) (e : dirent) (ls : list (list N)) : Prop :=
  exists f line more, open_file (tool_open t false d) (de_name e) = Ok f
    /\ ls = line :: more ++ [[]] /\ verbose_line e line /\ details v (with_mode false d) f more.

(** Everything that has to be read to print those lines can be read. *)
Definition chain_readable (d : dev) (l : location) : Prop := exists locs, chain_locations d l = Ok locs.
Definition details_readable (v : bool) (d : dev) (f : file) : Prop :=
  match f with
  | FLinear _ e => v = true -> chain_readable d (de_first e)
  | FRelative _ => True
  | FGEOSSequential f | FGEOSVLIR f =>
      (v = true -> match gf_vlir f with
                   | Some records => forall i l, records !! i = Some (Some l) -> chain_readable d l
                   | None => chain_readable d (de_first (gf_entry f))
                   end)
      /\ match entry_info_location (gf_entry f) with
         | Ok (Some l) => exists b, sector d l = Ok b
         | Ok None => True
         | _ => False
         end
  end.

(** ** The defects that "cdisk validate" reports; the texts of the disk errors are not described *)
Definition shows_name (name : list nat) (text : list N) : Prop :=
  text = chars """" ++ concat (map (fun c => if (c =? 34)%N then chars "\""" else [c]) (petscii_display name)) ++ chars """".
Definition shows_defect (error_text : disk_error -> list N) (v : validation_error) (text : list N) : Prop :=
  match v with
  | VSystemSectorNotAllocated l => exists a, text = chars "System sector not allocated: " ++ a /\ shows_location l a
  | VSectorMisallocated l => exists a, text = chars "Sector misallocated: " ++ a /\ shows_location l a
  | VSectorMisoccupied l n =>
      exists a b, text = chars "Sector " ++ a ++ chars " misoccupied by file: " ++ b /\ shows_location l a /\ shows_name n b
  | VSectorOveroccupied l n1 n2 =>
      exists a b c, text = chars "Sector " ++ a ++ chars " occupied by multiple files, including at least: " ++ b ++ chars " " ++ c
        /\ shows_location l a /\ shows_name n1 b /\ shows_name n2 c
  | VFileScanError e n => exists b, text = chars "Error scanning " ++ b ++ chars ": " ++ error_text e /\ shows_name n b
  end.

(** ** Hex dumps *)

(** A row: the offset, the bytes in hexadecimal with a space after each, room
    for those missing of 16, and the bytes as characters, a dot for what is not printable. *)
Definition shows_cell (b : nat) (text : list N) : Prop :=
  exists x, text = x ++ [32%N] /\ length x = 2 /\ hexadecimal x = Some (N.of_nat b).
Definition dump_row (prefix : list nat) (offset : nat) (row : list nat) (line : list N) : Prop :=
  exists o cells, line = map N.of_nat prefix ++ o ++ chars ": " ++ concat cells ++ repeat 32%N (3 * (16 - length row))
      ++ map (fun b => if (32 <=? b) && (b <=? 126) then N.of_nat b else 46%N) row
    /\ 4 <= length o /\ hexadecimal o = Some (N.of_nat offset) /\ Forall2 shows_cell row cells.
Definition dump_rows (prefix : list nat) (bytes : list nat) (ls : list (list N)) : Prop :=
  match bytes with
  | [] => ls = [map N.of_nat prefix ++ chars "0000: "]
  | _ => length ls = (length bytes + 15) / 16
      /\ forall i line, ls !! i = Some line -> dump_row prefix (16 * i) (slice (16 * i) 16 bytes) line
  end.

(** "cdisk dump": each sector after an empty line and a line with its number, and
    then the error table, if the image has one, one line for each track. *)
Definition sector_dump (d : dev) (l : location) (ls : list (list N)) : Prop :=
  exists a c rows b, ls = [] :: (chars "track " ++ a ++ chars " sector " ++ c) :: rows
    /\ two_digits (fst l) a /\ two_digits (snd l) c /\ sector d l = Ok b /\ dump_rows [] b rows.
Definition error_bytes (t : disk_type) (d : dev) (track : nat) : list nat :=
  slice (length (all_sectors t (track - 1))) (spec_sectors t track) (d_etable d).
Definition error_row_line (t : disk_type) (d : dev) (track : nat) (line : list N) : Prop :=
  exists a cells, line = chars "track " ++ a ++ chars ": " ++ concat cells
    /\ two_digits track a /\ Forall2 shows_cell (error_bytes t d track) cells.
Definition error_dump (t : disk_type) (d : dev) (ls : list (list N)) : Prop :=
  if g_errors (d_geom d)
  then exists rows, ls = [] :: chars "Error table:" :: rows /\ Forall2 (error_row_line t d) (seq 1 (g_tracks (d_geom d))) rows
  else ls = [].

(** "cdisk dump" of a file: its name, and its records with their numbers. *)
Definition record_dump (i : nat) (r : list nat) (ls : list (list N)) : Prop :=
  exists a rows, ls = (chars "Record: " ++ a) :: rows /\ decimal a = Some (N.of_nat i) /\ dump_rows [] r rows.
