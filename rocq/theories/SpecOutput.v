(** What the text shown to the user says. *)
From Verif Require Import Base Layout Block Petscii GeosTypes Bam DirEntry Header World GeosFile File Validate Spec SpecText SpecBam.

(** Reading a number in decimal; leading zeros are allowed. *)
Definition digit (c : N) : option N := if ((48 <=? c) && (c <=? 57))%N then Some (c - 48)%N else None.
Fixpoint read_decimal (acc : N) (s : list N) : option N :=
  match s with
  | [] => Some acc
  | c :: s => match digit c with Some v => read_decimal (acc * 10 + v)%N s | None => None end
  end.
Definition decimal (s : list N) : option N := match s with [] => None | _ => read_decimal 0 s end.

(** Text on one line. *)
Definition one_line (s : list N) : Prop := ~ In 10%N s.

(** What a line of the directory listing shows of an entry: the number of
    blocks, the characters of the name, the type (all unknown types look the
    same), and the flags. *)
Definition shown_type (t : file_type) : file_type := match t with FUnknown _ => FUnknown 0 | t => t end.
Definition shown_entry (e : dirent) : nat * list N * file_type * (bool * bool * bool * bool) :=
  (de_size e, petscii_display (de_name e), shown_type (fa_type (de_attr e)),
   (fa_closed (de_attr e), fa_locked (de_attr e), fa_replace (de_attr e), de_border e)).

(** What the verbose listing shows beside that: the kind of file, with its record
    length and side sector, or its GEOS structure, type and date. *)
Definition shown_extra (x : extra) : extra :=
  match x with
  | XLinear _ => XLinear []
  | XRelative side len _ => XRelative side len []
  | XGEOS _ s t y mo d h mi => XGEOS (0, 0) s t y mo d h mi
  end.

(** What a line of the validation report shows. *)
Definition shown_defect (v : validation_error) : validation_error * list (list N) :=
  match v with
  | VSystemSectorNotAllocated l => (VSystemSectorNotAllocated l, [])
  | VSectorMisallocated l => (VSectorMisallocated l, [])
  | VSectorMisoccupied l n => (VSectorMisoccupied l [], [petscii_display n])
  | VSectorOveroccupied l n1 n2 => (VSectorOveroccupied l [] [], [petscii_display n1; petscii_display n2])
  | VFileScanError e n => (VFileScanError e [], [petscii_display n])
  end.

(** Lines of text, each ended by a newline. *)
Definition text_of (ls : list (list N)) : list N := concat (map (fun l => l ++ [10%N]) ls).

(** What the first line of the directory listing shows of the header: the
    characters of the name, of the id, and of the version, and the bytes of the
    GEOS identifier up to the first zero. *)
Fixpoint up_to_zero (s : list nat) : list nat :=
  match s with
  | [] => []
  | 0 :: _ => []
  | b :: s => b :: up_to_zero s
  end.
Definition shown_header (h : header) : list N * list N * list N * option (list nat) :=
  (petscii_display (h_disk_name h), petscii_display [fst (h_disk_id h); snd (h_disk_id h)],
   petscii_display [h_directory_dos_version h; h_directory_format_type h],
   match h_geos h with Some g => Some (up_to_zero (gh_id g)) | None => None end).

(** A line of the block map shows the number of the track, how many of its
    sectors are recorded as free, how many there are, and for each of them a dot
    when it is free or an x when it is not: [tNN: [free/total] ....xx..]. *)
Definition map_line (t : disk_type) (b : bam) (track : nat) (line : list N) : Prop :=
  exists number free total dots,
    line = ([116] ++ number ++ [58; 32; 91] ++ free ++ [47] ++ total ++ [93; 32] ++ dots)%N
    /\ decimal number = Some (N.of_nat track)
    /\ decimal free = Some (N.of_nat (e_free (track_entry b track)))
    /\ decimal total = Some (N.of_nat (spec_sectors t track))
    /\ length dots = spec_sectors t track
    /\ forall s, s < spec_sectors t track ->
         is_free b (track, s) /\ dots !! s = Some 46%N \/ ~ is_free b (track, s) /\ dots !! s = Some 120%N.

(** The records of a file, when all of them can be read. *)
Definition all_records (d : dev) (f : file) (rs : list (list nat)) : Prop :=
  length rs = file_record_count f /\ forall i r, rs !! i = Some r -> file_record d f i = Ok r.

(** What is shown of a GEOS info block: everything but the file attributes and
    the reserved bytes; texts up to the first zero. *)
Definition shown_info (i : geos_info) :=
  (gi_icon i, gi_type i, gi_structure i, (gi_load i, gi_end i, gi_start i),
   [up_to_zero (gi_class i); up_to_zero (gi_author i); up_to_zero (gi_application i); up_to_zero (gi_description i)]).

(** The k-th of the 11 rows of an icon: 12 block elements. *)
Definition icon_row (data : list nat) (k : nat) : list N :=
  map (fun c => quadrants (pixel data (2 * c) (2 * k)) (pixel data (2 * c + 1) (2 * k))
                          (pixel data (2 * c) (2 * k + 1)) (pixel data (2 * c + 1) (2 * k + 1))) (seq 0 12).

(** The layout of the directory listing. The first line: [0 "NAME" ID VERSION], and
    on a GEOS disk the GEOS identifier in parentheses. *)
Definition spaces (s : list N) : Prop := Forall (eq 32%N) s.
Definition first_line (h : header) (line : list N) : Prop :=
  exists suffix,
    line = ([48; 32; 34] ++ petscii_display (h_disk_name h) ++ [34; 32] ++ petscii_display [fst (h_disk_id h); snd (h_disk_id h)] ++ [32]
            ++ petscii_display [h_directory_dos_version h; h_directory_format_type h] ++ suffix)%N
    /\ match h_geos h with
       | None => suffix = []
       | Some _ => exists id, suffix = ([32; 40] ++ id ++ [41])%N
       end.

(** A line for a file: the number of blocks; from column 5 on the name in quotes;
    from column 23 on a star for a file that was not closed, the three letters of
    its type, and the marks of a locked file and of one that is being replaced. *)
Definition type_letters (t : file_type) : list N :=
  match t with
  | DEL => [100; 101; 108] | SEQ => [115; 101; 113] | PRG => [112; 114; 103]
  | USR => [117; 115; 114] | REL => [114; 101; 108] | FUnknown _ => [117; 110; 107]
  end%N.
Definition marks (a : attributes) : list N :=
  match fa_locked a, fa_replace a with
  | true, false => [60] | false, true => [64] | true, true => [60; 64] | false, false => [32]
  end%N.
Definition file_line (e : dirent) (line : list N) : Prop :=
  exists number gap gap' border,
    line = (number ++ gap ++ [34] ++ petscii_display (de_name e) ++ [34] ++ gap'
            ++ [if fa_closed (de_attr e) then 32 else 42] ++ type_letters (fa_type (de_attr e)) ++ marks (de_attr e) ++ border)%N
    /\ decimal number = Some (N.of_nat (de_size e)) /\ spaces gap /\ spaces gap'
    /\ length number + length gap = Nat.max 5 (length number + 1)
    /\ length (de_name e) + length gap' = 16
    /\ (border = [] <-> de_border e = false).
