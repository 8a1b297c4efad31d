(** Properties of the text that the library and cdisk print: C61 - C63, C66, C67. *)
From Coq Require Import Ascii String.
From Verif Require Import Base Layout Block Bam Format Petscii Sprite Hexdump GeosTypes DirEntry Header World Chain Directory Writer Rel GeosFile File Validate
  Spec SpecText SpecBam SpecFiles SpecDisk CodecMore Session Cdisk Text SpecOutput DemoImages DemoGeos Demo SpecTool DemoTool
  OutputProofs ListingProofs DumpProofs ReportProofs.
Local Open Scope list_scope.

(** C61: "cdisk dir" prints one line for the disk, one for each file in directory
    order, and one with the number of free blocks. *)
Theorem C61_layout : forall t d h es n,
  dev_shape t d -> holds_bytes d ->
  w_header (open_world t d) = Some h -> w_directory (open_world t d) = Ok es -> w_blocks_free (open_world t d) = Ok n ->
  exists first lines number,
    print_dir t 0 d [] = (text_of (first :: lines ++ [number ++ str " blocks free."]), Ok tt)
    /\ first_line h first /\ Forall2 file_line es lines /\ decimal number = Some (N.of_nat n).
Proof. exact listing_layout. Qed.
Print Assumptions C61_layout.

(** The listings of two disks, both plain or both verbose, are the same text if
    and only if everything they show is the same. *)
Theorem C61_faithful : forall t v d d' h h' es es' n n',
  v <= 1 -> dev_shape t d -> holds_bytes d -> dev_shape t d' -> holds_bytes d' ->
  w_header (open_world t d) = Some h -> w_directory (open_world t d) = Ok es -> w_blocks_free (open_world t d) = Ok n ->
  w_header (open_world t d') = Some h' -> w_directory (open_world t d') = Ok es' -> w_blocks_free (open_world t d') = Ok n' ->
  exists out out', print_dir t v d [] = (out, Ok tt) /\ print_dir t v d' [] = (out', Ok tt)
    /\ (out = out' <->
        shown_header h = shown_header h' /\ map shown_entry es = map shown_entry es'
        /\ (v = 1 -> map (fun e => shown_extra (de_extra e)) es = map (fun e => shown_extra (de_extra e)) es') /\ n = n').
Proof. exact listing_faithful. Qed.
Print Assumptions C61_faithful.

(** It succeeds on exactly the images with a readable header and directory, and
    never panics. *)
Theorem C61_outcome : forall t v d,
  v <= 1 -> dev_shape t d ->
  exists out r, print_dir t v d [] = (out, r)
    /\ (r = Ok tt <-> (exists h, w_header (open_world t d) = Some h) /\ exists es, w_directory (open_world t d) = Ok es)
    /\ (r = Ok tt \/ exists k, r = Err k).
Proof. exact listing_outcome. Qed.
Print Assumptions C61_outcome.
Example C61_example : dev_shape D64 geos_dev /\ holds_bytes geos_dev
  /\ print_dir D64 0 (w_dev (s_world demo_s2)) []
     = (text_of [str "0 ""demo" ++ repeat 160%N 12 ++ str """ 01 2a";
                 str "2    ""a""                prg "; str "1    ""bb""               seq "; str "661 blocks free."], Ok tt)
  /\ print_dir D64 1 geos_dev []
     = (text_of [str "0 """ ++ repeat 65533%N 16 ++ str """ " ++ repeat 65533%N 2 ++ str " " ++ repeat 65533%N 2;
                 str "2    ""s""                usr  GEOS(Sequential, Data file, 1999-01-02-03:04)";
                 str "5    ""v""                usr  GEOS(VLIR, Application Data, 1999-01-02-03:04)"; str "0 blocks free."], Ok tt).
Proof. split; [exact geos_shape|]. split; [exact geos_bytes|]. vm_compute. by split. Qed.

(** C62: "cdisk bam show" prints one line for each track and the number of free blocks. *)
Theorem C62_map : forall t d b,
  dev_shape t d -> current_map (open_world t d) = Ok b ->
  exists ls number total, cmd_bam_show t d [] = (text_of (ls ++ [number ++ str " blocks free."]), Ok tt)
    /\ length ls = spec_tracks t
    /\ (forall k, 1 <= k <= spec_tracks t -> exists line, ls !! (k - 1) = Some line /\ map_line t b k line)
    /\ decimal number = Some (N.of_nat total) /\ w_blocks_free (open_world t d) = Ok total.
Proof. exact bam_show_text. Qed.
Print Assumptions C62_map.

Theorem C62_unformatted : forall t d,
  dev_shape t d -> w_header (open_world t d) = None -> exists k, cmd_bam_show t d [] = ([], Err k).
Proof. exact bam_show_unformatted. Qed.
Print Assumptions C62_unformatted.
Example C62_example : exists b, dev_shape D71 double_dev /\ current_map (open_world D71 double_dev) = Ok b
  /\ (let ls := lines (fst (cmd_bam_show D71 double_dev [])) in
      ls !! 0 = Some (str "t01: [21/21] .....................") /\ ls !! 17 = Some (str "t18: [17/19] xx.................")
      /\ ls !! 70 = Some (str "1328 blocks free.") /\ length ls = 71)
  /\ dev_shape D71 (blank_dev D71 true) /\ w_header (open_world D71 (blank_dev D71 true)) = None.
Proof.
  eexists. split; [apply double_shape|]. split; [vm_compute; reflexivity|]. split; [vm_compute; repeat split; reflexivity|].
  split; [apply blank_dev_shape|vm_compute; reflexivity].
Qed.

(** C63: two images have the same "cdisk dump" if and only if they are the same,
    sector by sector and with their error tables. *)
Theorem C63_image : forall t d d',
  dev_shape t d -> dev_shape t d' -> holds_bytes d -> holds_bytes d' -> Forall is_byte (d_etable d) -> Forall is_byte (d_etable d') ->
  exists out out', cmd_dump t None d [] = (out, Ok tt) /\ cmd_dump t None d' [] = (out', Ok tt)
    /\ (out = out' <-> d_geom d = d_geom d' /\ d_blocks d = d_blocks d' /\ d_etable d = d_etable d').
Proof. exact dump_image_faithful. Qed.
Print Assumptions C63_image.

(** Two files whose records can be read have the same dump if and only if their
    names look the same and their records are the same. *)
Theorem C63_file : forall t d d' name name' f f' rs rs',
  dev_shape t d -> dev_shape t d' ->
  open_file (tool_open t true d) (from_str_lossy name) = Ok f -> open_file (tool_open t true d') (from_str_lossy name') = Ok f' ->
  all_records (with_mode true d) f rs -> all_records (with_mode true d') f' rs' -> Forall (Forall is_byte) rs -> Forall (Forall is_byte) rs' ->
  exists out out', cmd_dump t (Some name) d [] = (out, Ok tt) /\ cmd_dump t (Some name') d' [] = (out', Ok tt)
    /\ (out = out' <-> petscii_display (de_name (file_entry f)) = petscii_display (de_name (file_entry f')) /\ rs = rs').
Proof. exact dump_named_faithful. Qed.
Print Assumptions C63_file.
Example C63_example : dev_shape D64 rel_dev /\ holds_bytes rel_dev /\ d_etable rel_dev = []
  /\ exists f rs, open_file (tool_open D64 true rel_dev) (from_str_lossy [114%N]) = Ok f /\ all_records (with_mode true rel_dev) f rs
     /\ Forall (Forall is_byte) rs /\ rs = [repeat 3 100; repeat 3 100; repeat 3 54 ++ repeat 4 46].
Proof.
  split; [exact rel_shape|]. split; [exact rel_bytes|]. split; [reflexivity|]. eexists _, _. split; [vm_compute; reflexivity|].
  split; [|split; [|reflexivity]].
  - split; [vm_compute; reflexivity|]. intros [|[|[|i]]] r Hr; [| | |discriminate Hr]; injection Hr as <-; vm_compute; reflexivity.
  - apply bytes_checked. vm_compute. reflexivity.
Qed.

(** C66: an info block is shown as 11 lines, the k-th with the k-th row of the
    icon and, in the first six, a line of text. *)
Theorem C66_layout : forall b,
  length b = 256 -> Forall is_byte b ->
  exists texts, length texts = 6 /\ Forall one_line texts
    /\ show_info (info_from_bytes b) = text_of (map (fun k => icon_row (slice 5 63 b) k ++ [32%N] ++ nth k texts []) (seq 0 11)).
Proof. exact info_text. Qed.
Print Assumptions C66_layout.

(** Two info blocks look the same if and only if everything shown is the same. *)
Theorem C66_faithful : forall b b',
  length b = 256 -> length b' = 256 -> Forall is_byte b -> Forall is_byte b' ->
  show_info (info_from_bytes b) = show_info (info_from_bytes b') <-> shown_info (info_from_bytes b) = shown_info (info_from_bytes b').
Proof. exact info_faithful. Qed.
Print Assumptions C66_faithful.
Example C66_example : exists rest,
  show_info (info_from_bytes ([0; 255; 3; 21; 191] ++ repeat 5 63 ++ [131; 6; 1; 0; 4; 255; 31; 0; 4] ++ repeat 65 20 ++ repeat 0 159))
  = (icon_row (repeat 5 63) 0 ++ str " Type: Application (VLIR)") ++ [10%N]
    ++ (icon_row (repeat 5 63) 1 ++ str " Program addresses: load=0x0400 end=0x1fff start=0x0400") ++ [10%N]
    ++ (icon_row (repeat 5 63) 2 ++ str " Class: AAAAAAAAAAAAAAAAAAAA") ++ [10%N] ++ rest.
Proof. eexists. vm_compute. reflexivity. Qed.

(** C67: "cdisk validate" succeeds on exactly the disks without a defect, and two
    reports are the same text if and only if they show the same defects in the
    same order. *)
Theorem C67_report : forall t d d' vs vs',
  cmd_validate t d = Ok vs -> cmd_validate t d' = Ok vs' ->
  exists out out' ok, print_validate t d [] = (out, Ok ok) /\ (ok = true <-> vs = [])
    /\ fst (print_validate t d' []) = out' /\ (out = out' <-> map shown_defect vs = map shown_defect vs').
Proof. exact report_faithful. Qed.
Print Assumptions C67_report.

Theorem C67_message : forall v v', show_validation v = show_validation v' <-> shown_defect v = shown_defect v'.
Proof. exact message_faithful. Qed.
Print Assumptions C67_message.
Example C67_example : print_validate D64 (w_dev (s_world demo_s2)) [] = (text_of [str "Disk validates successfully."], Ok true)
  /\ show_validation (VSectorOveroccupied (17, 0) [65] [66; 34]) = str "Sector (17,0) occupied by multiple files, including at least: ""a"" ""b\"""""
  /\ snd (print_validate D64 geos_dev []) = Ok false
  /\ take 27 (fst (print_validate D64 geos_dev [])) = str "Sector misallocated: (1,0)" ++ [10%N].
Proof. repeat (split; [vm_compute; reflexivity|]). vm_compute. reflexivity. Qed.
