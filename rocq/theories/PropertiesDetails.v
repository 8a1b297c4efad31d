(** Properties of the text of hex dumps, of "cdisk dump", of the report of "cdisk
    validate" and of the verbose listings: C49, C63, C67, C85, C86. *)
From Coq Require Import Ascii String.
From Verif Require Import Base Layout Block Bam Format Petscii Sprite Hexdump GeosTypes DirEntry Header World Chain Directory Writer Rel GeosFile File Validate
  Spec SpecText SpecBam SpecFiles SpecDisk Session Cdisk Text SpecOutput SpecDetails DemoImages DemoGeos Demo
  DumpProofs DetailsProofs.
Local Open Scope list_scope.

(** C49: a hex dump shows 16 bytes on each row, with their offset, in hexadecimal
    and as characters. *)
Theorem C49_layout : forall prefix buffer,
  Forall is_byte buffer ->
  exists rows, map N.of_nat (hexdump prefix buffer) ++ [10%N] = text_of rows /\ dump_rows prefix buffer rows.
Proof. exact hexdump_shows. Qed.
Print Assumptions C49_layout.
Example C49_layout_example : map N.of_nat (hexdump [62; 32] (seq 60 18)) ++ [10%N]
  = text_of [str "> 0000: 3c 3d 3e 3f 40 41 42 43 44 45 46 47 48 49 4a 4b <=>?@ABCDEFGHIJK";
             str "> 0010: 4c 4d                                           LM"].
Proof. vm_compute. reflexivity. Qed.

(** C63: "cdisk dump" shows every sector under its number, in order, and the error table. *)
Theorem C63_layout : forall t d,
  dev_shape t d -> holds_bytes d -> Forall is_byte (d_etable d) ->
  exists blocks errors, cmd_dump t None d [] = (text_of (concat blocks ++ errors), Ok tt)
    /\ Forall2 (sector_dump d) (all_sectors t (g_tracks (d_geom d))) blocks /\ error_dump t d errors.
Proof. exact dump_shows. Qed.
Print Assumptions C63_layout.

(** The dump of a file shows its name and its records under their numbers. *)
Theorem C63_file_layout : forall t d name f rs,
  dev_shape t d -> open_file (tool_open t true d) (from_str_lossy name) = Ok f ->
  all_records (with_mode true d) f rs -> Forall (Forall is_byte) rs ->
  exists blocks, cmd_dump t (Some name) d []
      = (text_of ((chars "Filename: """ ++ petscii_display (de_name (file_entry f)) ++ chars """") :: concat blocks), Ok tt)
    /\ length blocks = length rs /\ forall j r ls, rs !! j = Some r -> blocks !! j = Some ls -> record_dump j r ls.
Proof. exact file_dump_shows. Qed.
Print Assumptions C63_file_layout.
Example C63_layout_example : dev_shape D64 rel_dev /\ holds_bytes rel_dev /\ d_etable rel_dev = []
  /\ exists f rs, open_file (tool_open D64 true rel_dev) (from_str_lossy [114%N]) = Ok f /\ all_records (with_mode true rel_dev) f rs
     /\ Forall (Forall is_byte) rs /\ length rs = 3.
Proof.
  split; [exact rel_shape|]. split; [exact rel_bytes|]. split; [reflexivity|]. eexists _, [repeat 3 100; repeat 3 100; repeat 3 54 ++ repeat 4 46].
  split; [vm_compute; reflexivity|]. split; [|split; [|reflexivity]].
  - split; [vm_compute; reflexivity|]. intros [|[|[|i]]] r Hr; [| | |discriminate Hr]; injection Hr as <-; vm_compute; reflexivity.
  - apply bytes_checked. vm_compute. reflexivity.
Qed.

(** C67: "cdisk validate" prints one line for each defect, or that there is none. *)
Theorem C67_text : forall t d vs,
  cmd_validate t d = Ok vs ->
  (vs = [] -> print_validate t d [] = (text_of [str "Disk validates successfully."], Ok true))
  /\ (vs <> [] -> exists lines, print_validate t d [] = (text_of lines, Ok false) /\ Forall2 (shows_defect show_error) vs lines).
Proof. exact report_text. Qed.
Print Assumptions C67_text.
Example C67_text_example : cmd_validate D64 (w_dev (s_world demo_s2)) = Ok []
  /\ exists l vs, cmd_validate D64 geos_dev = Ok (VSectorMisallocated l :: vs).
Proof. split; [vm_compute; reflexivity|]. eexists _, _. vm_compute. reflexivity. Qed.

(** C85: the six texts beside the icon show the fields of the info block under
    their names. *)
Theorem C85_info : forall b,
  length b = 256 -> Forall is_byte b ->
  exists texts, shows_info b texts
    /\ show_info (info_from_bytes b) = text_of (map (fun k => icon_row (slice 5 63 b) k ++ [32%N] ++ nth k texts []) (seq 0 11)).
Proof. exact info_shown. Qed.
Print Assumptions C85_info.

(** With one -v flag the line of each file also shows its kind. *)
Theorem C85_verbose : forall t d h es n,
  dev_shape t d -> holds_bytes d ->
  w_header (open_world t d) = Some h -> w_directory (open_world t d) = Ok es -> w_blocks_free (open_world t d) = Ok n ->
  exists first lines number,
    print_dir t 1 d [] = (text_of (first :: lines ++ [number ++ str " blocks free."]), Ok tt)
    /\ disk_line h first /\ Forall2 verbose_line es lines /\ decimal number = Some (N.of_nat n).
Proof. exact verbose_layout. Qed.
Print Assumptions C85_verbose.
Example C85_example : exists h es, w_header (open_world D64 geos_dev) = Some h /\ w_directory (open_world D64 geos_dev) = Ok es
  /\ length es = 2 /\ w_blocks_free (open_world D64 geos_dev) = Ok 0.
Proof. eexists _, _. split; [vm_compute; reflexivity|]. split; [vm_compute; reflexivity|]. split; vm_compute; reflexivity. Qed.

(** C86: with two or more -v flags there follow, under each file, its details:
    the sectors it occupies, its records and its info block. *)
Theorem C86_details : forall t v d h es n out,
  2 <= v -> dev_shape t d -> holds_bytes d ->
  w_header (open_world t d) = Some h -> w_directory (open_world t d) = Ok es -> w_blocks_free (open_world t d) = Ok n ->
  print_dir t v d [] = (out, Ok tt) ->
  exists first blocks number, out = text_of (first :: concat blocks ++ [number ++ str " blocks free."])
    /\ disk_line h first /\ Forall2 (file_block (2 <? v) t d) es blocks /\ decimal number = Some (N.of_nat n).
Proof. exact details_layout. Qed.
Print Assumptions C86_details.

(** It succeeds when every file can be opened and all that is shown can be read. *)
Theorem C86_succeeds : forall t v d h es n,
  2 <= v -> dev_shape t d ->
  w_header (open_world t d) = Some h -> w_directory (open_world t d) = Ok es -> w_blocks_free (open_world t d) = Ok n ->
  (forall e, In e es -> exists f, open_file (tool_open t false d) (de_name e) = Ok f /\ details_readable (2 <? v) (with_mode false d) f) ->
  exists out, print_dir t v d [] = (out, Ok tt).
Proof. exact details_succeed. Qed.
Print Assumptions C86_succeeds.
Example C86_example :
  print_dir D64 3 (w_dev (s_world demo_s2)) []
  = (text_of [str "0 ""demo" ++ repeat 160%N 12 ++ str """ 01 2a";
              str "2    ""a""                prg  REGULAR"; str "Directory position: (18,1@0x00)"; str "Occupied sectors: (17,0) (17,1)"; [];
              str "1    ""bb""               seq  REGULAR"; str "Directory position: (18,1@0x40)"; str "Occupied sectors: (17,3)"; [];
              str "661 blocks free."], Ok tt)
  /\ snd (print_dir D64 3 geos_dev []) = Ok tt
  /\ snd (print_dir D64 2 geos_dev []) = Ok tt.
Proof. split; [vm_compute; reflexivity|]. split; vm_compute; reflexivity. Qed.
