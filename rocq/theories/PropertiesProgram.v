(** Properties of what the program cdisk shows of any image file, and of its
    "bam" command, of the files it copies out, and of the runs it refuses: C56, C87, C88, C89. *)
From Coq Require Import Ascii String.
From Verif Require Import Base Layout Image Block Bam Format Petscii GeosTypes DirEntry Header World Chain Directory Writer Rel GeosFile File Validate
  Spec SpecText SpecChain SpecBam SpecFiles SpecGeos SpecOutput SpecDisk Session Cdisk SpecTool
  Text Errors Host Main SpecHost CodecMore DumpProofs SpecDetails SpecProgram DemoImages DemoGeos DemoTool DemoHost DemoProgram
  ProgramProofs CopyOut Refused.
Local Open Scope list_scope.

(** C87: the commands that look at an image print what is in it, on any image
    file that opens, change no file and end without an error.  "cdisk dump": *)
Theorem C87_dump : forall e p h t d,
  byte_files h -> disk_open_path true p h = Good (t, d) ->
  let r := invoke e p (CDump None) h in
  r_host r = h /\ r_bytes r = [] /\ r_end r = Finished None
  /\ exists blocks errors, r_text r = text_of (concat blocks ++ errors)
     /\ Forall2 (sector_dump d) (all_sectors t (g_tracks (d_geom d))) blocks /\ error_dump t d errors.
Proof. exact program_dump. Qed.
Print Assumptions C87_dump.
Example C87_example : forall m,
  byte_files (host_with geos_dev) /\ disk_open_path m place_disk (host_with geos_dev) = Good (D64, opened_as m geos_dev).
Proof. exact host_geos. Qed.

(** "cdisk dump" of one file. *)
Theorem C87_dump_file : forall e p h t d,
  byte_files h -> forall name f rs, disk_open_path true p h = Good (t, d) ->
  open_file (tool_open t true d) (from_str_lossy name) = Ok f -> all_records (with_mode true d) f rs -> Forall (Forall is_byte) rs ->
  let r := invoke e p (CDump (Some name)) h in
  r_host r = h /\ r_bytes r = [] /\ r_end r = Finished None
  /\ exists blocks, r_text r = text_of ((chars "Filename: """ ++ petscii_display (de_name (file_entry f)) ++ chars """") :: concat blocks)
     /\ length blocks = length rs /\ forall j x ls, rs !! j = Some x -> blocks !! j = Some ls -> record_dump j x ls.
Proof. exact program_dump_file. Qed.
Print Assumptions C87_dump_file.
Example C87_dump_file_example :
  byte_files (host_with rel_dev) /\ disk_open_path true place_disk (host_with rel_dev) = Good (D64, opened_as true rel_dev)
  /\ exists f rs, open_file (tool_open D64 true (opened_as true rel_dev)) (from_str_lossy [114%N]) = Ok f
     /\ all_records (with_mode true (opened_as true rel_dev)) f rs /\ Forall (Forall is_byte) rs /\ length rs = 3.
Proof.
  split; [exact (proj1 (host_rel true))|]. split; [exact (proj2 (host_rel true))|]. eexists _, [repeat 3 100; repeat 3 100; repeat 3 54 ++ repeat 4 46].
  split; [vm_compute; reflexivity|]. split; [|split; [|reflexivity]].
  - split; [vm_compute; reflexivity|]. intros [|[|[|i]]] r Hr; [| | |discriminate Hr]; injection Hr as <-; vm_compute; reflexivity.
  - apply bytes_checked. vm_compute. reflexivity.
Qed.

(** "cdisk bam": one line for each track shows which of its sectors are free. *)
Theorem C87_map : forall e p h t d,
  byte_files h -> forall b, disk_open_path false p h = Good (t, d) -> current_map (open_world t d) = Ok b ->
  let r := invoke e p CBamShow h in
  r_host r = h /\ r_bytes r = [] /\ r_end r = Finished None
  /\ exists ls number total, r_text r = text_of (ls ++ [number ++ chars " blocks free."]) /\ length ls = spec_tracks t
     /\ (forall k, 1 <= k <= spec_tracks t -> exists line, ls !! (k - 1) = Some line /\ map_line t b k line)
     /\ decimal number = Some (N.of_nat total) /\ w_blocks_free (open_world t d) = Ok total.
Proof. exact program_map. Qed.
Print Assumptions C87_map.
Example C87_map_example : exists b, current_map (open_world D64 (opened_as false geos_dev)) = Ok b.
Proof. eexists. vm_compute. reflexivity. Qed.

(** "cdisk dir": the disk, each file on one line, and the free blocks. *)
Theorem C87_short : forall e p h t d,
  byte_files h -> forall l es n, disk_open_path false p h = Good (t, d) ->
  w_header (open_world t d) = Some l -> w_directory (open_world t d) = Ok es -> w_blocks_free (open_world t d) = Ok n ->
  let r := invoke e p (CDir 0) h in
  r_host r = h /\ r_bytes r = [] /\ r_end r = Finished None
  /\ exists first lines number, r_text r = text_of (first :: lines ++ [number ++ chars " blocks free."])
     /\ first_line l first /\ Forall2 file_line es lines /\ decimal number = Some (N.of_nat n).
Proof. exact program_short. Qed.
Print Assumptions C87_short.

(** With at most one -v flag it never panics, and it reports an error exactly if
    the header or the directory cannot be read. *)
Theorem C87_listing_ends : forall e p h t d,
  byte_files h -> forall v, v <= 1 -> disk_open_path false p h = Good (t, d) ->
  let r := invoke e p (CDir v) h in
  r_host r = h /\ r_bytes r = []
  /\ (r_end r = Finished None <-> (exists l, w_header (open_world t d) = Some l) /\ exists es, w_directory (open_world t d) = Ok es)
  /\ (r_end r = Finished None \/ exists k, r_end r = Finished (Some (to_io k))).
Proof. exact program_listing_ends. Qed.
Print Assumptions C87_listing_ends.

(** "cdisk dir -v": the disk, each file on one line, and the free blocks. *)
Theorem C87_list : forall e p h t d,
  byte_files h -> forall l es n, disk_open_path false p h = Good (t, d) ->
  w_header (open_world t d) = Some l -> w_directory (open_world t d) = Ok es -> w_blocks_free (open_world t d) = Ok n ->
  let r := invoke e p (CDir 1) h in
  r_host r = h /\ r_bytes r = [] /\ r_end r = Finished None
  /\ exists first lines number, r_text r = text_of (first :: lines ++ [number ++ chars " blocks free."])
     /\ disk_line l first /\ Forall2 verbose_line es lines /\ decimal number = Some (N.of_nat n).
Proof. exact program_list. Qed.
Print Assumptions C87_list.
Example C87_list_example : exists l es,
  w_header (open_world D64 (opened_as false geos_dev)) = Some l /\ w_directory (open_world D64 (opened_as false geos_dev)) = Ok es
  /\ length es = 2 /\ w_blocks_free (open_world D64 (opened_as false geos_dev)) = Ok 0.
Proof. eexists _, _. split; [vm_compute; reflexivity|]. split; [vm_compute; reflexivity|]. split; vm_compute; reflexivity. Qed.

(** "cdisk dir" with two or more -v flags: the details under each file as well. *)
Theorem C87_details : forall e p h t d,
  byte_files h -> forall v l es n, 2 <= v -> disk_open_path false p h = Good (t, d) ->
  w_header (open_world t d) = Some l -> w_directory (open_world t d) = Ok es -> w_blocks_free (open_world t d) = Ok n ->
  (forall x, In x es -> exists f, open_file (tool_open t false d) (de_name x) = Ok f /\ details_readable (2 <? v) (with_mode false d) f) ->
  let r := invoke e p (CDir v) h in
  r_host r = h /\ r_bytes r = [] /\ r_end r = Finished None
  /\ exists first blocks number, r_text r = text_of (first :: concat blocks ++ [number ++ chars " blocks free."])
     /\ disk_line l first /\ Forall2 (file_block (2 <? v) t d) es blocks /\ decimal number = Some (N.of_nat n).
Proof. exact program_details. Qed.
Print Assumptions C87_details.
Example C87_details_example : exists es,
  w_directory (open_world D64 (opened_as false geos_dev)) = Ok es /\ length es = 2
  /\ forall x, In x es -> exists f, open_file (tool_open D64 false (opened_as false geos_dev)) (de_name x) = Ok f
     /\ details_readable (2 <? 2) (with_mode false (opened_as false geos_dev)) f.
Proof.
  eexists. split; [vm_compute; reflexivity|]. split; [reflexivity|].
  intros x [<-|[<-|[]]]; eexists; (split; [vm_compute; reflexivity|]); (split; [discriminate|]); vm_compute; eexists; reflexivity.
Qed.

(** "cdisk validate": success if there is no defect, else one line for each and an
    error message with their number. *)
Theorem C87_validate : forall e p h t d,
  byte_files h -> forall vs, disk_open_path true p h = Good (t, d) -> cmd_validate t d = Ok vs ->
  let r := invoke e p CValidate h in
  r_host r = h /\ r_bytes r = []
  /\ (vs = [] -> r_end r = Finished None /\ r_text r = text_of [chars "Disk validates successfully."])
  /\ (vs <> [] -> exists lines number, r_text r = text_of lines /\ Forall2 (shows_defect show_error) vs lines
        /\ error_line (r_end r) = text_of [chars "Error: " ++ number ++ chars " errors found during validation."]
        /\ decimal number = Some (N.of_nat (length vs))).
Proof. exact program_validate. Qed.
Print Assumptions C87_validate.
Example C87_validate_example : exists l vs, cmd_validate D64 (opened_as true geos_dev) = Ok (VSectorMisallocated l :: vs).
Proof. eexists _, _. vm_compute. reflexivity. Qed.

(** "cdisk bam" with a track and a sector allocates or frees exactly the chosen
    sectors, in the image file alone, and nothing but the map in it is different. *)
Theorem C87_bam_edit : forall e p h t d,
  byte_files h -> forall b alloc ts ss track sec, disk_open_path true p h = Good (t, d) -> current_map (open_world t d) = Ok b ->
  track_arg ts = Some track -> sector_arg ss = Some sec ->
  (track = None -> t = D64) -> (forall l, chosen t track sec l -> bam_sector t l) ->
  let r := invoke e p (CBamEdit alloc ts ss) h in
  r_end r = Finished None /\ r_text r = [] /\ r_bytes r = [] /\ (forall q, q <> p -> r_host r q = h q)
  /\ exists d' b', disk_open_path true p (r_host r) = Good (t, d') /\ current_map (open_world t d') = Ok b'
     /\ (forall l, bam_sector t l -> chosen t track sec l -> is_free b' l <-> alloc = false)
     /\ (forall l, bam_sector t l -> ~ chosen t track sec l -> is_free b' l <-> is_free b l)
     /\ (bam_consistent t b -> bam_consistent t b')
     /\ (forall l i, ~ bam_byte t l i -> image_byte d' l i = image_byte d l i).
Proof. exact program_bam_edit. Qed.
Print Assumptions C87_bam_edit.
Example C87_bam_edit_example : track_arg (str "20") = Some (Some 20) /\ sector_arg (str "18") = Some (Some 18)
  /\ (forall l, chosen D64 (Some 20) (Some 18) l -> bam_sector D64 l)
  /\ exists b, current_map (open_world D64 (opened_as true geos_dev)) = Ok b.
Proof.
  split; [reflexivity|]. split; [reflexivity|]. split.
  - intros [tr s] [H1 H2]. cbn in H1, H2. subst. by vm_compute; repeat split; lia.
  - eexists. vm_compute. reflexivity.
Qed.

(** C88: "cdisk read" copies the data of a file to its destination, a file of the
    host or standard output, from any image file. *)
Theorem C88_read : forall e p h t d name target,
  byte_files h -> disk_open_path false p h = Good (t, d) -> default name target = dash \/ default name target <> p ->
  forall f ls, fair e -> open_file (open_world t d) (from_str_lossy name) = Ok f -> one_chain f -> sound_chain d (de_first (file_entry f)) ls ->
  let r := invoke e p (CRead name target) h in
  copied_out (default name target) (data_of d ls) h r /\ r_end r = Finished None.
Proof. exact copy_read. Qed.
Print Assumptions C88_read.
Example C88_example : fair around /\ place_copy <> place_disk
  /\ byte_files (host_with geos_dev) /\ disk_open_path false place_disk (host_with geos_dev) = Good (D64, opened_as false geos_dev)
  /\ exists f, open_file (open_world D64 (opened_as false geos_dev)) (from_str_lossy [115%N]) = Ok f
     /\ one_chain f /\ sound_chain (opened_as false geos_dev) (de_first (file_entry f)) [(17, 0)]
     /\ data_of (opened_as false geos_dev) [(17, 0)] = [7; 8; 9].
Proof.
  split; [exact around_fair|]. split; [discriminate|]. split; [exact (proj1 (host_geos false))|]. split; [exact (proj2 (host_geos false))|].
  destruct geos_seq_opened as (f & H1 & H2 & H3 & _). exists f. split; [exact H1|]. split; [exact H2|]. split; [exact H3|]. vm_compute. reflexivity.
Qed.

(** With a fault in the chain it ends with an error; the copy has whole buffers of
    the data before the fault, and the error tells the fault: a loop, a sector that
    is not on the disk, or a link to nowhere. *)
Theorem C88_broken : forall e p h t d name target,
  byte_files h -> disk_open_path false p h = Good (t, d) -> default name target = dash \/ default name target <> p ->
  forall f, fair e -> open_file (open_world t d) (from_str_lossy name) = Ok f -> one_chain f ->
  (forall ls, ~ sound_chain d (de_first (file_entry f)) ls) ->
  let r := invoke e p (CRead name target) h in
  exists ls bytes rest k, copied_out (default name target) bytes h r /\ r_end r = Finished (Some (to_io k))
    /\ path d ls /\ (head ls = Some (de_first (file_entry f)) \/ ls = []) /\ data_of d ls = bytes ++ rest /\ length rest < su_buffer e
    /\ ((k = EChainLoop /\ exists l, SpecChain.reached d (de_first (file_entry f)) ls l /\ In l ls)
        \/ (k = EInvalidLocation /\ exists l, SpecChain.reached d (de_first (file_entry f)) ls l /\ ~ on_disk t (g_tracks (d_geom d)) l)
        \/ (k = EInvalidChainLink /\ exists l b, SpecChain.reached d (de_first (file_entry f)) ls l /\ sector d l = Ok b /\ b !!! 0 = 0 /\ b !!! 1 = 0)).
Proof. exact copy_broken. Qed.
Print Assumptions C88_broken.
Example C88_broken_example :
  byte_files (host_with broken_dev) /\ disk_open_path false place_disk (host_with broken_dev) = Good (D64, opened_as false broken_dev)
  /\ exists f, open_file (open_world D64 (opened_as false broken_dev)) (from_str_lossy [115%N]) = Ok f
     /\ one_chain f /\ forall ls, ~ sound_chain (opened_as false broken_dev) (de_first (file_entry f)) ls.
Proof. split; [exact (proj1 (host_broken false))|]. split; [exact (proj2 (host_broken false))|]. exact broken_opened. Qed.

(** A file of records is refused and no file is made. *)
Theorem C88_records : forall e p h t d name target,
  disk_open_path false p h = Good (t, d) ->
  forall f, open_file (open_world t d) (from_str_lossy name) = Ok f -> ~ one_chain f ->
  let r := invoke e p (CRead name target) h in
  r_end r = Finished (Some (to_io ENonLinearFile)) /\ r_text r = [] /\ r_bytes r = [] /\ r_host r = h.
Proof. exact copy_records. Qed.
Print Assumptions C88_records.
Example C88_records_example : exists f, open_file (open_world D64 (opened_as false rel_dev)) (from_str_lossy [114%N]) = Ok f /\ ~ one_chain f.
Proof. eexists. split; [vm_compute; reflexivity|]. intros []. Qed.

(** "cdisk geosread" with a buffer of more bytes than the stream has: the stream. *)
Theorem C88_geosread_partial : forall e p h t d name target,
  byte_files h -> disk_open_path false p h = Good (t, d) -> default name target = dash \/ default name target <> p ->
  forall f l j b blocks, open_file (open_world t d) (from_str_lossy name) = Ok f ->
  de_scheme (file_entry f) = SGEOSSequential \/ de_scheme (file_entry f) = SGEOSVLIR ->
  stored d (file_entry f) l j b -> convert_blocks d (slice (32 * j) 32 b) blocks ->
  length (concat blocks) < su_buffer e -> 2 <= su_patience e ->
  let r := invoke e p (CGeosRead name target) h in
  copied_out (default name target) (concat blocks) h r /\ r_end r = Finished None.
Proof. exact copy_geos. Qed.
Print Assumptions C88_geosread_partial.

(** With a block as long as the buffer it does not end: the copy grows without end. *)
Theorem C88_geosread_refuted : forall e p h t d name target,
  byte_files h -> disk_open_path false p h = Good (t, d) -> default name target = dash \/ default name target <> p ->
  forall f l j b blocks, fair e -> open_file (open_world t d) (from_str_lossy name) = Ok f ->
  de_scheme (file_entry f) = SGEOSSequential \/ de_scheme (file_entry f) = SGEOSVLIR ->
  stored d (file_entry f) l j b -> convert_blocks d (slice (32 * j) 32 b) blocks ->
  (exists x, In x blocks /\ su_buffer e <= length x) ->
  let r := invoke e p (CGeosRead name target) h in
  exists out, copied_out (default name target) out h r /\ r_end r = Endless /\ length out = su_patience e * su_buffer e.
Proof. exact copy_geos_endless. Qed.
Print Assumptions C88_geosread_refuted.
Example C88_geosread_example : fair around_large /\ fair around
  /\ exists f, open_file (open_world D64 (opened_as false geos_dev)) (from_str_lossy [115%N]) = Ok f
     /\ de_scheme (file_entry f) = SGEOSSequential /\ stored (opened_as false geos_dev) (file_entry f) (18, 1) 0 geos_dir
     /\ convert_blocks (opened_as false geos_dev) (slice (32 * 0) 32 geos_dir) geos_seq_blocks
     /\ length (concat geos_seq_blocks) < su_buffer around_large /\ exists x, In x geos_seq_blocks /\ su_buffer around <= length x.
Proof.
  split; [exact around_large_fair|]. split; [exact around_fair|]. destruct geos_seq_opened as (f & H1 & _ & _ & H2 & H3 & H4). exists f.
  split; [exact H1|]. split; [exact H2|]. split; [exact H3|]. split; [exact H4|]. split; [apply Nat.ltb_lt; vm_compute; reflexivity|].
  exists (nth 1 geos_seq_blocks []). split; [right; left; reflexivity|]. apply Nat.leb_le. vm_compute. reflexivity.
Qed.

(** Used on a file that is not a GEOS file it panics, without making a file. *)
Theorem C88_plain_refuted : forall e p h t d name target,
  disk_open_path false p h = Good (t, d) ->
  forall f, open_file (open_world t d) (from_str_lossy name) = Ok f -> match f with FLinear _ _ | FRelative _ => True | _ => False end ->
  let r := invoke e p (CGeosRead name target) h in
  r_end r = Panicked /\ r_text r = [] /\ r_bytes r = [] /\ r_host r = h.
Proof. exact copy_geos_plain. Qed.
Print Assumptions C88_plain_refuted.
Example C88_plain_example : match open_file (open_world D64 (opened_as false rel_dev)) (from_str_lossy [114%N]) with Ok (FRelative _) => True | _ => False end.
Proof. vm_compute. exact I. Qed.

(** C89: a file is opened as an image exactly if it has the size of an image of
    the type that its extension names, or of any type if it names none. *)
Theorem C89_opens : forall m p h,
  (exists t d, disk_open_path m p h = Good (t, d))
  <-> exists bs t n e, h p = Some bs /\ (from_extension (file_name p) = None \/ from_extension (file_name p) = Some t)
        /\ In (n, e, N.of_nat (length bs)) (spec_images t).
Proof. exact opens_by_size. Qed.
Print Assumptions C89_opens.

(** On any other file each command but "create" changes nothing, prints nothing and reports an error. *)
Theorem C89_not_an_image : forall e p c h x,
  c <> CCreate -> disk_open_path false p h = Bad x ->
  let r := invoke e p c h in
  r_host r = h /\ r_text r = [] /\ r_bytes r = [] /\ (r_end r = Usage \/ exists failure, r_end r = Finished (Some failure)).
Proof. exact not_an_image. Qed.
Print Assumptions C89_not_an_image.

(** Arguments that are not understood change nothing. *)
Theorem C89_usage : forall e p c h,
  let r := invoke e p c h in r_end r = Usage -> r_host r = h /\ r_text r = [] /\ r_bytes r = [].
Proof. exact usage_changes_nothing. Qed.
Print Assumptions C89_usage.

(** "create" does not touch a file that exists, whatever it holds. *)
Theorem C89_existing : forall e p h bs,
  h p = Some bs -> let r := invoke e p CCreate h in r_host r = h /\ r_bytes r = [] /\ r_end r = Finished (Some exists_already).
Proof. exact create_existing. Qed.
Print Assumptions C89_existing.

(** A source that does not exist. *)
Theorem C89_source : forall e p h ty ft source target,
  source <> dash -> h source = None -> type_arg ty = Some ft ->
  invoke e p (CWrite ty source target) h = mk_result h [] [] (Finished (Some missing))
  /\ invoke e p (CAppend source target) h = mk_result h [] [] (Finished (Some missing)).
Proof. exact source_missing. Qed.
Print Assumptions C89_source.

(** A file that is not on the disk. *)
Theorem C89_missing : forall e p h t d name target,
  disk_open_path false p h = Good (t, d) -> w_find (open_world t d) (from_str_lossy name) = Err ENotFound ->
  Forall (fun c => let r := invoke e p c h in
      (forall q, r_host r q = h q) /\ r_text r = [] /\ r_bytes r = [] /\ r_end r = Finished (Some (to_io ENotFound)))
    [CRead name target; CGeosRead name target; CDump (Some name); CDelete name].
Proof. exact file_missing. Qed.
Print Assumptions C89_missing.
Example C89_example : disk_open_path false place_source host0 = Bad (to_io EInvalidLayout) /\ disk_open_path false place_copy host0 = Bad missing
  /\ r_end (invoke around place_disk (CBamEdit true (str "41") (str "0")) host0) = Usage
  /\ host0 place_source <> None /\ host0 place_copy = None /\ type_arg (Some (str "usr")) = Some USR
  /\ disk_open_path false place_disk (host_with geos_dev) = Good (D64, opened_as false geos_dev)
  /\ w_find (open_world D64 (opened_as false geos_dev)) (from_str_lossy (str "x")) = Err ENotFound.
Proof.
  split; [vm_compute; reflexivity|]. split; [vm_compute; reflexivity|]. split; [vm_compute; reflexivity|]. split; [discriminate|].
  split; [reflexivity|]. split; [reflexivity|]. split; [exact (proj2 (host_geos false))|]. vm_compute. reflexivity.
Qed.

Theorem C89_rename_missing : forall e p h t d old new,
  disk_open_path false p h = Good (t, d) -> w_find (open_world t d) (from_str_lossy old) = Err ENotFound ->
  let r := invoke e p (CRename old new) h in
  (forall q, r_host r q = h q) /\ r_text r = [] /\ r_bytes r = [] /\ r_end r = Finished (Some (to_io ENotFound)).
Proof. exact rename_missing. Qed.
Print Assumptions C89_rename_missing.

(** A name that is on the disk already. *)
Theorem C89_rename_taken : forall e p h t d old new x y,
  disk_open_path false p h = Good (t, d) ->
  w_find (open_world t d) (from_str_lossy old) = Ok x -> w_find (open_world t d) (from_str_lossy new) = Ok y -> length (from_str_lossy new) <= 16 ->
  let r := invoke e p (CRename old new) h in
  (forall q, r_host r q = h q) /\ r_text r = [] /\ r_bytes r = [] /\ r_end r = Finished (Some (to_io EFileExists)).
Proof. exact rename_taken. Qed.
Print Assumptions C89_rename_taken.

Theorem C89_write_taken : forall e p h t d ty ft source pieces target x,
  disk_open_path false p h = Good (t, d) ->
  type_arg ty = Some ft -> read_source e h source = Some pieces -> source = dash \/ source <> p ->
  w_find (open_world t d) (from_str_lossy (default source target)) = Ok x -> length (from_str_lossy (default source target)) <= 16 ->
  let r := invoke e p (CWrite ty source target) h in
  (forall q, r_host r q = h q) /\ r_text r = [] /\ r_bytes r = [] /\ r_end r = Finished (Some (to_io EFileExists)).
Proof. exact write_taken. Qed.
Print Assumptions C89_write_taken.
Example C89_taken_example : exists x y, w_find (open_world D64 (opened_as false geos_dev)) (from_str_lossy (str "s")) = Ok x
  /\ w_find (open_world D64 (opened_as false geos_dev)) (from_str_lossy (str "v")) = Ok y /\ length (from_str_lossy (str "v")) <= 16
  /\ exists pieces, read_source around (host_with geos_dev) dash = Some pieces.
Proof. eexists _, _. split; [vm_compute; reflexivity|]. split; [vm_compute; reflexivity|]. split; [vm_compute; lia|]. eexists. reflexivity. Qed.

(** C56: on any image and with any source "cdisk append" changes nothing and does not succeed. *)
Theorem C56_program_refuted : forall e p h t d source target pieces,
  byte_files h -> disk_open_path false p h = Good (t, d) -> read_source e h source = Some pieces ->
  let r := invoke e p (CAppend source target) h in
  (forall q, r_host r q = h q) /\ r_text r = [] /\ r_bytes r = [] /\ r_end r <> Finished None.
Proof. exact append_refused. Qed.
Print Assumptions C56_program_refuted.
