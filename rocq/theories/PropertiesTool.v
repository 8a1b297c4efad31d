(** Properties of the program cdisk: C55 - C60. *)
From Verif Require Import Base Layout Image Block Bam Format Petscii GeosTypes DirEntry Header World Chain Directory Writer Rel GeosFile File Validate
  Spec SpecCodec SpecChain SpecBam SpecFiles SpecGeos SpecKinds Session SpecDisk CodecMore Cdisk SpecTool Evolve FlatProofs DemoImages DemoGeos Demo ToolProofs ToolMore DemoTool.

(** C55: every sequence of commands, from an image in order or from the format
    command on, gives the replies of the table of files and leaves an image of
    the table. *)
Theorem C55_existing : forall t d dirs chains a qs a' rs,
  sound_image t d dirs chains a -> trun t a qs = Some (a', rs) ->
  exists d', run_requests t d qs = (d', rs) /\ image_of t a' d'.
Proof. exact tool_histories. Qed.
Print Assumptions C55_existing.

Theorem C55_formatted : forall t d a0 name id qs a rs,
  dev_shape t d -> d_writable d = true -> trun t a0 (TFormat name id :: qs) = Some (a, rs) ->
  exists d', run_requests t d (TFormat name id :: qs) = (d', rs) /\ image_of t a d'.
Proof. exact tool_formatted. Qed.
Print Assumptions C55_formatted.

(** What an image of the table is good for: further commands. *)
Theorem C55_further : forall t a d qs a' rs,
  image_of t a d -> trun t a qs = Some (a', rs) ->
  exists d', run_requests t d qs = (d', rs) /\ image_of t a' d'.
Proof. intros t a d qs a' rs H1 H2. exact (tool_run t qs a d a' rs H1 H2). Qed.
Print Assumptions C55_further.

(** A file is read back as it was written; the other files keep their contents. *)
Theorem C55_write_read : forall t a d source name ft a' n,
  image_of t a d -> tstep t a (TWrite source name ft) = Some (a', RDone) -> 0 < n ->
  exists d', run_request t d (TWrite source name ft) = (d', RDone) /\ image_of t a' d'
    /\ run_request t d' (TRead name n) = (d', RBytes (concat source))
    /\ (forall other bs, from_str_lossy other <> from_str_lossy name ->
          run_request t d (TRead other n) = (d, RBytes bs) -> run_request t d' (TRead other n) = (d', RBytes bs)).
Proof. exact tool_write_read. Qed.
Print Assumptions C55_write_read.
Example C55_example : exists a,
  trun D64 (table [] 1 NoBorder []) tool_script = Some (a, tool_replies)
  /\ dev_shape D64 (blank_dev D64 true) /\ d_writable (blank_dev D64 true) = true
  /\ exists dirs chains, sound_image D64 (w_dev (s_world demo_s2)) dirs chains (set_handles [] (set_writers [] demo_a2)).
Proof.
  eexists. split; [vm_compute; reflexivity|]. split; [apply blank_dev_shape|]. split; [reflexivity|exact demo_sound].
Qed.

(** C56: "cdisk append" never appends: it leaves the image as it is and reports
    an error, "read-only" for every file that could be written. *)
Theorem C56_append_refuted : forall t source name d,
  dev_shape t d -> holds_bytes d -> d_writable d = true ->
  exists r, cmd_append t source name d = (d, r) /\ r <> Ok tt
    /\ (forall f k, open_file (open_world t d) (from_str_lossy name) = Ok f -> file_writer d f = Ok k -> r = Err EReadOnly).
Proof. exact append_never. Qed.
Print Assumptions C56_append_refuted.
Example C56_example : dev_shape D64 geos_dev /\ holds_bytes geos_dev /\ d_writable geos_dev = true
  /\ d_writable (w_dev (s_world demo_s2)) = true
  /\ match open_file (open_world D64 (w_dev (s_world demo_s2))) (from_str_lossy [97%N]) with
     | Ok f => match file_writer (w_dev (s_world demo_s2)) f with Ok _ => True | _ => False end
     | _ => False
     end.
Proof. split; [exact geos_shape|]. split; [exact geos_bytes|]. split; [reflexivity|]. vm_compute. by split. Qed.

(** C57: "cdisk bam allocate|free" on sectors that exist, and "all" tracks of a
    D64: exactly the chosen sectors get the new state, and only bytes of the map
    change. *)
Theorem C57_bam_edit_partial : forall t d b track sector alloc,
  dev_shape t d -> holds_bytes d -> d_writable d = true -> current_map (open_world t d) = Ok b ->
  (track = None -> t = D64) -> (forall l, chosen t track sector l -> bam_sector t l) ->
  exists d' b', cmd_bam_edit t track sector alloc d = (d', Ok tt) /\ current_map (open_world t d') = Ok b'
    /\ (forall l, bam_sector t l -> chosen t track sector l -> is_free b' l <-> alloc = false)
    /\ (forall l, bam_sector t l -> ~ chosen t track sector l -> is_free b' l <-> is_free b l)
    /\ (bam_consistent t b -> bam_consistent t b')
    /\ (forall l i, ~ bam_byte t l i -> image_byte d' l i = image_byte d l i).
Proof. exact bam_edit_exact. Qed.
Print Assumptions C57_bam_edit_partial.
Example C57_example : exists b, current_map (open_world D64 (w_dev (s_world demo_s2))) = Ok b
  /\ (forall l, chosen D64 (Some 20) (Some 18) l -> bam_sector D64 l)
  /\ is_free b (20, 18) /\ chosen D64 (Some 20) (Some 18) (20, 18) /\ ~ chosen D64 (Some 20) (Some 18) (20, 17).
Proof.
  eexists. split; [vm_compute; reflexivity|]. split.
  - intros [tr s] [H1 H2]. cbn in H1, H2. subst. by vm_compute; repeat split; lia.
  - split; [by vm_compute|]. split; [done|]. by intros [_ H].
Qed.

(** "all" tracks of a D71 or D81 are the first 35. *)
Theorem C57_all_tracks_refuted : forall t d b alloc,
  t <> D64 -> dev_shape t d -> holds_bytes d -> d_writable d = true -> current_map (open_world t d) = Ok b ->
  exists d' b', cmd_bam_edit t None None alloc d = (d', Ok tt) /\ current_map (open_world t d') = Ok b'
    /\ forall l, bam_sector t l -> 35 < fst l -> is_free b' l <-> is_free b l.
Proof. exact bam_edit_all_tracks. Qed.
Print Assumptions C57_all_tracks_refuted.

(** A sector that the track does not have can be freed: the map then counts a
    block that does not exist. *)
Theorem C57_missing_sector_refuted : forall t d b tr s,
  dev_shape t d -> holds_bytes d -> d_writable d = true -> current_map (open_world t d) = Ok b ->
  1 <= tr <= spec_tracks t -> spec_sectors t tr <= s < 8 * bitmap_size t ->
  exists d' b', cmd_bam_edit t (Some tr) (Some s) false d = (d', Ok tt) /\ current_map (open_world t d') = Ok b'
    /\ is_free b' (tr, s) /\ ~ bam_sector t (tr, s) /\ ~ bam_consistent t b'
    /\ (e_free (track_entry b tr) = free_bits (e_map (track_entry b tr)) -> ~ is_free b (tr, s) ->
          e_free (track_entry b' tr) = S (e_free (track_entry b tr))).
Proof. exact bam_edit_beyond. Qed.
Print Assumptions C57_missing_sector_refuted.

(** A track that the map does not have makes the command panic. *)
Theorem C57_missing_track_refuted : forall t d b tr sector alloc,
  dev_shape t d -> d_writable d = true -> current_map (open_world t d) = Ok b -> spec_tracks t < tr ->
  cmd_bam_edit t (Some tr) sector alloc d = (d, Panic).
Proof. exact bam_edit_panic. Qed.
Print Assumptions C57_missing_track_refuted.
Example C57_example_d71 : exists b, dev_shape D71 double_dev /\ holds_bytes double_dev /\ d_writable double_dev = true
  /\ current_map (open_world D71 double_dev) = Ok b /\ bam_sector D71 (40, 3) /\ is_free b (40, 3)
  /\ 1 <= 40 <= spec_tracks D71 /\ spec_sectors D71 40 <= 22 < 8 * bitmap_size D71 /\ spec_tracks D71 < 71.
Proof.
  eexists. split; [apply double_shape|]. split; [exact double_bytes|]. split; [apply double_shape|].
  split; [vm_compute; reflexivity|]. split; [by vm_compute; repeat split; lia|]. split; [by vm_compute|]. by vm_compute; repeat split; lia.
Qed.

(** C58: "cdisk create" makes an image of zeros of a size of the type its
    extension names (D64 without one), which opens as that type, and on which
    every sequence of commands that starts with format acts like the table. *)
Theorem C58_create : forall file n,
  0 < n ->
  exists bytes, cmd_create file n = (bytes, Ok tt) /\ Forall (eq 0) bytes
    /\ In (spec_tracks (new_type file), false, N.of_nat (length bytes)) (spec_images (new_type file))
    /\ disk_open (from_extension file) (mk_image ReadWriteMap bytes) = Ok (new_type file, flatten ReadWriteMap (blank_dev (new_type file) true)).
Proof. exact create_image. Qed.
Print Assumptions C58_create.

Theorem C58_extension : forall file t,
  from_extension file = Some t <->
  exists stem e, stem <> [] /\ file = stem ++ 46%N :: e /\ map ascii_lower e = extension_of t.
Proof. exact extension_spec. Qed.
Print Assumptions C58_extension.

Theorem C58_history : forall file n a0 name id qs a rs,
  0 < n -> trun (new_type file) a0 (TFormat name id :: qs) = Some (a, rs) ->
  exists bytes d d', cmd_create file n = (bytes, Ok tt)
    /\ disk_open (from_extension file) (mk_image ReadWriteMap bytes) = Ok (new_type file, flatten ReadWriteMap d)
    /\ run_requests (new_type file) d (TFormat name id :: qs) = (d', rs) /\ image_of (new_type file) a d'.
Proof. exact tool_created. Qed.
Print Assumptions C58_history.
(** "x.D81", "d64", ".d81", "x.img" *)
Example C58_example : new_type [120; 46; 68; 56; 49]%N = D81 /\ new_type [100; 54; 52]%N = D64
  /\ from_extension [46; 100; 56; 49]%N = None /\ from_extension [120; 46; 105; 109; 103]%N = None
  /\ exists a, trun D81 (table [] 1 NoBorder []) tool_script = Some (a, tool_replies_d81).
Proof. repeat (split; [by vm_compute|]). eexists. vm_compute. reflexivity. Qed.

(** C59: "cdisk read" on any image: the whole file if its chain is sound;
    otherwise an error, after whole buffers of the sectors before the fault. *)
Theorem C59_read : forall t d name n c e ss r,
  dev_shape t d -> open_file (open_world t d) (from_str_lossy name) = Ok (FLinear c e) -> chain_walk d (de_first e) = (ss, r) -> 0 < n ->
  let stream := concat (map (fun s => drop 2 (cs_data s)) ss) in
  cmd_read t name n d = (Some (match r with Ok _ => stream | _ => take (length stream / n * n) stream end), r) /\ (r = Ok tt \/ exists k, r = Err k).
Proof. exact read_any. Qed.
Print Assumptions C59_read.
Example C59_example : dev_shape D64 broken_dev
  /\ match open_file (open_world D64 broken_dev) (from_str_lossy [115%N]) with Ok (FLinear _ e) => snd (chain_walk broken_dev (de_first e)) = Err EInvalidLocation | _ => False end.
Proof. split; [exact broken_shape|]. vm_compute. done. Qed.

(** C60: "cdisk geosread" with a buffer of more bytes than the stream has. *)
Theorem C60_geosread_partial : forall t d name n f l j b blocks fuel,
  dev_shape t d -> holds_bytes d -> open_file (open_world t d) (from_str_lossy name) = Ok f ->
  de_scheme (file_entry f) = SGEOSSequential \/ de_scheme (file_entry f) = SGEOSVLIR ->
  stored d (file_entry f) l j b -> convert_blocks d (slice (32 * j) 32 b) blocks ->
  length (concat blocks) < n -> cmd_geosread t (2 + fuel) name n d = (Some (concat blocks), Ok tt).
Proof. exact geos_short. Qed.
Print Assumptions C60_geosread_partial.

(** Otherwise the copy, if the command ends, is longer than the stream, and the
    command does not end if a block of the stream is as long as the buffer. *)
Theorem C60_geosread_refuted : forall t d name n f l j b blocks,
  dev_shape t d -> holds_bytes d -> open_file (open_world t d) (from_str_lossy name) = Ok f ->
  de_scheme (file_entry f) = SGEOSSequential \/ de_scheme (file_entry f) = SGEOSVLIR ->
  stored d (file_entry f) l j b -> convert_blocks d (slice (32 * j) 32 b) blocks ->
  0 < n -> n <= length (concat blocks) ->
  (forall fuel out, cmd_geosread t fuel name n d = (Some out, Ok tt) -> length (concat blocks) < length out)
  /\ ((exists x, In x blocks /\ n <= length x) ->
      forall fuel, exists out, cmd_geosread t fuel name n d = (Some out, NoFuel) /\ length out = fuel * n).
Proof. exact geos_long. Qed.
Print Assumptions C60_geosread_refuted.

(** Files that are not GEOS files make it panic. *)
Theorem C60_plain_refuted : forall t d name fuel n f,
  open_file (open_world t d) (from_str_lossy name) = Ok f ->
  match f with FLinear _ _ | FRelative _ => True | _ => False end ->
  cmd_geosread t fuel name n d = (None, Panic).
Proof. exact geos_plain. Qed.
Print Assumptions C60_plain_refuted.
Example C60_example : dev_shape D64 geos_dev /\ holds_bytes geos_dev
  /\ (exists f, open_file (open_world D64 geos_dev) (from_str_lossy [118%N]) = Ok f
       /\ de_scheme (file_entry f) = SGEOSVLIR /\ stored geos_dev (file_entry f) (18, 1) 1 geos_dir
       /\ convert_blocks geos_dev (slice (32 * 1) 32 geos_dir) geos_vlir_blocks)
  /\ length (concat geos_vlir_blocks) = 1274
  /\ match open_file (open_world D64 rel_dev) (from_str_lossy [114%N]) with Ok (FRelative _) => True | _ => False end.
Proof. split; [exact geos_shape|]. split; [exact geos_bytes|]. split; [exact geos_vlir_file|]. by vm_compute. Qed.
