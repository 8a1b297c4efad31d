(** Listed claims that the code does not meet: for each a counterexample (or a
    theorem that every case fails), and the strongest part that holds. *)
From Verif Require Import Base Layout Block Bam Format Petscii GeosTypes DirEntry Header World Chain Directory Writer Rel GeosFile File Validate
  Spec SpecChain SpecBam SpecFiles SpecGeos CodecMore View DevFacts AllocAny Session SessionMore SpecDisk SpecValidate Opening SectorProofs AnyDir
  ReadOnly ReadOnlyMore DemoImages DemoGeos Demo GeosProofs Refutations Partials Robust RobustOps DeleteDurable.

(** C21: formatting with a name of more than 16 bytes fails after every sector
    has been erased. *)
Theorem C21_format_failure_refuted : forall t w name id,
  w_type w = t -> dev_shape t (w_dev w) -> d_writable (w_dev w) = true -> 16 < length name ->
  exists w', write_format name id w = (w', Err EFilenameTooLong)
    /\ w_header w' = w_header w /\ w_bam w' = w_bam w /\ w_cells w' = w_cells w
    /\ forall l, valid_loc (d_geom (w_dev w)) l = true ->
         sector (w_dev w') l = Ok (if decide (l = first_dir t) then 0 :: 255 :: repeat 0 254 else repeat 0 256).
Proof. exact format_wipes. Qed.
Print Assumptions C21_format_failure_refuted.

(** C21: an actual loss of data. *)
Theorem C21_data_loss_refuted : exists w w' k l,
  dev_shape D64 (w_dev w) /\ write_format (repeat 65 17) (48, 49) w = (w', Err k)
  /\ sector (w_dev w') l <> sector (w_dev w) l.
Proof. exact format_destroys. Qed.
Print Assumptions C21_data_loss_refuted.

(** C21: with a name of at most 16 bytes formatting fails on read-only images
    only, and changes nothing. *)
Theorem C21_format_failure_partial : forall t w w' name id k,
  w_type w = t -> dev_shape t (w_dev w) -> (forall c, w_bam w = Some c -> c < length (w_cells w)) ->
  length name <= 16 -> write_format name id w = (w', Err k) -> w' = w /\ d_writable (w_dev w) = false.
Proof. exact format_failure. Qed.
Print Assumptions C21_format_failure_partial.
Example C21_example : dev_shape D64 locked_dev
  /\ snd (write_format [68] (48, 49) (open_world D64 locked_dev)) = Err EReadOnly.
Proof. split; [exact locked_dev_shape|vm_compute; reflexivity]. Qed.

(** C30: a name and the same name with a padding byte behind it are two names
    when created and one name when listed. *)
Theorem C30_unique_names_refuted : exists n,
  snd (calls (start D64 (blank_dev D64 true)) [OFormat [68] (48, 49); OCreate n PRG; OCreate (n ++ [160]) PRG]) = [ADone; AIndex 0; AIndex 1]
  /\ exists es, w_directory (s_world (fst (calls (start D64 (blank_dev D64 true)) [OFormat [68] (48, 49); OCreate n PRG; OCreate (n ++ [160]) PRG]))) = Ok es
  /\ map de_name es = [n; n].
Proof. exact names_twice. Qed.
Print Assumptions C30_unique_names_refuted.

(** C34: a created file whose sector the image still marks free. *)
Theorem C34_created_refuted : exists s s' h l n,
  s = fst (call (start D64 (blank_dev D64 true)) (OFormat [68] (48, 49)))
  /\ call s (OCreate [65] PRG) = (s', AIndex h)
  /\ snd (calls s' [OReopen; OValidate]) = [ADone; AReport [VSectorMisoccupied l n]].
Proof. exact created_lost. Qed.
Print Assumptions C34_created_refuted.

(** C34: after any history the image, reopened without any flush, has the same
    name, the same listing and shows the same files. *)
Theorem C34_reopen_partial : forall t a s,
  reached t a s ->
  let w' := open_world t (w_dev (s_world s)) in
  w_directory w' = w_directory (s_world s) /\ w_name w' = w_name (s_world s)
  /\ forall f, shows w' f <-> shows (s_world s) f.
Proof. exact reopen_files. Qed.
Print Assumptions C34_reopen_partial.
Example C34_example : reached D64 demo_a demo_s /\ map (fun x => fst (fst x)) (listing demo_a) = [name_a; name_b].
Proof. split; [exact demo_reached|reflexivity]. Qed.

(** C36: a side sector of a deleted relative file, and the info block of a
    deleted sequential GEOS file, stay allocated in the image. *)
Theorem C36_relative_refuted : exists f ls w' b,
  open_file (open_world D64 rel_dev) rel_name = Ok f
  /\ file_occupied rel_dev f = Ok ls /\ In (17, 5) ls
  /\ file_delete f (open_world D64 rel_dev) = (w', Ok tt)
  /\ current_map (open_world D64 (w_dev w')) = Ok b /\ ~ is_free b (17, 5).
Proof. exact rel_delete_lost. Qed.
Print Assumptions C36_relative_refuted.
Theorem C36_geos_refuted : exists f ls w' b,
  open_file (open_world D64 geos_dev) [83] = Ok f
  /\ file_occupied geos_dev f = Ok ls /\ In (17, 5) ls
  /\ file_delete f (open_world D64 geos_dev) = (w', Ok tt)
  /\ current_map (open_world D64 (w_dev w')) = Ok b /\ ~ is_free b (17, 5).
Proof. exact geos_delete_lost. Qed.
Print Assumptions C36_geos_refuted.

(** C36: the sectors that a successful delete frees in the image: the chain of
    the file, the chains of the records of a VLIR file, and the info block of a
    VLIR file that has a record. Missing: side sectors and other info blocks. *)
Theorem C36_delete_partial : forall t d name f w',
  dev_shape t d -> holds_bytes d -> d_writable d = true ->
  open_file (open_world t d) name = Ok f -> file_delete f (open_world t d) = (w', Ok tt) ->
  (forall p, de_pos (file_entry f) = Some p -> ~ header_or_map t (p_loc p)) ->
  (forall info s ft y mo da ho mi, de_extra (file_entry f) = XGEOS info s ft y mo da ho mi -> info = (0, 0) \/ bam_sector t info) ->
  exists b, current_map (open_world t (w_dev w')) = Ok b
    /\ (forall ls l, sound_chain d (de_first (file_entry f)) ls -> In l ls -> is_free b l)
    /\ (de_scheme (file_entry f) = SGEOSVLIR ->
        forall index, sector d (de_first (file_entry f)) = Ok index ->
          (forall p ls l, In p (index_slots index) -> present p = true -> sound_chain d p ls ->
             (forall l', In l' ls -> ~ header_or_map t l') -> In l ls -> is_free b l)
          /\ (forall info s ft y mo da ho mi, de_extra (file_entry f) = XGEOS info s ft y mo da ho mi -> info <> (0, 0) ->
                (exists p, In p (index_slots index) /\ present p = true) -> is_free b info)).
Proof. exact delete_durable. Qed.
Print Assumptions C36_delete_partial.
Example C36_example : dev_shape D64 geos_dev /\ holds_bytes geos_dev /\ d_writable geos_dev = true
  /\ match open_file (open_world D64 geos_dev) [86] with
     | Ok f => de_scheme (file_entry f) = SGEOSVLIR /\ de_pos (file_entry f) = Some (mk_position (18, 1) 32 32)
               /\ snd (file_delete f (open_world D64 geos_dev)) = Ok tt
     | _ => False
     end.
Proof. split; [exact geos_shape|]. split; [exact geos_bytes|]. vm_compute. repeat split. Qed.

(** C37: opening a relative file with records of length 0, or with a short side
    sector, panics; so does validating the disk. *)
Theorem C37_open_refuted : exists d1 d2,
  dev_shape D64 d1 /\ dev_shape D64 d2
  /\ open_file (open_world D64 d1) rel_name = Panic /\ open_file (open_world D64 d2) rel_name = Panic
  /\ validate (open_world D64 d1) = Panic.
Proof. exact rel_open_panics. Qed.
Print Assumptions C37_open_refuted.

(** C37: nothing else makes opening a file fail to return. *)
Theorem C37_open_partial : forall t d name,
  dev_shape t d -> ~ graceful (open_file (open_world t d) name) ->
  exists e side len u, In e (fst (w_iter (open_world t d))) /\ de_name e = name /\ de_scheme e = SRelative
    /\ de_extra e = XRelative side len u
    /\ (len = 0 \/ exists l b, In l (map cs_location (fst (chain_walk d side))) /\ sector d l = Ok b /\ b !!! 0 = 0 /\ b !!! 1 < 15).
Proof. exact open_panic. Qed.
Print Assumptions C37_open_partial.
Example C37_example : dev_shape D64 rel_zero_dev /\ ~ graceful (open_file (open_world D64 rel_zero_dev) rel_name)
  /\ dev_shape D64 geos_dev /\ graceful (open_file (open_world D64 geos_dev) [86]).
Proof.
  split; [apply put_shape; [exact rel_shape|apply Nat.leb_le; reflexivity]|].
  split; [vm_compute; intros []|]. split; [exact geos_shape|vm_compute; exact I].
Qed.

(** C38: the stream read with a buffer of more bytes than the stream has; and
    the reads with any other buffers. *)
Theorem C38_convert_partial : forall t d e l j b blocks,
  dev_shape t d -> holds_bytes d -> stored d e l j b ->
  de_scheme e = SGEOSSequential \/ de_scheme e = SGEOSVLIR ->
  convert_blocks d (slice (32 * j) 32 b) blocks ->
  exists r, geos_reader_new e = Ok r
    /\ (forall n, length (concat blocks) < n -> geos_reads d r [n; n] = [Ok (concat blocks); Ok []])
    /\ (forall ns, Forall (fun n => n <= 254) ns -> geos_reads d r ns = map (fun n => Ok (take n (concat blocks))) ns)
    /\ forall ns, geos_reads d r ns = map Ok (block_reads blocks ns).
Proof. exact convert_reads. Qed.
Print Assumptions C38_convert_partial.
Example C38_example : dev_shape D64 geos_dev /\ holds_bytes geos_dev
  /\ (exists f, open_file (open_world D64 geos_dev) (from_str_lossy [118%N]) = Ok f
       /\ de_scheme (file_entry f) = SGEOSVLIR /\ stored geos_dev (file_entry f) (18, 1) 1 geos_dir
       /\ convert_blocks geos_dev (slice (32 * 1) 32 geos_dir) geos_vlir_blocks)
  /\ map length geos_vlir_blocks = [254; 254; 254; 508; 4].
Proof. split; [exact geos_shape|]. split; [exact geos_bytes|]. split; [exact geos_vlir_file|]. by vm_compute. Qed.

(** C38: two reads of one byte get the first byte twice. *)
Theorem C38_convert_refuted : exists d e r,
  dev_shape D64 d /\ In e (fst (w_iter (open_world D64 d))) /\ geos_reader_new e = Ok r
  /\ geos_reads d r [1; 1; 1] = [Ok [131]; Ok [131]; Ok [131]]
  /\ exists stream, geos_reads d r [3000] = [Ok stream] /\ take 3 stream = [131; 17; 0].
Proof. exact convert_repeats. Qed.
Print Assumptions C38_convert_refuted.

(** C39: record 0 of a VLIR file is the link of its index; the i-th record of
    the index has number i+1. *)
Theorem C39_record_numbers_partial : forall t w name f,
  dev_shape t (w_dev w) -> open_file w name = Ok f ->
  de_scheme (file_entry f) = SGEOSVLIR ->
  exists b, sector (w_dev w) (de_first (file_entry f)) = Ok b
    /\ (pair_at b 0 = (0, 0) -> file_record_count f = 0)
    /\ (pair_at b 0 <> (0, 0) ->
         file_record_count f = S (length (index_slots b))
         /\ (forall i p, index_slots b !! i = Some p ->
               (present p = false -> file_record (w_dev w) f (S i) = Ok [])
               /\ (forall ls, present p = true -> sound_chain (w_dev w) p ls ->
                     file_record (w_dev w) f (S i) = Ok (data_of (w_dev w) ls)))
         /\ forall i, length (index_slots b) <= i -> file_record (w_dev w) f (S i) = Err EInvalidRecordIndex).
Proof. exact vlir_records. Qed.
Print Assumptions C39_record_numbers_partial.
Example C39_example : dev_shape D64 geos_dev
  /\ match open_file (open_world D64 geos_dev) [86], sector geos_dev (16, 0) with
     | Ok f, Ok b => de_scheme (file_entry f) = SGEOSVLIR /\ de_first (file_entry f) = (16, 0) /\ pair_at b 0 <> (0, 0)
                     /\ index_slots b = [(16, 1); (0, 255); (16, 2)]
     | _, _ => False
     end
  /\ sound_chain geos_dev (16, 1) [(16, 1); (16, 3)].
Proof. split; [exact geos_shape|]. split; [vm_compute; by repeat split|exact geos_record_chain]. Qed.
Theorem C39_record_numbers_refuted : exists f b,
  open_file (open_world D64 geos_dev) [86] = Ok f /\ sector geos_dev (de_first (file_entry f)) = Ok b
  /\ index_slots b = [(16, 1); (0, 255); (16, 2)]
  /\ file_record_count f = 4
  /\ file_record geos_dev f 0 = Ok [] /\ file_record geos_dev f 1 = read_all geos_dev (16, 1).
Proof. exact vlir_record_zero. Qed.
Print Assumptions C39_record_numbers_refuted.

(** C40: no info block can be written back. *)
Theorem C40_info_refuted : forall b b',
  length b = 256 -> length b' = 256 -> info_to_bytes (info_from_bytes b) b' = Panic.
Proof. exact info_never_written. Qed.
Print Assumptions C40_info_refuted.
Example C40_example : length zero_block = 256. Proof. reflexivity. Qed.

(** C42: a failing create makes the free count go down, a failing delete makes
    it go up, on a disk that cannot be written. *)
Theorem C42_create_refuted : dev_shape D64 locked_dev
  /\ snd (calls (start D64 locked_dev) [OFree; OCreate [65] PRG; OFree; OCreate [65] PRG; OFree])
     = [ACount 21; AError EReadOnly; ACount 20; AError EReadOnly; ACount 19].
Proof. exact (conj locked_dev_shape locked_create). Qed.
Print Assumptions C42_create_refuted.
Theorem C42_delete_refuted : dev_shape D64 locked_file_dev
  /\ snd (calls (start D64 locked_file_dev) [OFree; OOpen [65]; ODelete 0; OFree])
     = [ACount 0; AIndex 0; AError EReadOnly; ACount 1].
Proof. exact (conj locked_file_shape locked_delete). Qed.
Print Assumptions C42_delete_refuted.

(** C42: apart from the allocation map in memory, and only for create and
    delete, a failing call on a read-only disk changes nothing. *)
Theorem C42_failure_partial : forall t s o s' e,
  w_type (s_world s) = t -> dev_shape t (w_dev (s_world s)) -> d_writable (w_dev (s_world s)) = false ->
  call s o = (s', AError e) ->
  besides_maps (s_world s') = besides_maps (s_world s) /\ s_handles s' = s_handles s /\ length (s_writers s') = length (s_writers s)
  /\ (may_leak o = false -> s_world s' = s_world s).
Proof. exact locked_failure. Qed.
Print Assumptions C42_failure_partial.
Example C42_example : dev_shape D64 locked_dev /\ d_writable locked_dev = false
  /\ snd (call (start D64 locked_dev) (OCreate [65] PRG)) = AError EReadOnly.
Proof. split; [exact locked_dev_shape|]. split; vm_compute; reflexivity. Qed.

(** C45: a directory sector that is only partly in use makes creating a file panic. *)
Theorem C45_directory_refuted : dev_shape D64 partial_dir_dev
  /\ snd (next_free_directory_entry (open_world D64 partial_dir_dev)) = Panic
  /\ snd (create_file [65] PRG (open_world D64 partial_dir_dev)) = Panic
  /\ exists es, w_directory (open_world D64 partial_dir_dev) = Ok es /\ length es = 1.
Proof. exact (conj partial_dir_shape partial_dir_panics). Qed.
Print Assumptions C45_directory_refuted.

(** C45: when the sectors of the directory hold whole slots and lie on tracks
    of the map, looking for a slot and creating a file return. *)
Theorem C45_directory_partial : forall t d,
  dev_shape t d -> whole_directory t d ->
  graceful (snd (next_free_directory_entry (open_world t d)))
  /\ forall name ft, graceful (snd (create_file name ft (open_world t d))).
Proof. exact (fun t d H1 H2 => conj (slot_graceful t d H1 H2) (fun name ft => create_graceful t d name ft H1 H2)). Qed.
Print Assumptions C45_directory_partial.
Example C45_example : dev_shape D64 geos_dev /\ whole_directory D64 geos_dev
  /\ snd (create_file [65] PRG (open_world D64 geos_dev)) = Err EDiskFull.
Proof. split; [exact geos_shape|]. split; [exact geos_whole|vm_compute; reflexivity]. Qed.

(** C46: deleting a file on track 36 of a D64 image with 40 tracks panics. *)
Theorem C46_delete_refuted : dev_shape D64 wide_dev
  /\ snd (calls (start D64 wide_dev) [OOpen [65]; ORecord 0 0; ODelete 0]) = [AIndex 0; ABytes [7; 8]; ABroken]
  /\ exists f, open_file (open_world D64 wide_dev) [65] = Ok f /\ snd (file_delete f (open_world D64 wide_dev)) = Panic.
Proof. exact (conj wide_shape wide_panics). Qed.
Print Assumptions C46_delete_refuted.

(** C46: on an image with no more tracks than the map, and with info blocks on
    the disk, deleting any file that can be opened returns. *)
Theorem C46_delete_partial : forall t d name f,
  dev_shape t d -> g_tracks (d_geom d) = spec_tracks t -> open_file (open_world t d) name = Ok f ->
  (forall info s ft y mo da ho mi, de_extra (file_entry f) = XGEOS info s ft y mo da ho mi -> info = (0, 0) \/ covered t info) ->
  graceful (snd (file_delete f (open_world t d))).
Proof. exact delete_graceful. Qed.
Print Assumptions C46_delete_partial.

(** C46: and so does deleting a linear file whose sectors are on tracks of the map. *)
Theorem C46_linear_partial : forall t d name c e ls,
  dev_shape t d -> open_file (open_world t d) name = Ok (FLinear c e) ->
  sound_chain d (de_first e) ls -> (forall l, In l ls -> fst l <= spec_tracks t) ->
  graceful (snd (file_delete (FLinear c e) (open_world t d))).
Proof. exact delete_linear_graceful. Qed.
Print Assumptions C46_linear_partial.
Example C46_example : dev_shape D64 geos_dev /\ g_tracks (d_geom geos_dev) = spec_tracks D64
  /\ match open_file (open_world D64 geos_dev) [83] with
     | Ok f => match de_extra (file_entry f) with XGEOS info _ _ _ _ _ _ _ => covered D64 info | _ => False end
     | _ => False
     end.
Proof. split; [exact geos_shape|]. split; [vm_compute; reflexivity|]. vm_compute. repeat split; apply Nat.leb_le; reflexivity. Qed.

(** C53: on a disk with any allocation map, choosing a sector returns a free
    sector of the disk, or fails with DiskFull or InvalidBAM. The first sector
    of a file is off the directory track; the next sector is on the directory
    track if and only if the previous one is. *)
Theorem C53_any_map : forall t b,
  bam_frame t b ->
  search_answer t b (fun tr => tr <> dir_track t) (bam_next_free_block b None)
  /\ forall p, bam_sector t p -> 
      search_answer t b (fun tr => (tr = dir_track t <-> fst p = dir_track t) /\ (reserved t tr -> tr = fst p)) (bam_next_free_block b (Some p)).
Proof. exact (fun t b H => conj (new_any t b H) (fun p Hp => next_any_area t b p H Hp)). Qed.
Print Assumptions C53_any_map.
(** Every image gives such a map. *)
Theorem C53_map_of_image : forall t d b,
  dev_shape t d -> current_map (open_world t d) = Ok b -> bam_frame t b.
Proof. exact map_of_image. Qed.
Print Assumptions C53_map_of_image.
Example C53_example : dev_shape D64 bare_dev
  /\ match current_map (open_world D64 bare_dev) with Ok b => bam_next_free_block b None = Err EDiskFull | _ => False end
  /\ match current_map (open_world D64 locked_dev) with Ok b => bam_next_free_block b None = Ok (17, 0) | _ => False end.
Proof. split; [exact bare_shape|]. split; vm_compute; reflexivity. Qed.
