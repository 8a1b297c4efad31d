(** Property theorems: files, histories of calls, validation, and crashes. *)
From Verif Require Import Base Layout Block Bam Format Petscii GeosTypes DirEntry Header World Chain Directory Writer Rel GeosFile File Validate
  Spec SpecChain SpecBam CodecMore View DevFacts SpecKinds Session SpecDisk SpecValidate SpecHandle ValidateProofs Opening Trace SoundImage ValidSound SpecFiles HandleProofs Tables Demo.

(** C20: formatting any writable image. [v] is the disk afterwards, or the image
    opened again. *)
Theorem C20_format : forall t w name id,
  w_type w = t -> dev_shape t (w_dev w) -> d_writable (w_dev w) = true -> length name <= 16 ->
  (forall c, w_bam w = Some c -> c < length (w_cells w)) ->
  exists w', write_format name id w = (w', Ok tt)
    /\ forall v, v = w' \/ v = open_world t (w_dev w') ->
       w_directory v = Ok [] /\ w_blocks_free v = Ok (disk_blocks t) /\ validate v = Ok []
       /\ w_name v = Some (name ++ repeat 160 (16 - length name))
       /\ (exists h, w_header v = Some h /\ h_disk_id h = id)
       /\ exists b, current_map v = Ok b
            /\ forall l, bam_sector t l -> is_free b l <-> ~ In l (system_locations (native_format t)).
Proof. exact format_outcome. Qed.
Print Assumptions C20_format.
Example C20_blocks : map disk_blocks [D64; D71; D81] = [664; 1328; 3160].
Proof. reflexivity. Qed.
Example C20_example : exists w, w_type w = D71 /\ dev_shape D71 (w_dev w) /\ d_writable (w_dev w) = true
  /\ forall c, w_bam w = Some c -> c < length (w_cells w).
Proof.
  exists (open_world D71 (blank_dev D71 true)). destruct (open_world_cells D71 (blank_dev D71 true)) as (H1 & H2 & H3).
  rewrite H3. split; [exact H2|]. split; [apply blank_dev_shape|]. split; [reflexivity|exact H1].
Qed.

(** C44: the system sectors are those allocated on a fresh disk. *)
Theorem C44_fresh_allocation : forall t d name id,
  dev_shape t d -> d_writable d = true -> length name <= 16 ->
  exists w' b, write_format name id (open_world t d) = (w', Ok tt) /\ current_map w' = Ok b
    /\ forall l, bam_sector t l -> ~ is_free b l <-> In l (system_locations (native_format t)).
Proof. exact fresh_allocation. Qed.
Print Assumptions C44_fresh_allocation.
Example C44_fresh_example : dev_shape D81 (blank_dev D81 true) /\ d_writable (blank_dev D81 true) = true.
Proof. split; [apply blank_dev_shape|reflexivity]. Qed.

(** C22: creating a file and writing to it in any number of writes. *)
Theorem C22_create_write_read : forall t a s es n name ft bufs,
  reached t a s -> w_directory (s_world s) = Ok es -> w_blocks_free (s_world s) = Ok n ->
  length name <= 16 -> last name <> Some 160 -> storable_type ft = true -> ~ In name (map de_name es) ->
  length (ordinary es) < dir_room t (border_in t (s_world s)) ->
  let size := Nat.max 1 ((length (concat bufs) + 253) / 254) in
  size <= n ->
  let h := length (s_handles s) in
  let k := length (s_writers s) in
  exists s' a', calls s (OCreate name ft :: OWriter h :: map (OWrite k) bufs ++ [OClose k])
      = (s', AIndex h :: AIndex k :: map (fun b => ACount (length b)) bufs ++ [ADone])
    /\ reached t a' s' /\ as_synced a' = true
    /\ forall f, shows (s_world s') f <->
         f = mk_afile name (mk_attr ft false false false true) size (concat bufs) KPlain \/ shows (s_world s) f.
Proof. exact create_write_outcome. Qed.
Print Assumptions C22_create_write_read.

(** C22: appending through a new writer. *)
Theorem C22_append : forall t a s h i f bufs n,
  reached t a s -> file_of a h = Some (i, f) -> writer_on a i = false ->
  w_blocks_free (s_world s) = Ok n ->
  length (a_data f ++ concat bufs) <= 254 * (a_blocks f + n) ->
  let k := length (s_writers s) in
  let f' := mk_afile (a_name f) (a_attr f)
              (Nat.max 1 ((length (a_data f ++ concat bufs) + 253) / 254)) (a_data f ++ concat bufs) KPlain in
  exists s' a', calls s (OWriter h :: map (OWrite k) bufs ++ [OClose k])
      = (s', AIndex k :: map (fun b => ACount (length b)) bufs ++ [ADone])
    /\ reached t a' s' /\ as_synced a' = true
    /\ forall g, shows (s_world s') g <-> g = f' \/ (shows (s_world s) g /\ a_name g <> a_name f).
Proof. exact append_shows. Qed.
Print Assumptions C22_append.

(** C22: reading a file back with read calls of any sizes. *)
Theorem C22_read : forall t a s f ns,
  reached t a s -> shows (s_world s) f -> a_special f = false ->
  exists s', calls s [OOpen (a_name f); ORead (length (s_handles s)) ns]
      = (s', [AIndex (length (s_handles s)); AReads (pieces (a_data f) ns)])
    /\ s_world s' = s_world s.
Proof. exact read_outcome. Qed.
Print Assumptions C22_read.
Example C22_example : reached D64 demo_a demo_s
  /\ file_of demo_a 0 = Some (0, file_a) /\ writer_on demo_a 0 = false /\ blocks_left D64 demo_a = 661
  /\ shows (s_world demo_s) file_a
  /\ pieces (a_data file_a) [100; 0; 250; 9] = [repeat 7 100; []; repeat 7 200; []].
Proof.
  split; [exact demo_reached|]. split; [reflexivity|]. split; [reflexivity|]. split; [reflexivity|].
  split; [|reflexivity]. apply (reached_shows _ _ _ _ demo_reached). exists 0. reflexivity.
Qed.

(** C23: a call leaves every file alone that it is not about. *)
Theorem C23_other_files : forall t a s o a' r j f,
  reached t a s -> astep t a o = Some (a', r) -> is_format o = false ->
  as_slots a !! j = Some (Some f) -> about a o <> Some j ->
  shows (s_world s) f /\ exists s', call s o = (s', r) /\ shows (s_world s') f.
Proof. exact other_files. Qed.
Print Assumptions C23_other_files.
Example C23_example : exists a' r, astep D64 demo_a (ORename name_b name_c) = Some (a', r)
  /\ as_slots demo_a !! 0 = Some (Some file_a) /\ about demo_a (ORename name_b name_c) = Some 2.
Proof. eexists _, _. split; [vm_compute; reflexivity|]. split; vm_compute; reflexivity. Qed.

(** C24: the disk behaves like a table of files. *)
Theorem C24_table_of_files : forall t d name id os a rs,
  dev_shape t d -> d_writable d = true -> length name <= 16 ->
  arun t (formatted name 0 0) os = Some (a, rs) ->
  snd (calls (start t d) (OFormat name id :: os)) = ADone :: rs.
Proof. exact history_answers. Qed.
Print Assumptions C24_table_of_files.
Example C24_example :
  exists a, arun D64 (formatted demo_name 0 0) demo_ops
    = Some (a, [AIndex 0; AIndex 0; ACount 300; ADone; AIndex 1; AIndex 2; AIndex 1; ACount 3; ADone]).
Proof. exists demo_a. vm_compute. reflexivity. Qed.

Theorem C24_existing_image : forall t d dirs chains a0 os a rs,
  sound_image t d dirs chains a0 -> arun t a0 os = Some (a, rs) -> snd (calls (start t d) os) = rs.
Proof. exact history_open. Qed.
Print Assumptions C24_existing_image.
Example C24_existing_example : exists dirs chains a rs,
  sound_image D64 (w_dev (s_world demo_s2)) dirs chains (set_handles [] (set_writers [] demo_a2))
  /\ arun D64 (set_handles [] (set_writers [] demo_a2)) [OOpen name_a; ORead 0 [300]; OCreate name_c SEQ]
     = Some (a, rs) /\ rs = [AIndex 0; AReads [repeat 7 300]; AIndex 1].
Proof.
  destruct demo_sound as (dirs & chains & H). eexists dirs, chains, _, _. split; [exact H|]. split; vm_compute; reflexivity.
Qed.

(** C25: free blocks and listed blocks add up. *)
Theorem C25_blocks_conserved : forall t a s,
  reached t a s -> exists es n, w_directory (s_world s) = Ok es /\ w_blocks_free (s_world s) = Ok n
    /\ n + border_block (border_in t (s_world s)) + sum (map de_size es) = disk_blocks t.
Proof. exact reached_sum. Qed.
Print Assumptions C25_blocks_conserved.
Example C25_example : reached D64 demo_a demo_s /\ sum (map blocks_of (as_slots demo_a)) = 3.
Proof. split; [exact demo_reached|reflexivity]. Qed.

(** C26: a write fits, or stores the longest prefix that fits. *)
Theorem C26_write : forall t a s k x f buf n,
  reached t a s -> as_writers a !! k = Some (Some x) -> as_slots a !! aw_slot x = Some (Some f) ->
  w_blocks_free (s_world s) = Ok n ->
  exists s' a' f' r pend, call s (OWrite k buf) = (s', r) /\ reached t a' s'
    /\ as_slots a' = <[aw_slot x := Some f']> (as_slots a)
    /\ as_writers a' = <[k := Some (mk_awriter (aw_slot x) pend true)]> (as_writers a)
    /\ shows (s_world s') f' /\ a_name f' = a_name f /\ a_attr f' = a_attr f
    /\ if length (a_data f ++ aw_pend x ++ buf) <=? 254 * (a_blocks f + n)
       then r = ACount (length buf) /\ a_data f' ++ pend = a_data f ++ aw_pend x ++ buf
            /\ a_blocks f' = Nat.max 1 ((length (a_data f ++ aw_pend x ++ buf) + 253) / 254)
       else r = AError EDiskFull /\ pend = [] /\ a_blocks f' = a_blocks f + n
            /\ a_data f' = take (254 * (a_blocks f + n)) (a_data f ++ aw_pend x ++ buf)
            /\ w_blocks_free (s_world s') = Ok 0.
Proof. exact write_outcome. Qed.
Print Assumptions C26_write.
Example C26_example : as_writers demo_a !! 1 = Some (Some (mk_awriter 2 [1; 2; 3] true))
  /\ as_slots demo_a !! 2 = Some (Some file_b) /\ 254 * (1 + blocks_left D64 demo_a) = 254 * 662.
Proof. split; [|split]; reflexivity. Qed.

(** C26, C27: when creating a file works. *)
Theorem C27_create : forall t a s es n name ft,
  reached t a s -> w_directory (s_world s) = Ok es -> w_blocks_free (s_world s) = Ok n ->
  length name <= 16 -> last name <> Some 160 -> storable_type ft = true -> ~ In name (map de_name es) ->
  exists s' a', reached t a' s'
    /\ call s (OCreate name ft)
       = (s', if (n =? 0) || (length (ordinary es) =? dir_room t (border_in t (s_world s))) then AError EDiskFull else AIndex (length (s_handles s)))
    /\ forall f, shows (s_world s') f <->
         (n <> 0 /\ length (ordinary es) <> dir_room t (border_in t (s_world s)) /\ f = mk_afile name (mk_attr ft false false false true) 1 [] KPlain) \/ shows (s_world s) f.
Proof. exact create_shows. Qed.
Print Assumptions C27_create.
Theorem C27_capacity : forall t a s es,
  reached t a s -> w_directory (s_world s) = Ok es ->
  length (ordinary es) <= dir_room t (border_in t (s_world s)) /\ length es <= length (ordinary es) + border_room (border_in t (s_world s)).
Proof. exact listed_bound. Qed.
Print Assumptions C27_capacity.
(** Unused slots are used before the directory grows. *)
Theorem C27_reuse : forall t a s name ft s' r ls es,
  reached t a s -> storable_name name && storable_type ft = true ->
  call s (OCreate name ft) = (s', r) ->
  chain_locations (w_dev (s_world s)) (first_dir t) = Ok ls -> w_directory (s_world s) = Ok es ->
  length (ordinary es) < 8 * length ls ->
  chain_locations (w_dev (s_world s')) (first_dir t) = Ok ls.
Proof. exact slots_reused. Qed.
Print Assumptions C27_reuse.
Example C27_example : map (fun t => dir_room t NoBorder) [D64; D71; D81] = [144; 144; 296]
  /\ map (fun t => dir_room t BorderInDirectory) [D64; D71; D81] = [136; 136; 288]
  /\ slot_named demo_a name_c = None /\ slot_unused demo_a = Some 1.
Proof. split; [|split; [|split]]; reflexivity. Qed.

(** C28: deleting, whatever the kind of the file. *)
Theorem C28_delete : forall t a s h i f,
  reached t a s -> held a h = Some (i, f) -> writer_on a i = false -> removable (a_kind f) = true ->
  exists s' a' x ls b b', call s (ODelete h) = (s', ADone) /\ reached t a' s'
    /\ s_handles s !! h = Some x
    /\ file_occupied (w_dev (s_world s)) x = Ok ls /\ length ls = a_blocks f /\ NoDup ls
    /\ current_map (s_world s) = Ok b /\ current_map (s_world s') = Ok b'
    /\ (forall l, In l ls -> bam_sector t l /\ ~ is_free b l)
    /\ (forall l, bam_sector t l -> is_free b' l <-> is_free b l \/ In l ls)
    /\ open_file (s_world s') (a_name f) = Err ENotFound
    /\ (forall g, shows (s_world s') g <-> shows (s_world s) g /\ a_name g <> a_name f)
    /\ as_slots a' = <[i := None]> (as_slots a).
Proof. exact delete_outcome. Qed.
Print Assumptions C28_delete.
Example C28_example : reached D64 demo_a demo_s /\ held demo_a 0 = Some (0, file_a) /\ writer_on demo_a 0 = false /\ removable (a_kind file_a) = true.
Proof. split; [exact demo_reached|split; [|split]; reflexivity]. Qed.

(** C30: names are unique, if no name ends in the padding byte. *)
Theorem C30_unique_names_partial : forall t a s es,
  reached t a s -> w_directory (s_world s) = Ok es -> NoDup (map de_name es).
Proof. exact reached_names. Qed.
Print Assumptions C30_unique_names_partial.
Example C30_example : reached D64 demo_a demo_s /\ map (fun x => fst (fst x)) (listing demo_a) = [name_a; name_b].
Proof. split; [exact demo_reached|reflexivity]. Qed.

(** C31: every reachable disk validates clean. *)
Theorem C31_validates : forall t a s, reached t a s -> validate (s_world s) = Ok [].
Proof. exact reached_clean. Qed.
Print Assumptions C31_validates.
Example C31_example : reached D64 demo_a demo_s.
Proof. exact demo_reached. Qed.

(** C33: after a plain file was deleted, or a writer with something to write was
    flushed or closed, the image opened again shows the same disk. *)
Theorem C33_reopen : forall t a s o a' r,
  reached t a s -> astep t a o = Some (a', r) ->
  (exists h i f, o = ODelete h /\ file_of a h = Some (i, f))
  \/ (exists k x, (o = OFlush k \/ o = OClose k) /\ as_writers a !! k = Some (Some x) /\ aw_dirty x = true) ->
  exists s', call s o = (s', r) /\ reached t a' s'
    /\ let w := s_world s' in let w' := open_world t (w_dev w) in
       w_directory w' = w_directory w
       /\ (forall f, shows w' f <-> shows w f)
       /\ current_map w' = current_map w
       /\ w_blocks_free w' = w_blocks_free w
       /\ w_name w' = w_name w
       /\ validate w' = Ok [].
Proof. exact reopen_after. Qed.
Print Assumptions C33_reopen.
Example C33_example : exists a' r x, astep D64 demo_a (OClose 1) = Some (a', r)
  /\ as_writers demo_a !! 1 = Some (Some x) /\ aw_dirty x = true.
Proof. eexists _, _, _. split; [vm_compute; reflexivity|]. split; vm_compute; reflexivity. Qed.

(** C47: a crash after any number of the sector writes of a call. *)
Theorem C47_crash : forall t a s o a' r,
  reached t a s -> astep t a o = Some (a', r) -> is_format o = false ->
  exists s' ws, call s o = (s', r) /\ reached t a' s'
    /\ d_log (w_dev (s_world s')) = d_log (w_dev (s_world s)) ++ ws
    /\ w_dev (s_world s') = after_writes (w_dev (s_world s)) ws
    /\ forall j f, as_slots a !! j = Some (Some f) -> about a o <> Some j ->
         as_slots a' !! j = Some (Some f)
         /\ forall n, shows (open_world t (after_writes (w_dev (s_world s)) (take n ws))) f.
Proof. exact crash_safe. Qed.
Print Assumptions C47_crash.
Example C47_example : exists a' r, astep D64 demo_a (OWrite 1 (repeat 9 600)) = Some (a', r)
  /\ as_slots demo_a !! 0 = Some (Some file_a) /\ about demo_a (OWrite 1 (repeat 9 600)) = Some 2.
Proof. eexists _, _. split; [vm_compute; reflexivity|]. split; vm_compute; reflexivity. Qed.

(** C50: handles keep working on the map of their disk until it is dropped. *)
Theorem C50_follow : forall ms w c b,
  w_bam w = Some c -> w_cells w !! c = Some b -> Forall (fun m => m <> None) ms ->
  w_bam (set_maps ms w) = Some c /\ w_cells (set_maps ms w) !! c = Some (latest b ms).
Proof. exact maps_kept. Qed.
Print Assumptions C50_follow.
Theorem C50_dropped : forall ms w c b,
  w_bam w = Some c -> w_cells w !! c = Some b -> In None ms ->
  exists b', w_cells (set_maps ms w) !! c = Some b' /\ b_invalidated b' = true /\ w_bam (set_maps ms w) <> Some c.
Proof. exact maps_dropped. Qed.
Print Assumptions C50_dropped.
Theorem C50_reinitialise : forall t w c b0,
  w_type w = t -> dev_shape t (w_dev w) -> w_bam w = Some c -> w_cells w !! c = Some b0 ->
  (exists h b f, header_read (w_dev w) (header_fmt (native_format t)) = Ok h /\ bam_read (w_dev w) (native_format t) = Ok b
     /\ w_bam (initialize w) = Some c /\ w_cells (initialize w) !! c = Some (bam_set_format f b))
  \/ ((forall h, header_read (w_dev w) (header_fmt (native_format t)) <> Ok h) /\ w_bam (initialize w) = None
      /\ exists b, w_cells (initialize w) !! c = Some b /\ b_invalidated b = true).
Proof. exact initialize_keeps. Qed.
Print Assumptions C50_reinitialise.
Theorem C50_reformat : forall t w name id c b0,
  w_type w = t -> dev_shape t (w_dev w) -> d_writable (w_dev w) = true -> length name <= 16 ->
  w_bam w = Some c -> w_cells w !! c = Some b0 ->
  exists w' b, write_format name id w = (w', Ok tt) /\ w_bam w' = Some c /\ w_cells w' !! c = Some b /\ b_invalidated b = false
    /\ forall l, bam_sector t l -> is_free b l <-> ~ In l (system_locations (native_format t)).
Proof. exact format_follow. Qed.
Print Assumptions C50_reformat.
(** Handles on a dropped map are refused. *)
Theorem C50_refused : forall w c b,
  w_cells w !! c = Some b -> b_invalidated b = true ->
  (forall x ls, handle_map x = c -> chain_locations (w_dev w) (de_first (file_entry x)) = Ok ls ->
     file_delete x w = (w, Err EInvalidBAM))
  /\ (forall k old, cw_bam k = c -> d_writable (w_dev w) = true -> sector (w_dev w) (cw_loc k) = Ok old ->
     let w' := set_dev (upd (w_dev w) (cw_loc k) (cw_block k)) w in
     (cw_dirty k = true -> writer_flush (w, k) = ((w', k), Err EInvalidBAM))
     /\ allocate_next_block (w, k) = ((w', k), Err EInvalidBAM)).
Proof. exact refused. Qed.
Print Assumptions C50_refused.
Example C50_example : exists w c b, w_bam w = Some c /\ w_cells w !! c = Some b /\ w_type w = D64 /\ dev_shape D64 (w_dev w)
  /\ d_writable (w_dev w) = true /\ exists b', w_cells (set_maps [None] w) !! c = Some b' /\ b_invalidated b' = true.
Proof.
  exists (mk_world D64 (blank_dev D64 true) None None (Some 0) [bam_new (native_format D64)]), 0, (bam_new (native_format D64)).
  split; [reflexivity|]. split; [reflexivity|]. split; [reflexivity|]. split; [apply blank_dev_shape|]. split; [reflexivity|].
  exists (bam_invalidate (bam_new (native_format D64))). split; reflexivity.
Qed.

(** C54: an image left by a history is in order; an image that validates clean
    is in order, given what validate() does not look at. *)
Theorem C54_left_in_order : forall t a s,
  reached t a s -> as_synced a = true -> writer_open a = false -> holds_bytes (w_dev (s_world s)) ->
  exists dirs chains, sound_image t (w_dev (s_world s)) dirs chains (set_handles [] (set_writers [] a)).
Proof. exact reached_sound. Qed.
Print Assumptions C54_left_in_order.
Theorem C54_validated : forall t d dirs es,
  dev_shape t d -> holds_bytes d -> d_writable d = true ->
  validate (open_world t d) = Ok [] ->
  sound_chain d (dir_track t, match t with D81 => 3 | _ => 1 end) dirs -> w_directory (open_world t d) = Ok es ->
  plain_image t d dirs es ->
  exists chains a, sound_image t d dirs chains a /\ listing a = map entry_line es.
Proof. intros t. destruct t; [exact (validated_sound D64)|exact (validated_sound D71)|exact (validated_sound D81)]. Qed.
Print Assumptions C54_validated.
Theorem C54_in_order_validates : forall t d dirs chains a,
  sound_image t d dirs chains a ->
  validate (open_world t d) = Ok [] /\ exists es, w_directory (open_world t d) = Ok es /\ listing a = map entry_line es
    /\ plain_image t d dirs es.
Proof. exact sound_validates. Qed.
Print Assumptions C54_in_order_validates.
Example C54_example : as_synced demo_a2 = true /\ writer_open demo_a2 = false /\ holds_bytes (w_dev (s_world demo_s2))
  /\ reached D64 demo_a2 demo_s2
  /\ exists dirs chains es, sound_image D64 (w_dev (s_world demo_s2)) dirs chains (set_handles [] (set_writers [] demo_a2))
       /\ plain_image D64 (w_dev (s_world demo_s2)) dirs es.
Proof.
  split; [vm_compute; reflexivity|]. split; [vm_compute; reflexivity|]. split; [exact demo_bytes|]. split; [exact demo_reached2|].
  destruct demo_sound as (dirs & chains & H). destruct (sound_validates _ _ _ _ _ H) as (_ & es & _ & _ & Hp).
  by exists dirs, chains, es.
Qed.
