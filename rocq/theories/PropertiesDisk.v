(** Properties of images, sector addressing and enumeration. *)
From Verif Require Import Base ListFacts Layout Image Block Spec GeomFacts FlatProofs ErrorTable.

(** C01: every sector of an opened image is its own 256 bytes; together they
    are all bytes before the error table; anything else is refused. *)
Theorem C01_sector_addressing : forall t d,
  flat_new t (fl_image d) = Ok d ->
  let n := g_tracks (fl_geometry d) in
  let bytes := im_bytes (fl_image d) in
  In (n, g_errors (fl_geometry d), N.of_nat (length bytes)) (spec_images t)
  /\ (forall l, on_disk t n l ->
        fl_read_sector d l = Ok (slice (spec_offset t l) 256 bytes)
        /\ spec_offset t l + 256 <= length bytes)
  /\ (forall l, ~ on_disk t n l -> fl_read_sector d l = Err EInvalidLocation)
  /\ (forall l l', on_disk t n l -> on_disk t n l' -> l <> l' ->
        spec_offset t l + 256 <= spec_offset t l' \/ spec_offset t l' + 256 <= spec_offset t l)
  /\ (forall i, i < 256 * sum (map (spec_sectors t) (seq 1 n)) <->
        exists l, on_disk t n l /\ spec_offset t l <= i < spec_offset t l + 256)
  /\ (fl_error_table d = Ok (if g_errors (fl_geometry d)
        then Some (drop (256 * sum (map (spec_sectors t) (seq 1 n))) bytes) else None)).
Proof. exact addressing. Qed.
Print Assumptions C01_sector_addressing.

Example C01_example :
  flat_new D71 (blank_image Memory 351062) =
  Ok (mk_flat_dev (blank_image Memory 351062) (mk_geometry d71_tracks 70 true)).
Proof. apply blank_open. reflexivity. Qed.

(** C02: writing a sector and reading sectors back. *)
Theorem C02_raw_store : forall t d l data d' r,
  flat_new t (fl_image d) = Ok d -> fl_write_sector l data d = (d', r) ->
  (r = Ok tt <->
     im_kind (fl_image d) <> ReadOnlyMap /\ length data = 256
     /\ on_disk t (g_tracks (fl_geometry d)) l)
  /\ (r <> Ok tt -> d' = d /\
        ((length data <> 256 /\ r = Err EWriteUnderrun)
         \/ (im_kind (fl_image d) = ReadOnlyMap /\ r = Err EReadOnly)
         \/ (~ on_disk t (g_tracks (fl_geometry d)) l /\ r = Err EInvalidLocation)))
  /\ (r = Ok tt ->
        fl_read_sector d' l = Ok data
        /\ (forall l', l' <> l -> fl_read_sector d' l' = fl_read_sector d l')
        /\ fl_error_table d' = fl_error_table d
        /\ im_kind (fl_image d') = im_kind (fl_image d)
        /\ flat_new t (fl_image d') = Ok d').
Proof. exact raw_store'. Qed.
Print Assumptions C02_raw_store.

(** C02: a change of the table of error codes reaches no sector, and is refused
    exactly on a read-only image; an image without a table stays as it is. *)
Theorem C02_error_table : forall t d f d' r,
  flat_new t (fl_image d) = Ok d -> (forall b, length (f b) = length b) ->
  fl_error_table_mut f d = (d', r) ->
  (im_kind (fl_image d) = ReadOnlyMap -> d' = d /\ r = Err EReadOnly)
  /\ (im_kind (fl_image d) <> ReadOnlyMap ->
        (forall l, fl_read_sector d' l = fl_read_sector d l)
        /\ im_kind (fl_image d') = im_kind (fl_image d)
        /\ flat_new t (fl_image d') = Ok d'
        /\ ((fl_error_table d = Ok None /\ r = Ok None /\ d' = d)
            \/ exists b, fl_error_table d = Ok (Some b) /\ r = Ok (Some tt)
                 /\ fl_error_table d' = Ok (Some (f b)))).
Proof. exact store_table. Qed.
Print Assumptions C02_error_table.

(** C02: flushing an image works exactly when it can be written. *)
Theorem C02_flush : forall d,
  (im_kind (fl_image d) <> ReadOnlyMap -> fl_flush d = Ok tt)
  /\ (im_kind (fl_image d) = ReadOnlyMap -> fl_flush d = Err EReadOnly).
Proof. exact flush_image. Qed.
Print Assumptions C02_flush.

(** C02: the disk interface, which works on sectors, reads and writes what the
    bytes of the image file would. *)
Theorem C02_same_store : forall t k d l data,
  dev_shape t d -> d_writable d = kind_writable k ->
  fl_read_sector (flatten k d) l = read_sector d l
  /\ fl_write_sector l data (flatten k d)
     = (flatten k (fst (write_sector l data d)), snd (write_sector l data d)).
Proof. exact same_store. Qed.
Print Assumptions C02_same_store.

(** An image with a table of errors, so that [C02_error_table] says something. *)
Example C02_table_example :
  let d := mk_flat_dev (blank_image Memory 175531) (mk_geometry d64_tracks 35 true) in
  flat_new D64 (fl_image d) = Ok d
  /\ error_table_offset (fl_geometry d) = Some 174848%N
  /\ (forall b : list nat, length (map (fun _ => 1) b) = length b).
Proof.
  split; [apply blank_open; reflexivity|]. split; [reflexivity|]. intros b. apply map_length.
Qed.

Example C02_example :
  let d := mk_flat_dev (blank_image Memory 174848) (mk_geometry d64_tracks 35 false) in
  flat_new D64 (fl_image d) = Ok d
  /\ on_disk D64 (g_tracks (fl_geometry d)) (35, 16)
  /\ ~ on_disk D64 (g_tracks (fl_geometry d)) (35, 17).
Proof.
  split; [apply blank_open; reflexivity|].
  split; [split; simpl; unfold zone; simpl; lia|]. intros [_ H]. simpl in H. unfold zone in H. simpl in H. lia.
Qed.

(** C03: opening an image by its size. *)
Theorem C03_size_selects_layout : forall ext im,
  (forall t d, disk_open ext im = Ok (t, d) ->
     fl_image d = im /\ flat_new t im = Ok d
     /\ In (g_tracks (fl_geometry d), g_errors (fl_geometry d), im_len im) (spec_images t)
     /\ (forall t', ext = Some t' -> t = t'))
  /\ ((exists t d, disk_open ext im = Ok (t, d)) <->
      exists t n e, (ext = None \/ ext = Some t) /\ In (n, e, im_len im) (spec_images t))
  /\ ((forall t n e, (ext = None \/ ext = Some t) -> ~ In (n, e, im_len im) (spec_images t)) ->
      disk_open ext im = Err EInvalidLayout)
  /\ (forall t t' n e n' e', In (n, e, im_len im) (spec_images t) ->
        In (n', e', im_len im) (spec_images t') -> t = t' /\ n = n' /\ e = e').
Proof. exact open_by_size. Qed.
Print Assumptions C03_size_selects_layout.

Example C03_example :
  (exists d, disk_open None (blank_image ReadWriteMap 822400) = Ok (D81, d))
  /\ disk_open (Some D71) (blank_image ReadWriteMap 174848) = Err EInvalidLayout.
Proof.
  split.
  - eexists. unfold disk_open, flat_new. rewrite !blank_len. reflexivity.
  - unfold disk_open, flat_new. rewrite !blank_len. reflexivity.
Qed.

(** C44: the iterators over sectors deliver every sector once, in order. *)
Theorem C44_enumeration_geometry : forall t g fuel,
  In g (allowed_geometries t) -> sector_count g <= fuel ->
  loc_iter_run fuel (g_layouts g) (g_tracks g) (Some (1, 0)) = all_sectors t (g_tracks g).
Proof. exact geometry_iterator. Qed.
Print Assumptions C44_enumeration_geometry.

Theorem C44_enumeration_format : forall t fuel,
  sum (map (spec_sectors t) (seq 1 (last_track (native_format t)))) <= fuel ->
  fmt_iter_run fuel (native_format t) (Some (1, 0)) = all_sectors t (last_track (native_format t)).
Proof. exact format_iterator. Qed.
Print Assumptions C44_enumeration_format.

Theorem C44_all_sectors_complete : forall t n,
  StronglySorted loc_lt (all_sectors t n)
  /\ forall l, In l (all_sectors t n) <-> on_disk t n l.
Proof. intros t n. exact (conj (all_sectors_sorted t n) (in_all_sectors t n)). Qed.
Print Assumptions C44_all_sectors_complete.

Example C44_example :
  In (mk_geometry d64_tracks 40 true) (allowed_geometries D64)
  /\ sector_count (mk_geometry d64_tracks 40 true) = 768
  /\ length (all_sectors D64 40) = 768.
Proof. split; [simpl; tauto|]. split; vm_compute; reflexivity. Qed.
