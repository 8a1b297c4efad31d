(** Properties of the errors, of the files on the host and of whole runs of
    cdisk: C64, C65 and C68 - C73. *)
From Coq Require Import Ascii String.
From Verif Require Import Base Layout Image Block Petscii GeosTypes Bam Format DirEntry Header World Validate Spec SpecBam SpecFiles SpecOutput Session SpecDisk Cdisk SpecTool
  CodecMore FlatProofs Text Errors Host Main SpecHost Keeps HostProofs ErrorProofs HostMore DemoHost.
Local Open Scope list_scope.

(** C64: an error keeps its identity on the way through io::Error. *)
Theorem C64_round_trip : forall e, from_io (to_io e) = e /\ from_io_error (to_io e) = Some e.
Proof. exact error_back. Qed.
Print Assumptions C64_round_trip.

Theorem C64_equal : forall x e,
  (disk_eq_io e x = true <-> io_source_of x = FromDisk e) /\ (io_eq_disk x e = true <-> io_source_of x = FromDisk e).
Proof. exact error_equal. Qed.
Print Assumptions C64_equal.

Theorem C64_foreign : forall x, (forall e, io_source_of x <> FromDisk e) -> from_io_error x = None /\ from_io x = EUnknown.
Proof. exact error_foreign. Qed.
Print Assumptions C64_foreign.

Theorem C64_text : forall e e', show_io (to_io e) = show_io (to_io e') <-> e = e'.
Proof. exact error_text. Qed.
Print Assumptions C64_text.

Theorem C64_not_found : forall e, io_kind_of (to_io e) = KNotFound <-> e = ENotFound.
Proof. exact error_kind. Qed.
Print Assumptions C64_not_found.
Example C64_example : (forall e, io_source_of missing <> FromDisk e)
  /\ disk_eq_io EDiskFull (to_io EDiskFull) = true /\ disk_eq_io ENotFound missing = false /\ io_kind_of missing = io_kind_of (to_io ENotFound).
Proof. split; [done|]. vm_compute. done. Qed.

(** C65: the arguments of cdisk. *)
Theorem C65_track : forall v o,
  track_arg v = Some o <-> match o with None => v = str "all" | Some n => unsigned v = Some (N.of_nat n) /\ 1 <= n <= 40 end.
Proof. exact track_arg_spec. Qed.
Print Assumptions C65_track.

Theorem C65_sector : forall v o,
  sector_arg v = Some o <-> match o with None => v = str "all" | Some n => unsigned v = Some (N.of_nat n) /\ 0 <= n <= 20 end.
Proof. exact sector_arg_spec. Qed.
Print Assumptions C65_sector.

Theorem C65_plain : forall n, (1 <= n <= 40 -> track_arg (dec n) = Some (Some n)) /\ (n <= 20 -> sector_arg (dec n) = Some (Some n)).
Proof. exact arg_accepts. Qed.
Print Assumptions C65_plain.

Theorem C65_type : forall ty ft, type_arg ty = Some ft <->
  (ty = None /\ ft = SEQ) \/ (ty = Some (str "prg") /\ ft = PRG) \/ (ty = Some (str "seq") /\ ft = SEQ) \/ (ty = Some (str "usr") /\ ft = USR).
Proof. exact type_arg_values. Qed.
Print Assumptions C65_type.

Theorem C65_type_names : forall t s,
  ((forall n, t <> FUnknown n) -> type_from_string (show_type t) = Some t)
  /\ (type_from_string s = Some t -> List.map upper s = List.map upper (show_type t)).
Proof. intros t s. split; [exact (type_string_known t)|exact (type_string_back t s)]. Qed.
Print Assumptions C65_type_names.

(** Not every sector of a disk can be named. *)
Theorem C65_reach_refuted : exists t l, on_disk t (spec_tracks t) l
  /\ (forall v, track_arg v <> Some (Some (fst l))) /\ (forall v, sector_arg v <> Some (Some (snd l))).
Proof.
  exists D81, (41, 21). split; [vm_compute; lia|]. cbn [fst snd].
  split; intros v H; [apply track_arg_spec in H as [_ H]|apply sector_arg_spec in H as [_ H]]; lia.
Qed.
Print Assumptions C65_reach_refuted.
Example C65_example : track_arg (str "+07") = Some (Some 7) /\ track_arg (str "41") = None /\ sector_arg (str "all") = Some None
  /\ sector_arg (str "-1") = None /\ type_from_string (str "Usr") = Some USR /\ type_arg (Some (str "PRG")) = None.
Proof. vm_compute. done. Qed.

(** C68: an image is taken for unformatted exactly when it is a D71 image whose
    flag of the second side is not set; then nothing but formatting is possible. *)
Theorem C68_unformatted : forall d o b,
  dev_shape D71 d -> sector d (18, 0) = Ok b -> b !!! 3 <> 128 -> needs_format o ->
  call (start D71 d) o = (start D71 d, AError EUnformatted).
Proof.
  intros d o b Hd Hb Hne Ho. apply unformatted_refuses; [done| |done]. apply unformatted_iff; [done|]. split; [done|]. by exists b.
Qed.
Print Assumptions C68_unformatted.

Theorem C68_detected_refuted : forall t d, dev_shape t d -> t <> D71 ->
  exists name n, snd (call (start t d) OName) = ABytes name /\ length name = 16 /\ snd (call (start t d) OFree) = ACount n.
Proof. exact formatted_accepts. Qed.
Print Assumptions C68_detected_refuted.
Example C68_example : dev_shape D71 (blank_dev D71 true) /\ dev_shape D64 (blank_dev D64 true)
  /\ exists b, sector (blank_dev D71 true) (18, 0) = Ok b /\ b !!! 3 <> 128.
Proof. split; [apply blank_dev_shape|]. split; [apply blank_dev_shape|]. exists (repeat 0 256). split; [vm_compute; reflexivity|done]. Qed.

(** C69: size, layout and error codes of an image never change; a command touches
    the image and the destination of a copy only; looking changes nothing. *)
Theorem C69_calls : forall t d os, dev_shape t d -> holds_bytes d -> Forall call_bytes os ->
  let d' := w_dev (s_world (fst (calls (start t d) os))) in
  dev_shape t d' /\ holds_bytes d' /\ d_geom d' = d_geom d /\ d_etable d' = d_etable d /\ d_writable d' = d_writable d.
Proof. intros t d os H1 H2 H3. destruct (calls_keep t d os H1 H2 H3) as [K1 K2 K3 K4 K5]. exact (conj K1 (conj K2 (conj K3 (conj K4 K5)))). Qed.
Print Assumptions C69_calls.

Theorem C69_layout : forall e p c h, fair e -> byte_files h -> onto_image p c = false -> same_layout p h (r_host (invoke e p c h)).
Proof. exact layout_kept. Qed.
Print Assumptions C69_layout.

Theorem C69_size : forall e p c h m t d bs,
  fair e -> byte_files h -> onto_image p c = false -> disk_open_path m p h = Good (t, d) -> h p = Some bs ->
  exists bs', r_host (invoke e p c h) p = Some bs' /\ length bs' = length bs.
Proof. exact size_kept. Qed.
Print Assumptions C69_size.

Theorem C69_other_files : forall e p c h q, q <> p -> copy_target c <> Some q -> r_host (invoke e p c h) q = h q.
Proof. exact invoke_only. Qed.
Print Assumptions C69_other_files.

Theorem C69_looking : forall e p c h, byte_files h -> looks c = true -> onto_image p c = false -> r_host (invoke e p c h) p = h p.
Proof. exact looks_keep. Qed.
Print Assumptions C69_looking.
Example C69_example : fair around /\ byte_files host2 /\ (exists a, image_file D64 a place_disk host2)
  /\ onto_image place_disk (CRead (str "X") (Some place_copy)) = false /\ onto_image place_disk (CRead (str "X") (Some place_disk)) = true
  /\ dev_shape D64 (blank_dev D64 true) /\ Forall call_bytes [OCreate [65] PRG; OFormat [66] (1, 2)].
Proof.
  split; [exact around_fair|]. split; [apply host2_image|]. split; [exists table2; apply host2_image|]. split; [done|]. split; [done|].
  split; [apply blank_dev_shape|]. unfold call_bytes, is_byte. repeat first [apply Forall_cons_2|apply Forall_nil_2|split|exact I|cbn; lia].
Qed.

(** C70: whole runs of the program. The image file stands for the table of files
    of SpecTool.v; every command within the protocol changes the table and the
    other files as specified, and shows the reply. *)
Theorem C70_runs : forall t p runs a f h a' f' rs,
  byte_files h -> image_file t a p h -> (forall x, x <> p -> h x = f x) ->
  Forall (fun y => fair (fst y)) runs -> user_run t p a f runs = Some (a', f', rs) ->
  let h' := fst (invoke_all (map (fun y => (fst y, p, snd y)) runs) h) in
  image_file t a' p h' /\ byte_files h' /\ (forall x, x <> p -> h' x = f' x)
  /\ Forall2 (fun cr x => shown (fst cr) (snd cr) x) (zip (map snd runs) rs) (snd (invoke_all (map (fun y => (fst y, p, snd y)) runs) h))
  /\ length rs = length runs.
Proof. exact host_runs. Qed.
Print Assumptions C70_runs.

Theorem C70_format : forall e p h t d name id,
  byte_files h -> disk_open_path true p h = Good (t, d) -> length (from_str_lossy name) <= 16 ->
  let x := invoke e p (CFormat name id) h in
  image_file t (table (from_str_lossy name ++ repeat 160 (16 - length (from_str_lossy name))) 1 NoBorder (repeat None 8)) p (r_host x)
  /\ byte_files (r_host x) /\ (forall q, q <> p -> r_host x q = h q) /\ r_end x = Finished None /\ r_text x = [] /\ r_bytes x = [].
Proof. exact host_format. Qed.
Print Assumptions C70_format.

Theorem C70_copy : forall e1 e2 p h t a ty ft source name dst bs a',
  fair e1 -> fair e2 -> byte_files h -> image_file t a p h ->
  source <> dash -> source <> p -> dst <> dash -> dst <> p -> h source = Some bs -> type_arg ty = Some ft ->
  tstep t a (TWrite [bs] name ft) = Some (a', RDone) ->
  let x := invoke e1 p (CWrite ty source (Some name)) h in
  let y := invoke e2 p (CRead name (Some dst)) (r_host x) in
  r_end x = Finished None /\ r_end y = Finished None /\ r_host y dst = Some bs
  /\ (forall q, q <> p -> q <> dst -> r_host y q = h q) /\ image_file t a' p (r_host y) /\ byte_files (r_host y).
Proof. exact host_round_trip. Qed.
Print Assumptions C70_copy.

Theorem C70_from_nothing : forall e1 e2 e3 e4 p h label id ty ft source name dst bs,
  let t := new_type (file_name p) in
  fair e1 -> fair e3 -> fair e4 -> byte_files h -> h p = None ->
  source <> dash -> source <> p -> dst <> dash -> dst <> p -> h source = Some bs -> type_arg ty = Some ft ->
  length (from_str_lossy label) <= 16 -> length (from_str_lossy name) <= 16 -> storable_name (from_str_lossy name) = true ->
  length bs <= 254 * disk_blocks t ->
  let '(h', xs) := invoke_all [(e1, p, CCreate); (e2, p, CFormat label id); (e3, p, CWrite ty source (Some name)); (e4, p, CRead name (Some dst))] h in
  h' dst = Some bs /\ (forall q, q <> p -> q <> dst -> h' q = h q) /\ map r_end xs = repeat (Finished None) 4.
Proof. exact host_from_nothing. Qed.
Print Assumptions C70_from_nothing.
Example C70_example : byte_files host2 /\ image_file D64 table2 place_disk host2 /\ Forall (fun y => fair (fst y)) script
  /\ exists a' f', user_run D64 place_disk table2 host2 script
       = Some (a', f', [RDone; RDone;
           RDir (from_str_lossy (str "LABEL") ++ repeat 160 11) [(from_str_lossy (str "HELLO"), mk_attr PRG false false false true, 1)] 663;
           RBytes [72; 69; 76; 76; 79]; RError ENotFound; RReport []]).
Proof.
  split; [apply host2_image|]. split; [apply host2_image|]. split; [unfold script; repeat (apply Forall_cons_2; [exact around_fair|]); apply Forall_nil_2|].
  assert (host2 place_source = Some [72; 69; 76; 76; 79]) as Hs.
  { unfold host2, host1. rewrite !invoke_only by done. done. }
  revert Hs. generalize host2. intros f Hs. eexists _, _. unfold script. cbn [user_run]. unfold request_of at 1. cbn [onto_image copy_target]. rewrite bool_decide_eq_false_2 by done.
  unfold read_source at 1. rewrite bool_decide_eq_false_2 by done. rewrite Hs. vm_compute. reflexivity.
Qed.

(** C71: a file that is missing or is no image is reported, and nothing changes. *)
Theorem C71_opening : forall m p h,
  match disk_open_path m p h with
  | Good (t, d) => exists bs, h p = Some bs /\ In (N.of_nat (length bs)) (map snd (spec_images t)) /\ dev_shape t d /\ file_of_dev d = bs /\ d_writable d = m
      /\ (forall t', from_extension (file_name p) = Some t' -> t = t')
  | Bad x =>
      (h p = None /\ x = missing) \/ (h p = Some [] /\ x = empty_map)
      \/ x = to_io EInvalidLayout /\ exists bs, h p = Some bs /\ bs <> []
           /\ forall t, from_extension (file_name p) = Some t \/ from_extension (file_name p) = None -> ~ In (N.of_nat (length bs)) (map snd (spec_images t))
  end.
Proof. exact open_path_cases. Qed.
Print Assumptions C71_opening.

Theorem C71_missing : forall e p c h, c <> CCreate -> ~ refused_arguments c -> h p = None ->
  let r := invoke e p c h in r_host r = h /\ r_text r = [] /\ r_bytes r = [] /\ r_end r = Finished (Some missing) /\ exit_status (r_end r) = Some 0.
Proof. exact no_file. Qed.
Print Assumptions C71_missing.

Theorem C71_wrong_size : forall e p c h bs, c <> CCreate -> ~ refused_arguments c -> h p = Some bs -> bs <> [] ->
  (forall t, from_extension (file_name p) = Some t \/ from_extension (file_name p) = None -> ~ In (N.of_nat (length bs)) (map snd (spec_images t))) ->
  (forall source d, (c = CAppend source d \/ exists ty, c = CWrite ty source d) -> is_Some (h source)) ->
  let r := invoke e p c h in r_host r = h /\ r_text r = [] /\ r_bytes r = [] /\ r_end r = Finished (Some (to_io EInvalidLayout)).
Proof. exact wrong_size. Qed.
Print Assumptions C71_wrong_size.

Theorem C71_existing : forall e p h bs, h p = Some bs ->
  r_host (invoke e p CCreate h) = h /\ r_end (invoke e p CCreate h) = Finished (Some exists_already).
Proof. exact create_exists. Qed.
Print Assumptions C71_existing.
Example C71_example : host0 place_disk = None /\ ~ refused_arguments (CDelete (str "X")) /\ refused_arguments (CWrite (Some (str "rel")) place_source None)
  /\ r_end (invoke around place_source (CDir 0) host0) = Finished (Some (to_io EInvalidLayout)).
Proof. split; [done|]. split; [auto|]. split; [done|]. vm_compute. reflexivity. Qed.

(** C72: the exit status does not tell whether a command has failed: the status
    is 0 in both cases. *)
Theorem C72_status_refuted : forall e p c h, c <> CCreate -> ~ refused_arguments c -> h p = None ->
  r_end (invoke e p c h) <> Finished None /\ exit_status (r_end (invoke e p c h)) = exit_status (Finished None).
Proof. intros e p c h H1 H2 H3. destruct (no_file e p c h H1 H2 H3) as (_ & _ & _ & -> & _). done. Qed.
Print Assumptions C72_status_refuted.

Theorem C72_message : forall failure, error_line (Finished failure) = [] <-> failure = None.
Proof. by intros [x|]. Qed.
Print Assumptions C72_message.
Example C72_example : exists x, r_end (invoke around place_disk (CDelete (str "X")) host0) = Finished (Some x)
  /\ error_line (Finished (Some x)) = str "Error: No such file or directory (os error 2)" ++ [10%N].
Proof. exists missing. split; vm_compute; reflexivity. Qed.

(** C73: creating an image file. *)
Theorem C73_new : forall t p g h, In g (allowed_geometries t) -> h p = None ->
  let n := N.to_nat (geometry_size g) in
  exists d, disk_create t p g true h = (put_file p (repeat 0 n) h, Good d) /\ flat_ok t d /\ im_bytes (fl_image d) = repeat 0 n
    /\ im_kind (fl_image d) = ReadWriteMap /\ fl_geometry d = g.
Proof. exact create_new_file. Qed.
Print Assumptions C73_new.

Theorem C73_existing : forall t p g h bs, h p = Some bs -> disk_create t p g true h = (h, Bad exists_already).
Proof. exact create_new_exists. Qed.
Print Assumptions C73_existing.

(** Without [create_new] the documentation promises a new image in the place of
    any existing file. *)
Theorem C73_overwrite_refuted : forall t p g h, In g (allowed_geometries t) ->
  match h p with
  | None => disk_create t p g false h = (h, Bad missing)
  | Some bs => exists d, disk_create t p g false h = (put_file p (im_bytes (fl_image d)) h, Good d)
      /\ length (im_bytes (fl_image d)) = N.to_nat (geometry_size g)
      /\ (forall i b, i < N.to_nat (geometry_size g) -> bs !! i = Some b -> im_bytes (fl_image d) !! i = Some b)
  end.
Proof. intros t p g h Hg. destruct (h p) as [bs|] eqn:E; [exact (overwrite_keeps t p g h bs Hg E)|exact (overwrite_missing t p g h E)]. Qed.
Print Assumptions C73_overwrite_refuted.
Example C73_example : In (plain_geometry D64) (allowed_geometries D64) /\ host0 place_disk = None /\ host0 place_source = Some [72; 69; 76; 76; 79].
Proof. split; [by left|]. done. Qed.
