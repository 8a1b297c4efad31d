(** Properties that are false of the code, with the images that show it. The
    images are small changes of an empty one, and each check runs the model. *)
From Verif Require Import Base Layout Block Bam Format Petscii GeosTypes DirEntry Header World Chain Directory Writer Rel GeosFile File Validate
  Spec SpecChain SpecFiles SpecGeos SpecBam CodecMore DevFacts Session SpecDisk RelProofs DemoImages.

Lemma with_result {A B} (x : A * B) b : snd x = b -> x = (fst x, b).
Proof. by destruct x; intros; simplify_eq/=. Qed.

(** ** Formatting with a name that is too long *)

Lemma format_destroys : exists w w' k l,
  dev_shape D64 (w_dev w) /\ write_format (repeat 65 17) (48, 49) w = (w', Err k)
  /\ sector (w_dev w') l <> sector (w_dev w) l.
Proof.
  exists (open_world D64 rel_dev), (fst (write_format (repeat 65 17) (48, 49) (open_world D64 rel_dev))), EFilenameTooLong, (17, 5).
  split; [exact rel_shape|]. split; [apply with_result; vm_compute; reflexivity|].
  intros H%(f_equal (fun r => match r with Ok b => b !!! 1 | _ => 0 end)). revert H. vm_compute. discriminate.
Qed.

(** ** Names that end in the padding byte *)

Lemma names_twice : exists n,
  snd (calls (start D64 (blank_dev D64 true)) [OFormat [68] (48, 49); OCreate n PRG; OCreate (n ++ [160]) PRG]) = [ADone; AIndex 0; AIndex 1]
  /\ exists es, w_directory (s_world (fst (calls (start D64 (blank_dev D64 true)) [OFormat [68] (48, 49); OCreate n PRG; OCreate (n ++ [160]) PRG]))) = Ok es
  /\ map de_name es = [n; n].
Proof.
  exists [65]. split; [vm_compute; reflexivity|]. eexists. split; [vm_compute; reflexivity|]. reflexivity.
Qed.

(** ** A created file without a writer *)

Lemma created_lost : exists s s' h l n,
  s = fst (call (start D64 (blank_dev D64 true)) (OFormat [68] (48, 49)))
  /\ call s (OCreate [65] PRG) = (s', AIndex h)
  /\ snd (calls s' [OReopen; OValidate]) = [ADone; AReport [VSectorMisoccupied l n]].
Proof.
  eexists _, _, 0, (17, 0), [65]. split; [reflexivity|]. split; [apply with_result; vm_compute; reflexivity|]. vm_compute. reflexivity.
Qed.

(** ** Deleting a relative or a GEOS file *)

Lemma rel_delete_lost : exists f ls w' b,
  open_file (open_world D64 rel_dev) rel_name = Ok f
  /\ file_occupied rel_dev f = Ok ls /\ In (17, 5) ls
  /\ file_delete f (open_world D64 rel_dev) = (w', Ok tt)
  /\ current_map (open_world D64 (w_dev w')) = Ok b /\ ~ is_free b (17, 5).
Proof.
  eexists _, _, _, _. split; [vm_compute; reflexivity|]. split; [vm_compute; reflexivity|]. split; [cbv [In]; tauto|].
  split; [apply with_result; vm_compute; reflexivity|].
  split; [vm_compute; reflexivity|]. vm_compute. discriminate.
Qed.
Lemma geos_delete_lost : exists f ls w' b,
  open_file (open_world D64 geos_dev) [83] = Ok f
  /\ file_occupied geos_dev f = Ok ls /\ In (17, 5) ls
  /\ file_delete f (open_world D64 geos_dev) = (w', Ok tt)
  /\ current_map (open_world D64 (w_dev w')) = Ok b /\ ~ is_free b (17, 5).
Proof.
  eexists _, _, _, _. split; [vm_compute; reflexivity|]. split; [vm_compute; reflexivity|]. split; [cbv [In]; tauto|].
  split; [apply with_result; vm_compute; reflexivity|].
  split; [vm_compute; reflexivity|]. vm_compute. discriminate.
Qed.

(** ** Opening a relative file *)

Definition rel_zero_dev : dev := put (18, 1) 23 [0] rel_dev.
Definition rel_short_dev : dev := put (17, 5) 1 [10] rel_dev.
Lemma rel_open_panics : exists d1 d2,
  dev_shape D64 d1 /\ dev_shape D64 d2
  /\ open_file (open_world D64 d1) rel_name = Panic /\ open_file (open_world D64 d2) rel_name = Panic
  /\ validate (open_world D64 d1) = Panic.
Proof.
  exists rel_zero_dev, rel_short_dev. split; [apply put_shape; [exact rel_shape|cbn; lia]|].
  split; [apply put_shape; [exact rel_shape|cbn; lia]|]. repeat split; vm_compute; reflexivity.
Qed.

(** ** Read-only images *)

Definition locked (d : dev) : dev := mk_dev false (d_geom d) (d_blocks d) (d_etable d) (d_log d).
Lemma locked_shape t d : dev_shape t d -> dev_shape t (locked d).
Proof. by intros []; split. Qed.
Definition locked_dev : dev := locked (put (18, 0) 68 [21; 255; 255; 31] bare_dev).
Lemma locked_dev_shape : dev_shape D64 locked_dev.
Proof. apply locked_shape, put_shape; [exact bare_shape|cbn; lia]. Qed.
Lemma locked_create :
  snd (calls (start D64 locked_dev) [OFree; OCreate [65] PRG; OFree; OCreate [65] PRG; OFree])
  = [ACount 21; AError EReadOnly; ACount 20; AError EReadOnly; ACount 19].
Proof. vm_compute. reflexivity. Qed.
Definition locked_file_dev : dev :=
  locked (put (17, 0) 0 [0; 255] (put (18, 1) 2 ([130; 17; 0; 65] ++ repeat 160 15) bare_dev)).
Lemma locked_file_shape : dev_shape D64 locked_file_dev.
Proof.
  apply locked_shape. unfold locked_file_dev. repeat (apply put_shape; [|rewrite ?app_length, ?repeat_length; cbn [length]; lia]).
  apply blank_dev_shape.
Qed.
Lemma locked_delete :
  snd (calls (start D64 locked_file_dev) [OFree; OOpen [65]; ODelete 0; OFree])
  = [ACount 0; AIndex 0; AError EReadOnly; ACount 1].
Proof. vm_compute. reflexivity. Qed.

(** ** A directory whose last sector is only partly used *)

Definition partial_dir_dev : dev := put (18, 1) 0 [0; 40; 130] (blank_dev D64 true).
Lemma partial_dir_shape : dev_shape D64 partial_dir_dev.
Proof. apply put_shape; [apply blank_dev_shape|cbn; lia]. Qed.
Lemma partial_dir_panics :
  snd (next_free_directory_entry (open_world D64 partial_dir_dev)) = Panic
  /\ snd (create_file [65] PRG (open_world D64 partial_dir_dev)) = Panic
  /\ exists es, w_directory (open_world D64 partial_dir_dev) = Ok es /\ length es = 1.
Proof. split; [vm_compute; reflexivity|]. split; [vm_compute; reflexivity|]. eexists. split; vm_compute; reflexivity. Qed.

(** ** A file on the tracks a map does not cover *)

Definition wide_blank : dev :=
  let g := mk_geometry d64_tracks 40 false in
  mk_dev true g (repeat zero_block (sector_count g)) [] [].
Lemma wide_blank_shape : dev_shape D64 wide_blank.
Proof.
  split; cbn [wide_blank d_geom d_blocks d_etable]; [cbn; tauto|apply repeat_length| |reflexivity].
  apply Forall_forall. intros b Hb%elem_of_list_In%repeat_spec. by subst.
Qed.
Definition wide_dev : dev :=
  put (36, 0) 0 [0; 3; 7; 8] (put (18, 1) 0 ([0; 255; 130; 36; 0; 65] ++ repeat 160 15) wide_blank).
Lemma wide_shape : dev_shape D64 wide_dev.
Proof.
  unfold wide_dev. repeat (apply put_shape; [|rewrite ?app_length, ?repeat_length; cbn [length]; lia]). exact wide_blank_shape.
Qed.
Lemma wide_panics :
  snd (calls (start D64 wide_dev) [OOpen [65]; ORecord 0 0; ODelete 0]) = [AIndex 0; ABytes [7; 8]; ABroken]
  /\ exists f, open_file (open_world D64 wide_dev) [65] = Ok f /\ snd (file_delete f (open_world D64 wide_dev)) = Panic.
Proof. split; [vm_compute; reflexivity|]. eexists. split; vm_compute; reflexivity. Qed.

(** ** Records of a VLIR file *)

Lemma vlir_record_zero : exists f b,
  open_file (open_world D64 geos_dev) [86] = Ok f /\ sector geos_dev (de_first (file_entry f)) = Ok b
  /\ index_slots b = [(16, 1); (0, 255); (16, 2)]
  /\ file_record_count f = 4
  /\ file_record geos_dev f 0 = Ok [] /\ file_record geos_dev f 1 = read_all geos_dev (16, 1).
Proof.
  eexists _, _. split; [vm_compute; reflexivity|]. split; [vm_compute; reflexivity|]. split; [vm_compute; reflexivity|].
  split; [vm_compute; reflexivity|]. split; vm_compute; reflexivity.
Qed.

(** C38: reading into small buffers repeats the beginning of the stream. *)
Lemma convert_repeats_check :
  match fst (w_iter (open_world D64 geos_dev)) with
  | e :: _ =>
      match geos_reader_new e with
      | Ok r =>
          geos_reads geos_dev r [1; 1; 1] = [Ok [131]; Ok [131]; Ok [131]]
          /\ match geos_reads geos_dev r [3000] with [Ok stream] => take 3 stream = [131; 17; 0] | _ => False end
      | _ => False
      end
  | [] => False
  end.
Proof. vm_compute. split; reflexivity. Qed.
Lemma convert_repeats : exists d e r,
  dev_shape D64 d /\ In e (fst (w_iter (open_world D64 d))) /\ geos_reader_new e = Ok r
  /\ geos_reads d r [1; 1; 1] = [Ok [131]; Ok [131]; Ok [131]]
  /\ exists stream, geos_reads d r [3000] = [Ok stream] /\ take 3 stream = [131; 17; 0].
Proof.
  pose proof convert_repeats_check as H. exists geos_dev. generalize geos_shape. revert H. generalize geos_dev. intros d H Hd.
  destruct (fst (w_iter (open_world D64 d))) as [|e es]; [done|]. exists e. destruct (geos_reader_new e) as [r| | |]; [|done..]. exists r.
  split; [done|]. split; [by left|]. split; [done|]. destruct H as [H1 H2]. split; [done|].
  destruct (geos_reads d r [3000]) as [|[stream| | |] []]; try done. by exists stream.
Qed.
