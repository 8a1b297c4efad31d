(** The program cdisk on the files of the host: what it touches, what it keeps,
    and that it implements the table of files. *)
From Coq Require Import Ascii String.
From Verif Require Import Base ListFacts Layout Image Block Bam Format Petscii GeosTypes DirEntry Header World Chain Directory Writer Rel GeosFile File Validate
  Spec SpecCodec SpecChain SpecBam SpecFiles SpecOutput GeomFacts FlatProofs SpecKinds Session SpecDisk CodecProofs SoundImage Trace OpenSound Cdisk SpecTool ToolProofs ToolMore Keeps CmdKeeps
  Text Errors Host Main SpecHost ListingProofs OutputProofs CodecMore.
Local Open Scope list_scope.

(** ** Bytes and sectors *)

Lemma cut_concat (bs : list (list nat)) tail : Forall (fun b => length b = 256) bs -> cut_blocks (length bs) (concat bs ++ tail) = (bs, tail).
Proof.
  induction bs as [|b bs IH]; intros H; [done|]. cbn [length cut_blocks concat]. rewrite <- app_assoc.
  rewrite (drop_app_alt b) by (symmetry; by apply (Forall_inv H)). rewrite (take_app_alt b) by (symmetry; by apply (Forall_inv H)).
  by rewrite IH by apply (Forall_inv_tail H).
Qed.
Lemma unflatten_flatten t k d : dev_shape t d -> unflatten (flatten k d) = mk_dev (kind_writable k) (d_geom d) (d_blocks d) (d_etable d) [].
Proof.
  intros [H1 H2 H3 H4]. unfold unflatten, flatten. cbn [fl_geometry fl_image im_bytes im_kind].
  by rewrite <- H2, cut_concat.
Qed.

Lemma flat_new_size t im im' fd : im_len im' = im_len im -> flat_new t im = Ok fd -> flat_new t im' = Ok (mk_flat_dev im' (fl_geometry fd)).
Proof. unfold flat_new. intros ->. destruct (find_by_size _ _); [|done]. by intros [= <-]. Qed.
Lemma flat_new_size_err t im im' e : im_len im' = im_len im -> flat_new t im = Err e -> flat_new t im' = Err e.
Proof. unfold flat_new. intros ->. by destruct (find_by_size _ _). Qed.
Lemma disk_open_size ext im im' t fd : im_len im' = im_len im -> disk_open ext im = Ok (t, fd) -> disk_open ext im' = Ok (t, mk_flat_dev im' (fl_geometry fd)).
Proof.
  intros El. unfold disk_open. destruct ext as [t'|].
  - destruct (flat_new t' im) as [fd'| | |] eqn:E; [|done..]. cbn [rbind]. intros [= -> ->]. by rewrite (flat_new_size _ _ im' _ El E).
  - destruct (flat_new_cases D64 im) as [(d1 & E1 & _)|[E1 _]]; rewrite E1.
    { intros [= <- ->]. by rewrite (flat_new_size _ _ im' _ El E1). }
    rewrite (flat_new_size_err _ _ im' _ El E1).
    destruct (flat_new_cases D71 im) as [(d2 & E2 & _)|[E2 _]]; rewrite E2.
    { intros [= <- ->]. by rewrite (flat_new_size _ _ im' _ El E2). }
    rewrite (flat_new_size_err _ _ im' _ El E2).
    destruct (flat_new_cases D81 im) as [(d3 & E3 & _)|[E3 _]]; rewrite E3; [|done].
    cbn [rbind]. intros [= <- ->]. by rewrite (flat_new_size _ _ im' _ El E3).
Qed.

Definition kind_of (m : bool) : image_kind := if m then ReadWriteMap else ReadOnlyMap.
Lemma kind_of_writable m : kind_writable (kind_of m) = m. Proof. by destruct m. Qed.

(** ** Opening a file *)

Lemma opened m p h t d : disk_open_path m p h = Good (t, d) ->
  exists bs, h p = Some bs /\ dev_shape t d /\ file_of_dev d = bs /\ d_writable d = m /\ d_log d = [] /\ bs <> []
    /\ disk_open (from_extension (file_name p)) (mk_image (kind_of m) bs) = Ok (t, flatten (kind_of m) d).
Proof.
  unfold disk_open_path, image_open. destruct (h p) as [bs|]; [|done]. intros H. exists bs. split; [done|].
  change (if m then ReadWriteMap else ReadOnlyMap) with (kind_of m) in H.
  assert (bs <> []) as Hne by (intros ->; done).
  assert (map_file (kind_of m) bs = Good (mk_image (kind_of m) bs)) as Em by (destruct bs; done).
  rewrite Em in H.
  pose proof (disk_open_spec (from_extension (file_name p)) (mk_image (kind_of m) bs)) as Hs.
  destruct (disk_open _ _) as [[t' fd]| | |]; [|done..]. injection H as -> <-. destruct Hs as (H1 & H2 & H3 & H4 & _).
  assert (flat_ok t fd) as Hok by (split; [done|by rewrite H2]).
  destruct (unflatten_spec t fd Hok) as (U1 & U2 & U3). rewrite H2 in U2, U3. cbn [im_kind] in U2, U3.
  split; [done|]. split; [|split; [by rewrite U3, kind_of_writable|]].
  - unfold file_of_dev. change (fl_image (flatten ReadWriteMap (unflatten fd))) with (mk_image ReadWriteMap (im_bytes (fl_image (flatten (kind_of m) (unflatten fd))))).
    by rewrite U2, H2.
  - split; [unfold unflatten; by destruct (cut_blocks _ _)|]. split; [done|]. by rewrite U2.
Qed.
Lemma bytes_flatten k d : mk_image k (file_of_dev d) = fl_image (flatten k d). Proof. done. Qed.

Lemma size_of_dev t d d' : dev_shape t d -> dev_shape t d' -> d_geom d' = d_geom d -> length (file_of_dev d') = length (file_of_dev d).
Proof.
  intros [A1 A2 A3 A4] [B1 B2 B3 B4] E. unfold file_of_dev, flatten. cbn [fl_image im_bytes]. rewrite !app_length, !length_concat_blocks by done.
  rewrite A2, A4, B2, B4, E. done.
Qed.
Lemma reopened m m' p h t d d' h' : disk_open_path m p h = Good (t, d) -> dev_shape t d' -> d_geom d' = d_geom d -> h' p = Some (file_of_dev d') ->
  disk_open_path m' p h' = Good (t, mk_dev m' (d_geom d') (d_blocks d') (d_etable d') []).
Proof.
  intros H Hd' Hg Hp. destruct (opened _ _ _ _ _ H) as (bs & Hb & Hd & Eb & Hm & Hl & Hne & Ho).
  pose proof (size_of_dev t d d' Hd Hd' Hg) as Hlen. rewrite Eb in Hlen.
  unfold disk_open_path, image_open. rewrite Hp.
  assert (map_file (kind_of m') (file_of_dev d') = Good (mk_image (kind_of m') (file_of_dev d'))) as Em.
  { destruct (file_of_dev d'); [|done]. by destruct bs. }
  change (if m' then ReadWriteMap else ReadOnlyMap) with (kind_of m'). rewrite Em.
  assert (im_len (mk_image (kind_of m') (file_of_dev d')) = im_len (mk_image (kind_of m) bs)) as El by (unfold im_len; cbn [im_bytes]; by rewrite Hlen).
  rewrite (disk_open_size _ _ _ _ _ El Ho). cbn [fl_geometry flatten]. rewrite bytes_flatten, <- Hg.
  change (mk_flat_dev (fl_image (flatten (kind_of m') d')) (d_geom d')) with (flatten (kind_of m') d').
  by rewrite (unflatten_flatten t) , kind_of_writable.
Qed.
Lemma open_modes m m' p h t d : disk_open_path m p h = Good (t, d) -> disk_open_path m' p h = Good (t, with_mode m' d).
Proof.
  intros H. destruct (opened _ _ _ _ _ H) as (bs & Hb & Hd & Eb & Hm & Hl & Hne & Ho).
  rewrite (reopened m m' p h t d d h H Hd eq_refl); [|by rewrite Eb]. unfold with_mode. by rewrite Hl.
Qed.
Lemma open_same m p h h' : h p = h' p -> disk_open_path m p h = disk_open_path m p h'.
Proof. unfold disk_open_path, image_open. by intros ->. Qed.

Lemma concat_bytes (bs : list (list nat)) : Forall is_byte (concat bs) <-> Forall (Forall is_byte) bs.
Proof.
  induction bs as [|b bs IH]; cbn [concat].
  - split; intros _; constructor.
  - rewrite Forall_app, IH. split; [intros [H1 H2]; by constructor|]. intros H. split; [by apply (Forall_inv H)|by apply (Forall_inv_tail H)].
Qed.
Lemma dev_bytes d : Forall is_byte (file_of_dev d) <-> holds_bytes d /\ Forall is_byte (d_etable d).
Proof. unfold file_of_dev, flatten. cbn [fl_image im_bytes]. by rewrite Forall_app, concat_bytes. Qed.
Lemma opened_bytes m p h t d : byte_files h -> disk_open_path m p h = Good (t, d) -> holds_bytes d /\ Forall is_byte (d_etable d).
Proof. intros Hh H. destruct (opened _ _ _ _ _ H) as (bs & Hb & _ & Eb & _). apply dev_bytes. rewrite Eb. by apply (Hh p). Qed.

Lemma put_same p bs h : put_file p bs h p = Some bs. Proof. unfold put_file. by rewrite bool_decide_eq_true_2. Qed.
Lemma put_other p q bs h : q <> p -> put_file p bs h q = h q. Proof. intros H. unfold put_file. by rewrite bool_decide_eq_false_2. Qed.
Lemma put_bytes p bs h : byte_files h -> Forall is_byte bs -> byte_files (put_file p bs h).
Proof.
  intros Hh Hb q x. unfold put_file. case_bool_decide as E; [|by apply Hh]. by intros [= <-].
Qed.

(** ** What a command touches *)

Lemma with_image_host m p h k (P : host -> Prop) : P h -> (forall t d, disk_open_path m p h = Good (t, d) -> P (r_host (k t d))) -> P (r_host (with_image m p h k)).
Proof. intros H0 H. unfold with_image. destruct (disk_open_path m p h) as [[t d]|] eqn:E; [by apply H|done]. Qed.

Theorem invoke_only e p c h q : q <> p -> copy_target c <> Some q -> r_host (invoke e p c h) q = h q.
Proof.
  intros Hp Hd. assert (forall x, r_host (changed p h x) q = h q) as Hc by (intros x; by apply put_other).
  assert (forall dst x, dst <> q -> r_host (copied_to p dst h x) q = h q) as Hto.
  { intros dst [[out|] r] Hq; cbn [copied_to]; [|done]. case_bool_decide; [done|]. case_bool_decide; cbn [r_host]; by apply put_other. }
  destruct c; cbn [invoke copy_target] in *;
    repeat match goal with
    | |- r_host (with_image _ _ _ _) _ = _ => apply (with_image_host _ _ _ _ (fun g => g q = h q)); [done|intros t d _]
    | |- r_host (changed _ _ _) _ = _ => apply Hc
    | |- r_host (copied_to _ _ _ _) _ = _ => apply Hto; intros Hx; by rewrite Hx in Hd
    | |- r_host (printed _ _) _ = _ => done
    | |- r_host (mk_result _ _ _ _) _ = _ => cbn [r_host]; (done || by apply put_other)
    | |- r_host (match ?x with _ => _ end) _ = _ => destruct x
    | |- r_host (if ?x then _ else _) _ = _ => destruct x
    end.
Qed.

(** The commands that only look. *)
Lemma mode_bytes m d : file_of_dev (with_mode m d) = file_of_dev d. Proof. done. Qed.
Lemma append_same t source name d : dev_shape t d -> holds_bytes d -> fst (cmd_append t source name d) = with_mode true d.
Proof.
  intros Hd Hb. change (cmd_append t source name d) with (cmd_append t source name (with_mode true d)).
  rewrite (append_command t source name (with_mode true d)); [done|destruct Hd; by split|exact Hb|done].
Qed.
Theorem looks_keep e p c h : byte_files h -> looks c = true -> onto_image p c = false -> r_host (invoke e p c h) p = h p.
Proof.
  intros Hh Hl Ho.
  assert (forall dst x, bool_decide (dst = p) && negb (bool_decide (dst = dash)) = false -> r_host (copied_to p dst h x) p = h p) as Hto.
  { intros dst [[out|] r] Hq; cbn [copied_to]; [|done]. destruct (bool_decide (dst = dash)), (bool_decide (dst = p)) eqn:E2; try done.
    apply bool_decide_eq_false in E2. cbn [r_host]. apply put_other. congruence. }
  destruct c; try done; cbn [invoke]; unfold onto_image in Ho; cbn [copy_target] in Ho;
    repeat match goal with
    | |- r_host (with_image ?m _ _ _) _ = _ => apply (with_image_host m _ _ _ (fun g => g p = h p)); [done|intros t d Hopen]
    | |- r_host (copied_to _ _ _ _) _ = _ => by apply Hto
    | |- r_host (printed _ _) _ = _ => done
    | |- r_host (mk_result _ _ _ _) _ = _ => done
    | |- r_host (match ?x with _ => _ end) _ = _ => destruct x
    end.
  destruct (opened _ _ _ _ _ Hopen) as (bs & Hb & Hd & Eb & _). destruct (opened_bytes _ _ _ _ _ Hh Hopen) as [Hy _].
  unfold changed. cbn [r_host]. rewrite put_same, append_same, mode_bytes, Eb by done. done.
Qed.

(** ** What is kept of the image *)

Lemma source_bytes e h f source pieces : fair e -> byte_files h -> read_source e h source = Some pieces -> f = h -> Forall (Forall is_byte) pieces.
Proof.
  intros (_ & Hc & Hi) Hh Hr _. unfold read_source in Hr. case_bool_decide; [by injection Hr as <-|].
  destruct (h source) as [bs|] eqn:E; [|done]. cbn [option_map] in Hr. injection Hr as <-. apply concat_bytes. rewrite Hc. by apply (Hh source).
Qed.
Lemma type_arg_values ty ft : type_arg ty = Some ft <->
  (ty = None /\ ft = SEQ) \/ (ty = Some (str "prg") /\ ft = PRG) \/ (ty = Some (str "seq") /\ ft = SEQ) \/ (ty = Some (str "usr") /\ ft = USR).
Proof.
  split.
  - unfold type_arg. destruct ty as [v|]; cbn [default]; [|intros [= <-]; by left].
    destruct (decide (v = str "prg")) as [->|H1]; [intros [= <-]; tauto|]. destruct (decide (v = str "seq")) as [->|H2]; [intros [= <-]; tauto|].
    destruct (decide (v = str "usr")) as [->|H3]; [intros [= <-]; tauto|]. by rewrite !bool_decide_eq_false_2.
  - by intros [[-> ->]|[[-> ->]|[[-> ->]|[-> ->]]]].
Qed.
Lemma type_arg_byte ty ft : type_arg ty = Some ft -> type_to_byte ft < 256.
Proof.
  unfold type_arg. destruct (_ || _) eqn:E; [|done]. intros [= <-].
  assert (forall s, type_to_byte (default SEQ (type_from_string s)) < 256) as H; [|apply H].
  intros s. unfold type_from_string. repeat case_bool_decide; cbn; lia.
Qed.

(** Every command on every image of every size leaves an image of that type and
    size, with the same error table. *)
Lemma same_layout_refl p h : same_layout p h h. Proof. intros m t d H. by exists d. Qed.
Lemma changed_layout m p h t d x : disk_open_path m p h = Good (t, d) -> dev_kept t (with_mode true d) (fst x) -> same_layout p h (r_host (changed p h x)).
Proof.
  intros Hopen [K1 K2 K3 K4 K5] m' t' d' H'. rewrite (open_modes m m' _ _ _ _ Hopen) in H'. injection H' as <- <-.
  eexists. split; [apply (reopened m m' p h t d (fst x)); [done..|apply put_same]|done].
Qed.
Lemma changed_bytes m p h t d x : byte_files h -> disk_open_path m p h = Good (t, d) -> dev_kept t (with_mode true d) (fst x) -> byte_files (r_host (changed p h x)).
Proof.
  intros Hh Hopen [K1 K2 K3 K4 K5]. destruct (opened_bytes _ _ _ _ _ Hh Hopen) as [B1 B2]. apply put_bytes; [done|]. apply dev_bytes. split; [done|]. by rewrite K4.
Qed.
Theorem layout_kept e p c h : fair e -> byte_files h -> onto_image p c = false -> same_layout p h (r_host (invoke e p c h)).
Proof.
  intros He Hh Ho. destruct (looks c) eqn:Hl.
  { intros m t d H. exists d. split; [|done]. by rewrite (open_same m p _ h) by (by apply looks_keep). }
  assert (forall m k, (forall t d, disk_open_path m p h = Good (t, d) -> dev_shape t d -> holds_bytes d -> dev_kept t (with_mode true d) (fst (k t d))) ->
    same_layout p h (r_host (with_image m p h (fun t d => changed p h (k t d))))) as Hc.
  { intros m k Hk. apply (with_image_host m p h _ (same_layout p h)); [apply same_layout_refl|]. intros t d Hopen.
    destruct (opened _ _ _ _ _ Hopen) as (bs & _ & Hd & _). destruct (opened_bytes _ _ _ _ _ Hh Hopen) as [Hy _].
    eapply changed_layout; [exact Hopen|]. by apply Hk. }
  destruct c; try done; cbn [invoke].
  - destruct (track_arg track) as [tr|], (sector_arg sector) as [s|]; try apply same_layout_refl. apply (Hc true (fun t d => cmd_bam_edit t tr s allocate d)). intros t d _ Hd Hb. by apply bam_edit_kept.
  - destruct (type_arg ty) as [ft|] eqn:Et; [|apply same_layout_refl]. destruct (read_source e h source) as [ps|] eqn:Er; [|apply same_layout_refl].
    destruct (_ && _); [apply (with_image_host true p h _ (same_layout p h)); [apply same_layout_refl|intros; apply same_layout_refl]|].
    apply (Hc true (fun t d => cmd_write t ps (default source destination) ft d)). intros t d _ Hd Hb. apply write_kept; [done..| |by apply (type_arg_byte ty)].
    by apply (source_bytes e h h source).
  - destruct (h p) as [bs|] eqn:Ep; [apply same_layout_refl|]. intros m t d H. apply opened in H as (bs & Hb & _). congruence.
  - apply (Hc true (fun t d => cmd_format t name id d)). intros t d _ Hd Hb. by apply format_kept.
  - apply (Hc true (fun t d => cmd_rename t old new d)). intros t d _ Hd Hb. by apply rename_kept.
  - apply (Hc true (fun t d => cmd_delete t name d)). intros t d _ Hd Hb. by apply delete_kept.
Qed.
Theorem size_kept e p c h m t d bs : fair e -> byte_files h -> onto_image p c = false -> disk_open_path m p h = Good (t, d) -> h p = Some bs ->
  exists bs', r_host (invoke e p c h) p = Some bs' /\ length bs' = length bs.
Proof.
  intros He Hh Ho Hopen Hp. destruct (layout_kept e p c h He Hh Ho m t d Hopen) as (d' & Hopen' & Hg & _).
  destruct (opened _ _ _ _ _ Hopen) as (b1 & E1 & D1 & F1 & _). destruct (opened _ _ _ _ _ Hopen') as (b2 & E2 & D2 & F2 & _).
  exists b2. split; [done|]. rewrite <- F2, (size_of_dev t d d') by done. rewrite F1. congruence.
Qed.

(** ** The table *)

Lemma table_sound t a d : image_of t a d -> holds_bytes d -> exists dirs chains, sound_image t d dirs chains a.
Proof.
  intros Hi Hb. destruct (image_session t a d Hi) as (Hr & _ & _ & Ha).
  assert (as_synced a = true) as H1 by (by rewrite Ha). assert (as_writers a = []) as H2 by (by rewrite Ha). assert (as_handles a = []) as H3 by (by rewrite Ha).
  assert (w_dev (s_world (start t d)) = d) as Ew by (cbn [start s_world]; apply open_world_cells).
  destruct (reached_sound t a (start t d) Hr H1 (writers_none a H2)) as (dirs & chains & S); [by rewrite Ew|].
  exists dirs, chains. rewrite Ew in S. replace (set_handles [] (set_writers [] a)) with a in S; [done|]. destruct a. cbn in *. by subst.
Qed.
Lemma image_again p h h' t d a d' : disk_open_path true p h = Good (t, d) -> image_of t a d' -> dev_kept t (with_mode true d) d' ->
  h' p = Some (file_of_dev d') -> image_file t a p h'.
Proof.
  intros Hopen Hi [K1 K2 K3 K4 K5] Hp. destruct (table_sound t a d' Hi K2) as (dirs & chains & S).
  exists (with_log [] d'), dirs, chains. split; [|by apply sound_log].
  rewrite (reopened true true p h t d d' h') by done. unfold with_log. cbn [with_mode d_writable] in K5. by rewrite K5.
Qed.
Lemma image_unchanged t a p h h' : image_file t a p h -> h' p = h p -> image_file t a p h'.
Proof. intros (d & dirs & chains & Ho & S) E. exists d, dirs, chains. split; [|done]. by rewrite (open_same true p h' h). Qed.

Lemma data_bytes d ls : holds_bytes d -> Forall is_byte (data_of d ls).
Proof.
  intros Hb. unfold data_of. apply concat_bytes, Forall_fmap, Forall_true. intros l. cbn.
  destruct (sector d l) as [b| | |] eqn:E; try constructor. unfold sector_data, used_part. apply Forall_drop.
  pose proof (sector_bytes _ _ _ Hb E) as H. destruct (_ =? _); [by apply Forall_take|done].
Qed.
Lemma read_all_bytes t d l bs : dev_shape t d -> holds_bytes d -> read_all d l = Ok bs -> Forall is_byte bs.
Proof.
  intros Hd Hb H. unfold read_all in H. destruct (chain_walk d l) as [ss r] eqn:Ew. destruct r as [[]| | |]; try discriminate.
  pose proof (ChainProofs.sound_walk t d l ss Hd Ew) as Hs. pose proof (ChainProofs.read_all_sound t d l _ Hd Hs) as Hr. unfold read_all in Hr.
  rewrite Ew in Hr. rewrite Hr in H. apply Ok_inj in H. subst bs. by apply data_bytes.
Qed.
Lemma table_bytes t d dirs chains a i f bs : sound_image t d dirs chains a -> as_slots a !! i = Some (Some f) -> read_of f = RBytes bs -> Forall is_byte bs.
Proof.
  intros S Hf Hrd. assert (i < length chains) as Hi.
  { apply lookup_lt_Some in Hf. pose proof (si_lengths _ _ _ _ _ S). lia. }
  apply lookup_lt_is_Some in Hi as [ls Hl]. destruct (si_slots _ _ _ _ _ S i _ ls Hf Hl) as (l & b & _ & _ & e & _ & _ & _ & H).
  unfold a_special, read_of in *. destruct (a_kind f) as [|td rs|data]; [|done|].
  - destruct H as (_ & _ & E & _). injection Hrd as <-. rewrite E. cbn [a_data]. apply data_bytes, (si_bytes _ _ _ _ _ S).
  - injection Hrd as ->. destruct H as (_ & (x & _ & _ & _ & Hx & _ & Hx2) & _). specialize (Hx 1).
    pose proof (si_shape _ _ _ _ _ S). pose proof (si_bytes _ _ _ _ _ S).
    destruct x as [c e'|g|g|g]; try done; cbn [file_record file_writer] in *; unfold geos_record, record_start, geos_writer in *;
      destruct (gf_vlir g); try done; cbn [rbind] in *; by eapply read_all_bytes.
Qed.

Lemma dir_shown t d label files free : dev_shape t d -> holds_bytes d -> run_request t d TDir = (d, RDir label files free) ->
  exists h first lines number,
    print_dir t 0 d [] = (text_of (first :: lines ++ [number ++ str " blocks free."]), Ok tt)
    /\ h_disk_name h = label /\ first_line h first
    /\ Forall2 (fun x line => exists e, entry_line e = x /\ file_line e line) files lines
    /\ decimal number = Some (N.of_nat free).
Proof.
  intros Hd Hb. unfold run_request, cmd_dir. rewrite tool_open_false.
  rewrite (mode_iter false d (open_world t d)) by apply open_world_cells.
  change (w_blocks_free (set_dev (with_mode false d) (open_world t d))) with (w_blocks_free (open_world t d)).
  change (w_header (set_dev (with_mode false d) (open_world t d))) with (w_header (open_world t d)).
  destruct (w_iter (open_world t d)) as [es r] eqn:Ei. destruct (w_header (open_world t d)) as [h|] eqn:Eh; [|done].
  destruct r as [[]| | |]; [|done..]. cbn [rbind]. destruct (w_blocks_free (open_world t d)) as [n| | |] eqn:Ef; [|done..]. cbn [reply_of].
  intros [= E1 E2 E3].
  destruct (listing_layout t d h es n Hd Hb Eh) as (first & lines & number & L1 & L2 & L3 & L4); [unfold w_directory; by rewrite Ei|done|].
  exists h, first, lines, number. split; [done|]. split; [done|]. split; [done|]. split; [|by rewrite <- E3]. rewrite <- E2. clear - L3.
  induction L3 as [|e line es lines H1 _ IH]; cbn [map]; constructor; [by exists e|done].
Qed.
Lemma validate_shown t d : run_request t d TValidate = (d, RReport []) ->
  print_validate t d [] = (text_of [str "Disk validates successfully."], Ok true) /\ cmd_validate t d = Ok [].
Proof.
  unfold run_request, print_validate. intros H. injection H as H.
  destruct (cmd_validate t d) as [vs| | |]; [|done..]. cbn [reply_of] in H. injection H as ->. done.
Qed.

Theorem host_step e p c h f t a q a' r : fair e -> byte_files h -> image_file t a p h -> (forall x, x <> p -> h x = f x) ->
  request_of e p f c = Some q -> tstep t a q = Some (a', r) ->
  let x := invoke e p c h in
  image_file t a' p (r_host x) /\ byte_files (r_host x) /\ (forall y, y <> p -> r_host x y = files_after c r f y) /\ shown c r x.
Proof.
  intros He Hh (d & dirs & chains & Hopen & Hs) Hf Hq Ht. pose proof (tool_existing _ _ _ _ _ Hs) as Hi.
  assert (image_file t a p h) as Himg by (by exists d, dirs, chains).
  destruct (opened _ _ _ _ _ Hopen) as (bs & Hp & Hd & Eb & Hw & _). destruct (opened_bytes _ _ _ _ _ Hh Hopen) as [Hy He'].
  assert (with_mode true d = d) as Emode by (by apply mode_same).
  assert (disk_open_path false p h = Good (t, with_mode false d)) as Hopen' by (by apply (open_modes true)).
  destruct (tool_step t a d q a' r Hi Ht) as (d' & Hrun & Hi').
  (* a command that changes the image *)
  assert (forall k, run_request t d q = changes k -> dev_kept t (with_mode true d) (fst k) -> copy_target c = None ->
    (r = RDone \/ exists x, r = RError x) ->
    let x := changed p h k in
    image_file t a' p (r_host x) /\ byte_files (r_host x) /\ (forall y, y <> p -> r_host x y = files_after c r f y) /\ shown c r x) as Hchange.
  { intros k Ek Hk Hc Hr. rewrite Hrun in Ek. unfold changes in Ek. injection Ek as -> ->. split; [|split; [|split]].
    - apply (image_again p h _ t d a' (fst k)); [done..|]. apply put_same.
    - by apply (changed_bytes true p h t d k).
    - intros y Hyp. cbn [changed r_host]. rewrite put_other by done. unfold files_after. rewrite Hc. by apply Hf.
    - unfold changed. destruct (snd k) as [[]|x| |]; cbn [reply_of shown r_end finish r_text r_bytes] in *; [done|done| |];
        destruct Hr as [Hr|[? Hr]]; discriminate Hr. }
  assert (forall name pieces ft, tstep t a (TWrite pieces name ft) = Some (a', r) -> r = RDone \/ exists x, r = RError x) as Hwr.
  { clear. intros name pieces ft. cbn [tstep]. intros H. repeat (case_match; try done); injection H as <- <-; eauto. }
  assert (forall name pieces, tstep t a (TAppend pieces name) = Some (a', r) -> r = RDone \/ exists x, r = RError x) as Hap.
  { clear. intros name pieces. cbn [tstep]. unfold append_of. intros H. repeat (case_match; try done); injection H as <- <-; eauto. }
  assert (forall source, source <> p \/ source = dash -> read_source e h source = read_source e f source) as Hsrc.
  { intros source Hne. unfold read_source. case_bool_decide; [done|]. destruct Hne; [|done]. by rewrite Hf. }
  unfold request_of in Hq. destruct (onto_image p c) eqn:Eo; [done|].
  destruct c as [|al tr se|source dst|ty source dst|source dst|source dst| |v|name id|old new|name|name|]; try done.
  - (* read *)
    injection Hq as <-. cbn [invoke]; cbv zeta. unfold with_image. rewrite Hopen'.
    change (cmd_read t source (su_buffer e) (with_mode false d)) with (cmd_read t source (su_buffer e) d).
    rewrite (read_reply t a d source (su_buffer e) Hi) in Hrun by (apply He). injection Hrun as <- Hr.
    assert (a' = a) as ->. { clear - Ht He. cbn [tstep] in Ht. destruct (su_buffer e =? 0); [done|]. repeat (case_match; try done); by injection Ht as <- _. }
    assert (snd (run_request t d (TRead source (su_buffer e))) = r) as Hread by (rewrite (read_reply t a d source (su_buffer e) Hi) by (apply He); exact Hr).
    unfold run_request in Hread. cbn [snd] in Hread.
    destruct (slot_named a (from_str_lossy source)) as [i|] eqn:En.
    + destruct (named_file a _ i En) as (g & Hg & _). rewrite Hg in Hr. subst r.
      assert (read_of g = RError ENonLinearFile \/ exists bytes, read_of g = RBytes bytes) as [Eg|[bytes Eg]].
      { unfold read_of. destruct (a_kind g); [right; by eexists|by left|right; by eexists]. }
      { rewrite Eg in *. destruct (cmd_read t source (su_buffer e) d) as [[out|] [[]|x| |]]; cbn [copied reply_of] in Hread; try done.
        injection Hread as ->. cbn [copied_to]. cbn [r_host]. unfold files_after. cbn [copy_target]. done. }
      assert (Forall is_byte bytes) as Hgb by (by apply (table_bytes t d dirs chains a i g)). rewrite Eg in *.
      destruct (cmd_read t source (su_buffer e) d) as [[out|] [[]|x| |]]; cbn [copied reply_of] in Hread; try done. injection Hread as ->.
      cbn [copied_to]. unfold onto_image in Eo. cbn [copy_target] in Eo. unfold files_after. cbn [copy_target].
      destruct (decide (default source dst = dash)) as [Ed|Ed].
      * rewrite !(bool_decide_eq_true_2 (default source dst = dash)) by exact Ed. cbn [r_host]. split; [done|]. split; [done|].
        split; [done|]. cbn [shown copy_target r_bytes]. by rewrite bool_decide_eq_true_2 by (by rewrite Ed).
      * rewrite !(bool_decide_eq_false_2 (default source dst = dash)) by exact Ed.
        destruct (decide (default source dst = p)) as [Ed'|Ed'].
        { exfalso. rewrite (bool_decide_eq_true_2 (default source dst = p)), (bool_decide_eq_false_2 (default source dst = dash)) in Eo by done. done. }
        rewrite !(bool_decide_eq_false_2 (default source dst = p)) by exact Ed'. cbn [r_host].
        split; [apply (image_unchanged t a p h); [done|]; by apply put_other|]. split; [by apply put_bytes|].
        split; [|cbn [shown copy_target]; rewrite bool_decide_eq_false_2 by (intros [= E]; done); done].
        intros y Hyp. destruct (decide (y = default source dst)) as [->|Hy2]; [by rewrite !put_same|]. rewrite !put_other by done. by apply Hf.
    + subst r. destruct (cmd_read t source (su_buffer e) d) as [[out|] [[]|x| |]]; cbn [copied reply_of] in Hread; try done.
      injection Hread as ->. cbn [copied_to]. cbn [r_host]. unfold files_after. cbn [copy_target]. done.
  - (* write *)
    destruct (bool_decide (source = p) && negb (bool_decide (source = dash))) eqn:Es; [done|].
    destruct (type_arg ty) as [ft|] eqn:Ety; [|done]. destruct (read_source e f source) as [ps|] eqn:Er; [|done]. injection Hq as <-.
    assert (read_source e h source = Some ps) as Er'.
    { rewrite Hsrc; [done|]. apply andb_false_iff in Es as [Es|Es]; [left; by apply bool_decide_eq_false in Es|right].
      apply negb_false_iff in Es. by apply bool_decide_eq_true in Es. }
    cbn [invoke]; cbv zeta. rewrite Ety, Er'. unfold with_image. rewrite Hopen, Es.
    apply Hchange; [done| |done|by apply (Hwr _ _ _ Ht)].
    apply write_kept; [done..| |by apply (type_arg_byte ty)]. by apply (source_bytes e h h source).
  - (* append *)
    destruct (bool_decide (source = p) && negb (bool_decide (source = dash))) eqn:Es; [done|].
    destruct (read_source e f source) as [ps|] eqn:Er; [|done]. injection Hq as <-.
    assert (read_source e h source = Some ps) as Er'.
    { rewrite Hsrc; [done|]. apply andb_false_iff in Es as [Es|Es]; [left; by apply bool_decide_eq_false in Es|right].
      apply negb_false_iff in Es. by apply bool_decide_eq_true in Es. }
    cbn [invoke]; cbv zeta. rewrite Er'. unfold with_image. rewrite Hopen'.
    change (cmd_append t ps (default source dst) (with_mode false d)) with (cmd_append t ps (default source dst) d).
    apply Hchange; [done| |done|by apply (Hap _ _ Ht)]. by apply append_kept.
  - (* dir *)
    destruct v; [|done]. injection Hq as <-. cbn [tstep] in Ht. injection Ht as <- <-.
    assert (d' = d) as -> by (unfold run_request in Hrun; by injection Hrun as <- _).
    destruct (dir_shown t d _ _ _ Hd Hy Hrun) as (hd & first & lines & number & L1 & L2 & L3 & L4 & L5).
    cbn [invoke]; cbv zeta. unfold with_image. rewrite Hopen'. change (print_dir t 0 (with_mode false d) []) with (print_dir t 0 d []). rewrite L1.
    cbn [printed fst snd r_host finish]. split; [done|]. split; [done|]. split; [done|]. cbn [shown r_end r_bytes r_text]. split; [done|]. split; [done|].
    by exists hd, first, lines, number.
  - (* format *)
    injection Hq as <-. cbn [invoke]; cbv zeta. unfold with_image. rewrite Hopen. apply Hchange; [done|by apply format_kept|done|].
    clear - Ht. cbn [tstep] in Ht. destruct (_ <? _); [done|]. injection Ht as <- <-. by left.
  - (* rename *)
    injection Hq as <-. cbn [invoke]; cbv zeta. unfold with_image. rewrite Hopen. apply Hchange; [done|by apply rename_kept|done|].
    clear - Ht. cbn [tstep] in Ht. repeat (case_match; try done); injection Ht as <- <-; eauto.
  - (* delete *)
    injection Hq as <-. cbn [invoke]; cbv zeta. unfold with_image. rewrite Hopen. apply Hchange; [done|by apply delete_kept|done|].
    clear - Ht. cbn [tstep] in Ht. repeat (case_match; try done); injection Ht as <- <-; eauto.
  - (* validate *)
    injection Hq as <-. cbn [tstep] in Ht. injection Ht as <- <-.
    assert (d' = d) as -> by (unfold run_request in Hrun; by injection Hrun as <- _).
    destruct (validate_shown t d Hrun) as [V1 V2]. cbn [invoke]; cbv zeta. unfold with_image. rewrite Hopen, V1. cbn [r_host done rbind finish].
    split; [done|]. split; [done|]. split; [done|]. done.
Qed.

(** ** Several runs of the program *)

Theorem host_runs t p runs : forall a f h a' f' rs, byte_files h -> image_file t a p h -> (forall x, x <> p -> h x = f x) ->
  Forall (fun y => fair (fst y)) runs -> user_run t p a f runs = Some (a', f', rs) ->
  let h' := fst (invoke_all (map (fun y => (fst y, p, snd y)) runs) h) in
  image_file t a' p h' /\ byte_files h' /\ (forall x, x <> p -> h' x = f' x)
  /\ Forall2 (fun cr x => shown (fst cr) (snd cr) x) (zip (map snd runs) rs) (snd (invoke_all (map (fun y => (fst y, p, snd y)) runs) h))
  /\ length rs = length runs.
Proof.
  induction runs as [|[e c] runs IH]; intros a f h a' f' rs Hb Hi Hf Hfair Hu.
  { injection Hu as <- <- <-. cbn [map invoke_all fst snd zip_with length]. auto using Forall2_nil. }
  apply Forall_cons in Hfair as [Hfe Hfair]. cbn [user_run] in Hu.
  destruct (request_of e p f c) as [q|] eqn:Eq; [|done]. destruct (tstep t a q) as [[a1 r]|] eqn:Et; [|done].
  destruct (user_run t p a1 (files_after c r f) runs) as [[[a2 f2] rs2]|] eqn:Eu; [|done]. injection Hu as <- <- <-.
  destruct (host_step e p c h f t a q a1 r Hfe Hb Hi Hf Eq Et) as (S1 & S2 & S3 & S4).
  destruct (IH a1 (files_after c r f) (r_host (invoke e p c h)) a2 f2 rs2 S2 S1 S3 Hfair Eu) as (T1 & T2 & T3 & T4 & T5).
  cbn [map fst snd invoke_all]. destruct (invoke_all (map (fun y => (fst y, p, snd y)) runs) (r_host (invoke e p c h))) as [h3 rs3].
  cbn [fst snd] in *. split; [done|]. split; [done|]. split; [done|]. split; [|by cbn [length]; rewrite T5].
  cbn [zip zip_with]. by constructor.
Qed.

(** ** New images *)

Lemma host_format e p h t d name id : byte_files h -> disk_open_path true p h = Good (t, d) -> length (from_str_lossy name) <= 16 ->
  let x := invoke e p (CFormat name id) h in
  image_file t (table (from_str_lossy name ++ repeat 160 (16 - length (from_str_lossy name))) 1 NoBorder (repeat None 8)) p (r_host x)
  /\ byte_files (r_host x) /\ (forall q, q <> p -> r_host x q = h q) /\ r_end x = Finished None /\ r_text x = [] /\ r_bytes x = [].
Proof.
  intros Hb Ho Hn. destruct (opened _ _ _ _ _ Ho) as (bs & Hp & Hd & Eb & Hw & _). destruct (opened_bytes _ _ _ _ _ Hb Ho) as [Hy He'].
  destruct (tool_first t d name id Hd Hw Hn) as (d' & Hrun & Hi). cbv zeta. cbn [invoke]. unfold with_image. rewrite Ho.
  unfold run_request, changes in Hrun. injection Hrun as <- Hr.
  pose proof (format_kept t d Hd Hy name id) as Hk. split.
  - apply (image_again p h _ t d _ _ Ho Hi Hk). apply put_same.
  - split; [by apply (changed_bytes true p h t d)|]. split; [by intros q Hq; apply put_other|]. unfold changed.
    destruct (snd (cmd_format t name id d)) as [[]| | |]; done.
Qed.

Lemma host_create e p h : fair e -> byte_files h -> h p = None ->
  let x := invoke e p CCreate h in
  r_end x = Finished None /\ byte_files (r_host x) /\ (forall q, q <> p -> r_host x q = h q)
  /\ disk_open_path true p (r_host x) = Good (new_type (file_name p), blank_dev (new_type (file_name p)) true).
Proof.
  intros (Hn & _) Hb Hp. destruct (create_image (file_name p) (su_buffer e) Hn) as (bytes & C1 & C2 & C3 & C4).
  cbn [invoke]; cbv zeta. rewrite Hp, C1. cbn [r_host r_end finish]. split; [done|]. split.
  - apply put_bytes; [done|]. eapply Forall_impl; [exact C2|]. intros ? <-. unfold is_byte. lia.
  - split; [by intros q Hq; apply put_other|]. unfold disk_open_path, image_open. rewrite put_same.
    assert (bytes <> []) as Hne. { intros ->. clear - C3. destruct (new_type (file_name p)); cbn in C3; intuition congruence. }
    replace (map_file ReadWriteMap bytes) with (Good (mk_image ReadWriteMap bytes)) by (by destruct bytes). rewrite C4.
    do 2 f_equal. apply (unflatten_flatten (new_type (file_name p)) ReadWriteMap (blank_dev (new_type (file_name p)) true)). apply blank_dev_shape.
Qed.

(** Copying a file into an image and out again. *)
Lemma host_round_trip e1 e2 p h t a ty ft source name dst bs a' :
  fair e1 -> fair e2 -> byte_files h -> image_file t a p h ->
  source <> dash -> source <> p -> dst <> dash -> dst <> p -> h source = Some bs -> type_arg ty = Some ft ->
  tstep t a (TWrite [bs] name ft) = Some (a', RDone) ->
  let x := invoke e1 p (CWrite ty source (Some name)) h in
  let y := invoke e2 p (CRead name (Some dst)) (r_host x) in
  r_end x = Finished None /\ r_end y = Finished None /\ r_host y dst = Some bs
  /\ (forall q, q <> p -> q <> dst -> r_host y q = h q) /\ image_file t a' p (r_host y) /\ byte_files (r_host y).
Proof.
  intros F1 F2 Hb Hi S1 S2 D1 D2 Hs Hty Ht.
  assert (read_source e1 h source = Some (su_cut e1 bs)) as Er.
  { unfold read_source. rewrite bool_decide_eq_false_2 by done. by rewrite Hs. }
  assert (request_of e1 p h (CWrite ty source (Some name)) = Some (TWrite (su_cut e1 bs) name ft)) as Eq.
  { unfold request_of. cbn [onto_image copy_target]. rewrite (bool_decide_eq_false_2 (source = p)) by done. cbn [andb]. by rewrite Hty, Er. }
  assert (tstep t a (TWrite (su_cut e1 bs) name ft) = Some (a', RDone)) as Ht'.
  { destruct F1 as (_ & Hc & _). cbn [tstep] in *. rewrite Hc. cbn [concat] in Ht. by rewrite app_nil_r in Ht. }
  destruct (host_step e1 p _ h h t a _ a' RDone F1 Hb Hi ltac:(done) Eq Ht') as (H1 & H2 & H3 & H4 & _).
  set (x := invoke e1 p (CWrite ty source (Some name)) h) in *. cbv zeta.
  assert (tstep t a' (TRead name (su_buffer e2)) = Some (a', RBytes bs)) as Ht2.
  { destruct Hi as (d & dirs & chains & _ & S). pose proof (tool_existing _ _ _ _ _ S) as Himg.
    destruct (tool_wrote t a d [bs] name ft a' Himg Ht) as (d' & i & f & _ & _ & Hsn & Hf & Hp & Hdata & _).
    cbn [concat] in Hdata. rewrite app_nil_r in Hdata. cbn [tstep]. destruct (Nat.eqb_spec (su_buffer e2) 0) as [E|_]; [destruct F2; lia|].
    rewrite Hsn, Hf. unfold read_of. by rewrite (Tables.plain_afile _ Hp), Hdata. }
  assert (request_of e2 p (r_host x) (CRead name (Some dst)) = Some (TRead name (su_buffer e2))) as Eq2.
  { unfold request_of, onto_image. cbn [copy_target default]. by rewrite bool_decide_eq_false_2. }
  destruct (host_step e2 p _ (r_host x) (r_host x) t a' _ a' _ F2 H2 H1 ltac:(done) Eq2 Ht2) as (G1 & G2 & G3 & G4 & _).
  split; [done|]. split; [done|]. split; [|split; [|done]].
  - rewrite G3 by done. unfold files_after. cbn [copy_target default]. rewrite bool_decide_eq_false_2 by done. apply put_same.
  - intros q Q1 Q2. rewrite G3 by done. unfold files_after. cbn [copy_target default]. rewrite bool_decide_eq_false_2 by done.
    rewrite put_other by done. by rewrite H3.
Qed.

(** The same with a new image. *)
Lemma host_from_nothing e1 e2 e3 e4 p h label id ty ft source name dst bs :
  let t := new_type (file_name p) in
  fair e1 -> fair e3 -> fair e4 -> byte_files h -> h p = None ->
  source <> dash -> source <> p -> dst <> dash -> dst <> p -> h source = Some bs -> type_arg ty = Some ft ->
  length (from_str_lossy label) <= 16 -> length (from_str_lossy name) <= 16 -> storable_name (from_str_lossy name) = true ->
  length bs <= 254 * disk_blocks t ->
  let '(h', xs) := invoke_all [(e1, p, CCreate); (e2, p, CFormat label id); (e3, p, CWrite ty source (Some name)); (e4, p, CRead name (Some dst))] h in
  h' dst = Some bs /\ (forall q, q <> p -> q <> dst -> h' q = h q) /\ map r_end xs = repeat (Finished None) 4.
Proof.
  intros t F1 F3 F4 Hb Hp S1 S2 D1 D2 Hs Hty Hl Hn Hst Hlen.
  destruct (host_create e1 p h F1 Hb Hp) as (C1 & C2 & C3 & C4). cbn [invoke_all].
  set (h1 := r_host (invoke e1 p CCreate h)) in *. fold t in C4.
  destruct (host_format e2 p h1 t (blank_dev t true) label id C2 C4 Hl) as (G1 & G2 & G3 & G4 & _).
  set (h2 := r_host (invoke e2 p (CFormat label id) h1)) in *.
  set (a := table _ 1 NoBorder (repeat None 8)) in G1.
  assert (0 < disk_blocks t) as Hblocks by (destruct t; vm_compute; lia).
  assert (exists a', tstep t a (TWrite [bs] name ft) = Some (a', RDone)) as [a' Ht].
  { cbn [tstep]. destruct (Nat.ltb_spec 16 (length (from_str_lossy name))); [lia|].
    change (slot_named a (from_str_lossy name)) with (@None nat). change (blocks_left t a) with (disk_blocks t - 0). rewrite Nat.sub_0_r.
    rewrite Hst. assert (storable_type ft = true) as ->. { apply type_arg_values in Hty. by destruct Hty as [[_ ->]|[[_ ->]|[[_ ->]|[_ ->]]]]. }
    cbn [andb negb]. change (place t a) with (Some (0, a)). cbn match. destruct (Nat.eqb_spec (disk_blocks t) 0); [lia|].
    cbn [concat]. rewrite app_nil_r. destruct (Nat.leb_spec (length bs) (254 * disk_blocks t)); [|lia]. by eexists. }
  assert (h2 source = Some bs) as Hs2 by (by rewrite G3, C3).
  destruct (host_round_trip e3 e4 p h2 t a ty ft source name dst bs a' F3 F4 G2 G1 S1 S2 D1 D2 Hs2 Hty Ht) as (R1 & R2 & R3 & R4 & _).
  split; [done|]. split.
  - intros q Q1 Q2. rewrite R4 by done. by rewrite G3, C3.
  - cbn [map repeat]. by rewrite C1, G4, R1, R2.
Qed.
