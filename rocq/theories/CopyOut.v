(** Copying files out of any image file with cdisk. *)
From Verif Require Import Base ListFacts Layout Image Block Bam Format Petscii GeosTypes DirEntry Header World Chain Directory Writer Rel GeosFile File
  Spec SpecChain SpecBam SpecFiles SpecKinds SpecGeos SpecDisk Session GeomFacts ChainProofs SectorProofs Trace Cdisk SpecTool ToolProofs ToolMore
  Errors Host Main SpecHost HostProofs SpecProgram ProgramProofs.
Local Open Scope list_scope.

Section out.
  Context (e : surroundings) (p : file_path) (h : host) (t : disk_type) (d : dev) (name : list N) (target : option (list N)).
  Hypothesis Hh : byte_files h.
  Hypothesis Ho : disk_open_path false p h = Good (t, d).
  Hypothesis Hq : default name target = dash \/ default name target <> p.

  Lemma copied_is q out r : q = dash \/ q <> p ->
    copied_out q out h (copied_to p q h (Some out, r)) /\ r_end (copied_to p q h (Some out, r)) = finish r.
  Proof.
    intros H. unfold copied_to, copied_out. case_bool_decide as E1; [done|]. case_bool_decide as E2; [by destruct H|].
    cbn [r_text r_host r_bytes r_end]. split; [|done]. split; [done|]. split; [done|]. intros _. split; [done|]. split; [apply put_same|].
    intros x Hx. by apply put_other.
  Qed.

  Lemma reads_of f : one_chain f -> file_reader f = Ok (reader_new (de_first (file_entry f))).
  Proof. destruct f as [c x|g|g|g]; cbn [one_chain file_reader file_entry]; [done|done|..]; unfold geos_linear_reader; by intros ->. Qed.
  Lemma reads_not f : ~ one_chain f -> file_reader f = Err ENonLinearFile.
  Proof. destruct f as [c x|g|g|g]; cbn [one_chain file_reader]; [by intros []|done|..]; unfold geos_linear_reader; by destruct (gf_vlir g). Qed.
  Lemma read_command f : open_file (open_world t d) (from_str_lossy name) = Ok f ->
    cmd_read t name (su_buffer e) d
    = match file_reader f with
      | Ok r => let '(out, w) := copy_out (reader_read (with_mode false d)) (copy_fuel d) r (su_buffer e) in (Some out, w)
      | r => (None, done r)
      end.
  Proof.
    intros Hf. unfold cmd_read. rewrite tool_open_false, mode_open_file by apply open_world_cells. rewrite Hf. cbn [rbind]. reflexivity.
  Qed.
  Lemma read_chain f ss w : fair e -> dev_shape t d -> open_file (open_world t d) (from_str_lossy name) = Ok f -> one_chain f ->
    chain_walk d (de_first (file_entry f)) = (ss, w) ->
    let stream := concat (map (fun s => drop 2 (cs_data s)) ss) in
    cmd_read t name (su_buffer e) d = (Some (match w with Ok _ => stream | _ => take (length stream / su_buffer e * su_buffer e) stream end), w)
    /\ (w = Ok tt \/ exists k, w = Err k).
  Proof.
    intros (Hn & _) Hd Hf H1 Hw stream. rewrite (read_command f Hf), (reads_of f H1).
    assert (dev_shape t (with_mode false d)) as Hd' by (destruct Hd; by constructor).
    destruct (copy_chain t (with_mode false d) (de_first (file_entry f)) ss w (su_buffer e) Hd') as [Hc He]; [by rewrite mode_walk|done|].
    change (copy_fuel (with_mode false d)) with (copy_fuel d) in Hc. rewrite Hc. split; [done|]. destruct w as [[]|k| |]; [by left|right; by exists k|done|done].
  Qed.

  Theorem copy_read f ls : fair e -> open_file (open_world t d) (from_str_lossy name) = Ok f -> one_chain f -> sound_chain d (de_first (file_entry f)) ls ->
    let r := invoke e p (CRead name target) h in
    copied_out (default name target) (data_of d ls) h r /\ r_end r = Finished None.
  Proof.
    intros He Hf H1 Hs r. destruct (image_facts p h t d Hh false Ho) as (Hd & _). unfold r. cbn [invoke]. rewrite (with_opened p h t d false) by done.
    destruct (read_chain f _ (Ok tt) He Hd Hf H1 (walk_sound t d _ ls Hd Hs)) as [-> _]. rewrite data_of_walk. by apply copied_is.
  Qed.

  (** A fault in the chain: whole buffers of the data before it, and an error. *)
  Theorem copy_broken f : fair e -> open_file (open_world t d) (from_str_lossy name) = Ok f -> one_chain f ->
    (forall ls, ~ sound_chain d (de_first (file_entry f)) ls) ->
    let r := invoke e p (CRead name target) h in
    exists ls bytes rest k, copied_out (default name target) bytes h r /\ r_end r = Finished (Some (to_io k))
      /\ path d ls /\ (head ls = Some (de_first (file_entry f)) \/ ls = []) /\ data_of d ls = bytes ++ rest /\ length rest < su_buffer e
      /\ ((k = EChainLoop /\ exists l, SpecChain.reached d (de_first (file_entry f)) ls l /\ In l ls)
          \/ (k = EInvalidLocation /\ exists l, SpecChain.reached d (de_first (file_entry f)) ls l /\ ~ on_disk t (g_tracks (d_geom d)) l)
          \/ (k = EInvalidChainLink /\ exists l b, SpecChain.reached d (de_first (file_entry f)) ls l /\ sector d l = Ok b /\ b !!! 0 = 0 /\ b !!! 1 = 0)).
  Proof.
    intros He Hf Ho1 Hs r. destruct (image_facts p h t d Hh false Ho) as (Hd & _). unfold r. cbn [invoke]. rewrite (with_opened p h t d false) by done.
    destruct (chain_traversal t d (de_first (file_entry f)) Hd) as (ss & w & Hw & Hnd & _ & _ & Hp & Hhd & Hss & Hend).
    destruct (read_chain f ss w He Hd Hf Ho1 Hw) as [-> Hr]. destruct He as (Hn & _).
    destruct Hr as [->|(k & ->)]; [by destruct (Hs _ (sound_walk t d _ ss Hd Hw))|].
    set (stream := concat (map (fun s => drop 2 (cs_data s)) ss)).
    exists (map cs_location ss), (take (length stream / su_buffer e * su_buffer e) stream), (drop (length stream / su_buffer e * su_buffer e) stream), k.
    destruct (copied_is (default name target) (take (length stream / su_buffer e * su_buffer e) stream) (Err k) Hq) as [H1 H2].
    split; [exact H1|]. split; [exact H2|]. split; [done|]. split; [done|]. rewrite take_drop. split; [|split].
    - unfold stream, data_of. rewrite map_map. f_equal. clear -Hss. induction Hss as [|s ss (b & Hb & Hc) _ IH]; [done|]. cbn [map]. by rewrite Hb, Hc, IH.
    - rewrite drop_length. pose proof (Nat.div_mod (length stream) (su_buffer e)). pose proof (Nat.mod_upper_bound (length stream) (su_buffer e)). lia.
    - destruct Hend as [(? & _)|[(E & H)|[(E & H)|(E & l & b & R & _ & Hb & B0 & B1)]]]; [done|injection E as ->..].
      + left. by split.
      + right; left. by split.
      + right; right. split; [done|]. by exists l, b.
  Qed.

  (** A file with records: an error, and no file is made. *)
  Theorem copy_records f : open_file (open_world t d) (from_str_lossy name) = Ok f -> ~ one_chain f ->
    let r := invoke e p (CRead name target) h in
    r_end r = Finished (Some (to_io ENonLinearFile)) /\ r_text r = [] /\ r_bytes r = [] /\ r_host r = h.
  Proof.
    intros Hf H1 r. unfold r. cbn [invoke]. rewrite (with_opened p h t d false) by done. by rewrite (read_command f Hf), (reads_not f H1).
  Qed.

  Theorem copy_geos f l j b blocks : open_file (open_world t d) (from_str_lossy name) = Ok f ->
    de_scheme (file_entry f) = SGEOSSequential \/ de_scheme (file_entry f) = SGEOSVLIR ->
    stored d (file_entry f) l j b -> convert_blocks d (slice (32 * j) 32 b) blocks ->
    length (concat blocks) < su_buffer e -> 2 <= su_patience e ->
    let r := invoke e p (CGeosRead name target) h in
    copied_out (default name target) (concat blocks) h r /\ r_end r = Finished None.
  Proof.
    intros Hf Hs Hst Hc Hn Hpa r. destruct (image_facts p h t d Hh false Ho) as (Hd & Hb & _). unfold r. cbn [invoke]. rewrite (with_opened p h t d false) by done.
    replace (su_patience e) with (2 + (su_patience e - 2)) by lia. rewrite (geos_short t d name (su_buffer e) f l j b blocks) by done. by apply copied_is.
  Qed.

  (** A block as long as the buffer: the program does not end, however long we wait. *)
  Theorem copy_geos_endless f l j b blocks : fair e -> open_file (open_world t d) (from_str_lossy name) = Ok f ->
    de_scheme (file_entry f) = SGEOSSequential \/ de_scheme (file_entry f) = SGEOSVLIR ->
    stored d (file_entry f) l j b -> convert_blocks d (slice (32 * j) 32 b) blocks ->
    (exists x, In x blocks /\ su_buffer e <= length x) ->
    let r := invoke e p (CGeosRead name target) h in
    exists out, copied_out (default name target) out h r /\ r_end r = Endless /\ length out = su_patience e * su_buffer e.
  Proof.
    intros (Hn & _) Hf Hs Hst Hc Hx r. destruct (image_facts p h t d Hh false Ho) as (Hd & Hb & _). unfold r. cbn [invoke]. rewrite (with_opened p h t d false) by done.
    assert (su_buffer e <= length (concat blocks)) as Hl.
    { destruct Hx as (x & Hin & Hx). clear -Hin Hx. induction blocks as [|y ys IH]; [done|]. cbn [concat]. rewrite app_length. destruct Hin as [->|Hin]; [lia|]. specialize (IH Hin). lia. }
    destruct (geos_long t d name (su_buffer e) f l j b blocks Hd Hb Hf Hs Hst Hc Hn Hl) as [_ H]. destruct (H Hx (su_patience e)) as (out & -> & Hlen).
    exists out. destruct (copied_is (default name target) out NoFuel Hq) as [H1 H2]. done.
  Qed.

  (** A file that is not a GEOS file. *)
  Theorem copy_geos_plain f : open_file (open_world t d) (from_str_lossy name) = Ok f ->
    match f with FLinear _ _ | FRelative _ => True | _ => False end ->
    let r := invoke e p (CGeosRead name target) h in
    r_end r = Panicked /\ r_text r = [] /\ r_bytes r = [] /\ r_host r = h.
  Proof.
    intros Hf Hk r. unfold r. cbn [invoke]. rewrite (with_opened p h t d false) by done. by rewrite (geos_plain t d name _ _ f Hf Hk).
  Qed.
End out.
