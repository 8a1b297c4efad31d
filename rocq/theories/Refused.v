(** Runs of cdisk that are refused. *)
From Verif Require Import Base ListFacts Layout Image Block Bam Format Petscii GeosTypes DirEntry Header World Chain Directory Writer Rel GeosFile File
  Spec SpecChain SpecBam SpecFiles SpecKinds SpecDisk Session FlatProofs Trace Cdisk SpecTool ToolProofs ToolMore
  Text Errors Host Main SpecHost HostProofs ProgramProofs.
Local Open Scope list_scope.

Theorem opens_by_size m p h :
  (exists t d, disk_open_path m p h = Good (t, d))
  <-> exists bs t n e, h p = Some bs /\ (from_extension (file_name p) = None \/ from_extension (file_name p) = Some t)
        /\ In (n, e, N.of_nat (length bs)) (spec_images t).
Proof.
  unfold disk_open_path, image_open. destruct (h p) as [bs|] eqn:Eh; [|split; [by intros (? & ? & ?)|by intros (? & ? & ? & ? & ? & _)]].
  destruct (open_by_size (from_extension (file_name p)) (mk_image (kind_of m) bs)) as (_ & Hs & _).
  change (im_len (mk_image (kind_of m) bs)) with (N.of_nat (length bs)) in Hs. split.
  - destruct bs as [|b bs]; [by intros (? & ? & ?)|]. cbn [map_file]. change (if m then ReadWriteMap else ReadOnlyMap) with (kind_of m).
    destruct (disk_open _ _) as [[t d]| | |] eqn:Eo; try by intros (? & ? & ?). intros _.
    destruct (proj1 Hs) as (t' & n & e & H); [by exists t, d|]. by exists (b :: bs), t', n, e.
  - intros (bs' & t & n & e & [= <-] & Ht & Hin). destruct (proj2 Hs) as (t' & d & Ho); [by exists t, n, e|].
    destruct bs as [|b bs]; [exfalso; clear -Hin; destruct t; cbn in Hin; intuition congruence|].
    cbn [map_file]. change (if m then ReadWriteMap else ReadOnlyMap) with (kind_of m). rewrite Ho. by exists t', (unflatten d).
Qed.

Lemma bad_modes m m' p h x : disk_open_path m p h = Bad x -> exists y, disk_open_path m' p h = Bad y.
Proof.
  intros H. destruct (disk_open_path m' p h) as [[t d]|y] eqn:E; [|by exists y]. rewrite (open_modes m' m p h t d E) in H. done.
Qed.

(** The file is not an image. *)
Theorem not_an_image e p c h x : c <> CCreate -> disk_open_path false p h = Bad x ->
  let r := invoke e p c h in
  r_host r = h /\ r_text r = [] /\ r_bytes r = [] /\ (r_end r = Usage \/ exists failure, r_end r = Finished (Some failure)).
Proof.
  intros Hc Hx r. destruct (bad_modes false true p h x Hx) as (y & Hy).
  assert (forall m k, with_image m p h k = mk_result h [] [] (Finished (Some (if m then y else x)))) as Hw.
  { intros m k. unfold with_image. destruct m; [by rewrite Hy|by rewrite Hx]. }
  assert (forall z, r = mk_result h [] [] (Finished (Some z)) \/ r = mk_result h [] [] Usage ->
    r_host r = h /\ r_text r = [] /\ r_bytes r = [] /\ (r_end r = Usage \/ exists failure, r_end r = Finished (Some failure))) as Hr.
  { intros z [->| ->]; cbn [r_host r_text r_bytes r_end]; (split; [done|]); (split; [done|]); (split; [done|]); [right; by exists z|by left]. }
  unfold r in *. destruct c; cbn [invoke] in *; rewrite ?Hw in *; try by apply (Hr x); left.
  all: try by apply (Hr y); left.
  - destruct (track_arg track), (sector_arg sector); rewrite ?Hw in *; first [by apply (Hr y); left|by apply (Hr y); right].
  - destruct (type_arg ty); [|by apply (Hr y); right]. destruct (read_source e h source); [|by apply (Hr missing); left]. rewrite ?Hw in *. by apply (Hr y); left.
  - destruct (read_source e h source); [|by apply (Hr missing); left]. rewrite ?Hw in *. by apply (Hr x); left.
Qed.

(** The arguments are not understood. *)
Theorem usage_changes_nothing e p c h :
  let r := invoke e p c h in r_end r = Usage -> r_host r = h /\ r_text r = [] /\ r_bytes r = [].
Proof.
  intros r. assert (forall z : res unit, finish z <> Usage) as Hf by (by intros [[]| | |]).
  assert (forall m k, (forall t d, r_end (k t d) <> Usage) -> r_end (with_image m p h k) <> Usage) as Hw.
  { intros m k Hk. unfold with_image. destruct (disk_open_path m p h) as [[t d]|]; [apply Hk|done]. }
  assert (forall q x, r_end (copied_to p q h x) <> Usage) as Hcp.
  { intros q [[out|] z]; unfold copied_to; repeat case_bool_decide; by cbn [r_end]. }
  unfold r. destruct c; cbn [invoke]; cbv zeta.
  all: try (intros H; exfalso; revert H; apply Hw; intros t d; first [by apply Hf|by apply Hcp]).
  - destruct (track_arg track), (sector_arg sector); try done. intros H; exfalso; revert H. apply Hw. intros t d. apply Hf.
  - destruct (type_arg ty); [|done]. destruct (read_source e h source); [|done]. intros H; exfalso; revert H. apply Hw. intros t d.
    destruct (_ && _); [done|apply Hf].
  - destruct (read_source e h source); [|done]. intros H; exfalso; revert H. apply Hw. intros t d. apply Hf.
  - destruct (h p); [done|]. destruct (cmd_create _ _) as [bytes z]. intros H. by destruct (Hf z).
  - intros H; exfalso; revert H. apply Hw. intros t d. destruct (print_validate t d []) as [out z]. cbn [r_end].
    destruct z as [[]| | |]; try done; destruct (cmd_validate t d); done.
Qed.

(** The image exists already, or the source does not. *)
Theorem create_existing e p h bs : h p = Some bs ->
  let r := invoke e p CCreate h in r_host r = h /\ r_bytes r = [] /\ r_end r = Finished (Some exists_already).
Proof. intros H r. unfold r. cbn [invoke]. by rewrite H. Qed.
Theorem source_missing e p h ty ft source target : source <> dash -> h source = None -> type_arg ty = Some ft ->
  invoke e p (CWrite ty source target) h = mk_result h [] [] (Finished (Some missing))
  /\ invoke e p (CAppend source target) h = mk_result h [] [] (Finished (Some missing)).
Proof.
  intros H1 H2 H3. cbn [invoke]. rewrite H3. unfold read_source. rewrite bool_decide_eq_false_2 by done. by rewrite H2.
Qed.

(** The named file is not on the disk. *)
Theorem file_missing e p h t d name target : disk_open_path false p h = Good (t, d) -> w_find (open_world t d) (from_str_lossy name) = Err ENotFound ->
  Forall (fun c => let r := invoke e p c h in
      (forall q, r_host r q = h q) /\ r_text r = [] /\ r_bytes r = [] /\ r_end r = Finished (Some (to_io ENotFound)))
    [CRead name target; CGeosRead name target; CDump (Some name); CDelete name].
Proof.
  intros Ho Hf. pose proof (open_modes false true p h t d Ho) as Ht. destruct (opened _ _ _ _ _ Ho) as (bs & Hb & _ & Eb & _).
  assert (open_file (open_world t d) (from_str_lossy name) = Err ENotFound) as Hn by (unfold open_file; by rewrite Hf).
  assert (open_file (tool_open t false d) (from_str_lossy name) = Err ENotFound) as Hn0.
  { by rewrite tool_open_false, mode_open_file by apply open_world_cells. }
  assert (open_file (tool_open t true (with_mode true d)) (from_str_lossy name) = Err ENotFound) as Hn1.
  { rewrite tool_open_true by done. unfold tool_open. rewrite mode_open. by rewrite mode_open_file by apply open_world_cells. }
  repeat constructor; cbn [invoke]; try (rewrite (with_opened p h t d false) by done); try (rewrite (with_opened p h t (with_mode true d) true) by done).
  all: try (unfold cmd_read, cmd_geosread; rewrite Hn0; done).
  all: try (unfold cmd_dump; rewrite Hn1; done).
  all: unfold cmd_delete; rewrite Hn1; cbn [changed r_host r_text r_bytes r_end fst snd]; try done.
  intros q. destruct (decide (q = p)) as [->|Hq]; [|by apply put_other]. rewrite put_same, Hb. f_equal. unfold saved. rewrite tool_open_true by done.
  rewrite (proj2 (proj2 (open_world_cells t (with_mode true d)))). exact Eb.
Qed.

(** Names that are not on the disk, or are there already. *)
Lemma refused_change p h t d (x : dev * res unit) err : disk_open_path false p h = Good (t, d) ->
  x = (saved (tool_open t true (with_mode true d)), Err err) ->
  let r := changed p h x in
  (forall q, r_host r q = h q) /\ r_text r = [] /\ r_bytes r = [] /\ r_end r = Finished (Some (to_io err)).
Proof.
  intros Ho -> r. destruct (opened _ _ _ _ _ Ho) as (bs & Hb & _ & Eb & _). split; [|done].
  intros q. unfold r. cbn [changed r_host fst]. destruct (decide (q = p)) as [->|Hq]; [|by apply put_other]. rewrite put_same, Hb. f_equal. unfold saved.
  rewrite tool_open_true by done. rewrite (proj2 (proj2 (open_world_cells t (with_mode true d)))). exact Eb.
Qed.
Lemma found_writable t d name : w_find (tool_open t true (with_mode true d)) name = w_find (open_world t d) name.
Proof. rewrite tool_open_true by done. rewrite mode_open. by rewrite mode_find by apply open_world_cells. Qed.

Lemma short_valid name : length name <= 16 -> check_filename_validity name = Ok tt.
Proof. intros H. unfold check_filename_validity. by rewrite (proj2 (Nat.ltb_ge _ _)) by exact H. Qed.

Theorem rename_missing e p h t d old new : disk_open_path false p h = Good (t, d) -> w_find (open_world t d) (from_str_lossy old) = Err ENotFound ->
  let r := invoke e p (CRename old new) h in
  (forall q, r_host r q = h q) /\ r_text r = [] /\ r_bytes r = [] /\ r_end r = Finished (Some (to_io ENotFound)).
Proof.
  intros Ho Hf r. unfold r. cbn [invoke]. rewrite (with_opened p h t (with_mode true d) true) by exact (open_modes false true p h t d Ho).
  apply (refused_change p h t d); [done|]. unfold cmd_rename, w_rename, sbind, asks. by rewrite found_writable, Hf.
Qed.
Theorem rename_taken e p h t d old new x y : disk_open_path false p h = Good (t, d) ->
  w_find (open_world t d) (from_str_lossy old) = Ok x -> w_find (open_world t d) (from_str_lossy new) = Ok y -> length (from_str_lossy new) <= 16 ->
  let r := invoke e p (CRename old new) h in
  (forall q, r_host r q = h q) /\ r_text r = [] /\ r_bytes r = [] /\ r_end r = Finished (Some (to_io EFileExists)).
Proof.
  intros Ho Hx Hy Hl r. unfold r. cbn [invoke]. rewrite (with_opened p h t (with_mode true d) true) by exact (open_modes false true p h t d Ho).
  apply (refused_change p h t d); [done|]. unfold cmd_rename, w_rename, sbind, asks. rewrite found_writable, Hx.
  rewrite short_valid by done. cbn [Base.lift]. unfold check_filename_availability. by rewrite found_writable, Hy.
Qed.
Theorem write_taken e p h t d ty ft source pieces target x : disk_open_path false p h = Good (t, d) ->
  type_arg ty = Some ft -> read_source e h source = Some pieces -> source = dash \/ source <> p ->
  w_find (open_world t d) (from_str_lossy (default source target)) = Ok x -> length (from_str_lossy (default source target)) <= 16 ->
  let r := invoke e p (CWrite ty source target) h in
  (forall q, r_host r q = h q) /\ r_text r = [] /\ r_bytes r = [] /\ r_end r = Finished (Some (to_io EFileExists)).
Proof.
  intros Ho Ht Hs Hp Hx Hl r. unfold r. cbn [invoke]. rewrite Ht, Hs. rewrite (with_opened p h t (with_mode true d) true) by exact (open_modes false true p h t d Ho).
  replace (bool_decide (source = p) && negb (bool_decide (source = dash))) with false by (repeat case_bool_decide; naive_solver).
  apply (refused_change p h t d); [done|]. unfold cmd_write, create_file, sbind, asks.
  rewrite short_valid by done. cbn [Base.lift]. unfold check_filename_availability. rewrite found_writable. match goal with |- context [w_find (open_world t d) ?n] => replace (w_find (open_world t d) n) with (Ok x) by (symmetry; exact Hx) end. reflexivity.
Qed.

(** "cdisk append" never changes anything. *)
Theorem append_refused e p h t d source target pieces : byte_files h -> disk_open_path false p h = Good (t, d) -> read_source e h source = Some pieces ->
  let r := invoke e p (CAppend source target) h in
  (forall q, r_host r q = h q) /\ r_text r = [] /\ r_bytes r = [] /\ r_end r <> Finished None.
Proof.
  intros Hh Ho Hs r. destruct (image_facts p h t d Hh false Ho) as (Hd & Hb & _). unfold r. cbn [invoke]. rewrite Hs, (with_opened p h t d false) by done.
  assert (dev_shape t (with_mode true d)) as Hd' by (destruct Hd; by constructor).
  destruct (append_never t pieces (default source target) (with_mode true d) Hd' Hb eq_refl) as (z & E & Hz & _).
  change (cmd_append t pieces (default source target) d) with (cmd_append t pieces (default source target) (with_mode true d)). rewrite E.
  destruct (opened _ _ _ _ _ Ho) as (bs & Hbs & _ & Eb & _). cbn [changed r_host r_text r_bytes r_end fst snd]. split; [|split; [done|split; [done|]]].
  - intros q. destruct (decide (q = p)) as [->|Hq]; [|by apply put_other]. rewrite put_same, Hbs. f_equal. exact Eb.
  - destruct z as [[]| | |]; [by destruct Hz|done..].
Qed.
