(** What a failed call changes when the image is read-only. *)
From Verif Require Import Base ListFacts Layout Block Bam Format Petscii GeosTypes DirEntry Header World Chain Directory Writer Rel GeosFile
  File Validate Spec SpecChain GeomFacts DevFacts FormatProofs Session SessionMore ReadOnly.

(** [get] is kept by every run on a read-only image. *)
Section Rules.
  Context {S T : Type} (wr : T -> bool) (get : S -> T).
  Definition keep {A} (m : st S A) : Prop := forall s, wr (get s) = false -> get (fst (m s)) = get s.
  Lemma keep_bind {A B} (m : st S A) (f : A -> st S B) : keep m -> (forall a, keep (f a)) -> keep (sbind m f).
  Proof.
    intros Hm Hf s Hs. specialize (Hm s Hs). unfold sbind. destruct (m s) as [s' [a| | |]]; cbn [fst] in *; try done.
    rewrite Hf; [done|by rewrite Hm].
  Qed.
  Lemma keep_fails {A B} (m : st S A) (f : A -> st S B) :
    keep m -> (forall s, wr (get s) = false -> forall a, snd (m s) <> Ok a) -> keep (sbind m f).
  Proof.
    intros Hm Hn s Hs. specialize (Hm s Hs). specialize (Hn s Hs). unfold sbind. destruct (m s) as [s' [a| | |]]; cbn [fst snd] in *; try done.
    by destruct (Hn a).
  Qed.
  Lemma keep_ret {A} (a : A) : keep (ret a). Proof. by intros s. Qed.
  Lemma keep_fail {A} e : keep (fail (A := A) e). Proof. by intros s. Qed.
  Lemma keep_panic {A} : keep (panic (A := A)). Proof. by intros s. Qed.
  Lemma keep_lift {A} (r : res A) : keep (lift r). Proof. by intros s. Qed.
  Lemma keep_asks {A} (f : S -> res A) : keep (asks f). Proof. by intros s. Qed.
  Lemma keep_gets {A} (f : S -> A) : keep (gets f). Proof. by intros s. Qed.
  Lemma keep_modify f : (forall s, get (f s) = get s) -> keep (modify f). Proof. intros H s _. apply H. Qed.
  Lemma keep_for {X} (body : X -> st S unit) xs : (forall x, keep (body x)) -> keep (for_each body xs).
  Proof. intros H. induction xs as [|x xs IH]; [apply keep_ret|]. cbn [for_each]. apply keep_bind; [apply H|done]. Qed.
End Rules.

Notation wlocked := (fun w => d_writable (w_dev w)).
(** Everything but the contents of the allocation maps. *)
Definition besides_maps (w : world) : world := mk_world (w_type w) (w_dev w) (w_header w) (w_fmt w) (w_bam w) [].
Notation keeps := (keep wlocked (fun w : world => w)).
Notation keeps_apart := (keep wlocked besides_maps).

Lemma set_dev_same w : set_dev (w_dev w) w = w. Proof. by destruct w. Qed.
Lemma keeps_on_dev {A} (m : st dev A) : ro (fun d => d) m -> keeps (on_dev m).
Proof.
  intros H w Hw. specialize (H (w_dev w) Hw). unfold on_dev, zoom. destruct (m (w_dev w)) as [d r]. cbn [fst] in *. subst d. apply set_dev_same.
Qed.
Lemma keeps_weaken {A} (m : st world A) : keeps m -> keeps_apart m.
Proof. intros H w Hw. by rewrite (H w Hw). Qed.
Lemma apart_on_dev {A} (m : st dev A) : ro (fun d => d) m -> keeps_apart (on_dev m).
Proof. intros H. by apply keeps_weaken, keeps_on_dev. Qed.
Lemma apart_update c f : keeps_apart (update_cell c f).
Proof. unfold update_cell. apply keep_bind; [apply keep_asks|intros b]. apply keep_bind; [apply keep_lift|intros b']. by apply keep_modify. Qed.
Lemma keeps_flush c : keeps (flush_cell c).
Proof. unfold flush_cell. apply keep_bind; [apply keep_asks|intros b]. apply keeps_on_dev, ro_bam_flush. Qed.

Ltac kp_step :=
  match goal with
  | |- keep _ _ (sbind _ _) => apply keep_bind; [|intros ?]
  | |- keep _ _ (ret _) => apply keep_ret
  | |- keep _ _ (fail _) => apply keep_fail
  | |- keep _ _ panic => apply keep_panic
  | |- keep _ _ (lift _) => apply keep_lift
  | |- keep _ _ (asks _) => apply keep_asks
  | |- keep _ _ (gets _) => apply keep_gets
  | |- keep _ _ (for_each _ _) => apply keep_for; intros ?
  | |- keep _ besides_maps (on_dev _) => apply apart_on_dev; solve [ro]
  | |- keep _ _ (on_dev _) => apply keeps_on_dev; solve [ro]
  | |- keep _ besides_maps (update_cell _ _) => apply apart_update
  | |- keep _ besides_maps (flush_cell _) => apply keeps_weaken, keeps_flush
  | |- keep _ _ (flush_cell _) => apply keeps_flush
  | |- keep _ _ (match ?x with _ => _ end) => destruct x
  end.
Ltac kp := repeat first [done | kp_step].

Lemma apart_next : keeps_apart next_free_directory_entry.
Proof. unfold next_free_directory_entry. kp. Qed.
Lemma apart_remove c l : keeps_apart (remove_chain c l).
Proof. unfold remove_chain. kp. Qed.
Lemma apart_create name ft : keeps_apart (create_file name ft).
Proof.
  unfold create_file. repeat first [apply apart_next | kp_step].
  intros w Hw. match goal with |- context [on_dev ?m w] => pose proof (apart_on_dev m ltac:(ro) w Hw) as H; destruct (on_dev m w) as [w' [u| | |]] end;
    cbn [fst] in *; try done.
  match goal with |- context [sbind ?m ?f w'] => assert (keeps_apart (sbind m f)) as Hm by kp end.
  rewrite Hm; [done|]. by rewrite H.
Qed.
Lemma apart_delete f : keeps_apart (file_delete f).
Proof.
  destruct f; cbn [file_delete]; unfold linear_delete, rel_delete, geos_delete;
    repeat first [apply apart_remove | kp_step].
Qed.
Lemma keeps_rename a b : keeps (w_rename a b).
Proof. unfold w_rename, write_directory_entry. kp. Qed.

Lemma zero_locations_some t g : In g (allowed_geometries t) -> exists l ls, zero_locations (native_format t) g = l :: ls.
Proof. destruct t; cbn [allowed_geometries]; intros H; repeat destruct H as [<-|H]; try done; do 2 eexists; reflexivity. Qed.
Lemma format_locked t w name id :
  w_type w = t -> dev_shape t (w_dev w) -> d_writable (w_dev w) = false -> write_format name id w = (w, Err EReadOnly).
Proof.
  intros Ht Hd Hw. unfold write_format, sbind, gets, native. rewrite Ht.
  destruct (zero_locations_some t (d_geom (w_dev w)) (ds_geom _ _ Hd)) as (l & ls & ->). cbn [for_each].
  unfold on_dev, zoom, sbind, zero_sector. rewrite sector_mut_ro by done. by rewrite set_dev_same.
Qed.

(** Writers. *)
Notation wkeeps := (keep (S := world * writer) wlocked fst).
Lemma wkeeps_on_world {A} (m : st world A) : keeps m -> wkeeps (on_world m).
Proof. intros H [w k] Hw. specialize (H w Hw). unfold on_world, zoom. cbn [fst snd] in *. by destruct (m w). Qed.
Lemma current_fails s : d_writable (w_dev (fst s)) = false -> exists s', write_current_block s = (s', Err EReadOnly) /\ fst s' = fst s.
Proof.
  intros Hw. destruct s as [w k]. cbn [fst] in *. eexists. unfold write_current_block, sbind, the_writer, gets, on_world, zoom, on_dev, zoom. cbn [fst snd].
  rewrite sector_mut_ro by done. split; [done|]. cbn [fst]. apply set_dev_same.
Qed.
Lemma wkeeps_current : wkeeps write_current_block.
Proof. intros s Hs. destruct (current_fails s Hs) as (s' & -> & E). exact E. Qed.
Lemma wkeeps_after {A} (f : unit -> wst A) : wkeeps (sbind write_current_block f).
Proof. apply keep_fails; [apply wkeeps_current|]. intros s Hs a. destruct (current_fails s Hs) as (s' & -> & _). done. Qed.
Lemma wkeeps_allocate : wkeeps allocate_next_block.
Proof. apply wkeeps_after. Qed.
Lemma wkeeps_loop fuel buf : wkeeps (write_loop fuel buf).
Proof.
  revert buf. induction fuel as [|fuel IH]; intros [|x buf]; cbn [write_loop]; unfold the_writer, on_writer; kp.
  apply wkeeps_allocate.
Qed.
Lemma wkeeps_write buf : wkeeps (writer_write buf).
Proof. unfold writer_write, on_writer. kp; apply wkeeps_loop. Qed.
Lemma wkeeps_flush : wkeeps writer_flush.
Proof. unfold writer_flush, the_writer. apply keep_bind; [apply keep_gets|intros k]. destruct (cw_dirty k); [apply wkeeps_after|apply keep_ret]. Qed.

(** A failed call: only the contents of the allocation map can have changed, and
    only by creating or deleting a file. *)
Definition may_leak (o : op) : bool := match o with OCreate _ _ | ODelete _ => true | _ => false end.
Theorem locked_failure t s o s' e :
  w_type (s_world s) = t -> dev_shape t (w_dev (s_world s)) -> d_writable (w_dev (s_world s)) = false ->
  call s o = (s', AError e) ->
  besides_maps (s_world s') = besides_maps (s_world s) /\ s_handles s' = s_handles s /\ length (s_writers s') = length (s_writers s)
  /\ (may_leak o = false -> s_world s' = s_world s).
Proof.
  intros Ht Hd Hw Hc. destruct o; cbn [call may_leak] in *.
  - pose proof (apart_create name ft (s_world s) Hw) as H. destruct (create_file name ft (s_world s)) as [w' [x| | |]]; cbn [fst answer_of] in *;
      injection Hc as <- ?; try done.
  - destruct (open_file (s_world s) name); injection Hc as <- ?; done.
  - destruct (s_handles s !! h); [|done]. destruct (file_writer _ _); injection Hc as <- ?; done.
  - destruct (s_writers s !! k) as [[x|]|]; [|done..]. pose proof (wkeeps_write buf (s_world s, x) Hw) as H.
    destruct (writer_write buf (s_world s, x)) as [[w' x'] r]. cbn [fst] in H. subst w'. injection Hc as <- ?. cbn [s_world s_handles s_writers].
    by rewrite insert_length.
  - destruct (s_writers s !! k) as [[x|]|]; [|done..]. pose proof (wkeeps_flush (s_world s, x) Hw) as H.
    destruct (writer_flush (s_world s, x)) as [[w' x'] r]. cbn [fst] in H. subst w'. injection Hc as <- ?. cbn [s_world s_handles s_writers].
    by rewrite insert_length.
  - by destruct (s_writers s !! k) as [[x|]|].
  - destruct (s_handles s !! h); [|done]. by injection Hc as <- ?.
  - destruct (s_handles s !! h); [|done]. by injection Hc as <- ?.
  - destruct (s_handles s !! h) as [x|]; [|done]. pose proof (apart_delete x (s_world s) Hw) as H.
    destruct (file_delete x (s_world s)) as [w' r]. by injection Hc as <- ?.
  - pose proof (keeps_rename old new (s_world s) Hw) as H. destruct (w_rename old new (s_world s)) as [w' r]. cbn [fst] in H. subst w'.
    injection Hc as <- ?. by destruct s.
  - by injection Hc as <- ?.
  - by injection Hc as <- ?.
  - by injection Hc as <- ?.
  - by injection Hc as <- ?.
  - done.
  - done.
  - rewrite (format_locked t) in Hc by done. injection Hc as <- ?. by destruct s.
Qed.
