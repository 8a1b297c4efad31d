(** Nothing is written to a read-only image. *)
From Verif Require Import Base ListFacts Layout Block Bam Format Petscii GeosTypes DirEntry Header World Chain Directory Writer Rel GeosFile
  File Validate SpecChain Session SessionMore.

(** The device stays as it is when it is read-only. *)
Definition ro {S A} (get : S -> dev) (m : st S A) : Prop :=
  forall s, d_writable (get s) = false -> get (fst (m s)) = get s.

Section Rules.
  Context {S : Type} (get : S -> dev).
  Lemma ro_bind {A B} (m : st S A) (f : A -> st S B) : ro get m -> (forall a, ro get (f a)) -> ro get (sbind m f).
  Proof.
    intros Hm Hf s Hs. specialize (Hm s Hs). unfold sbind. destruct (m s) as [s' [a| | |]]; cbn [fst] in *; try done.
    rewrite Hf; [done|by rewrite Hm].
  Qed.
  Lemma ro_ret {A} (a : A) : ro get (ret a). Proof. by intros s. Qed.
  Lemma ro_fail {A} e : ro get (fail (A := A) e). Proof. by intros s. Qed.
  Lemma ro_panic {A} : ro get (panic (A := A)). Proof. by intros s. Qed.
  Lemma ro_lift {A} (r : res A) : ro get (lift r). Proof. by intros s. Qed.
  Lemma ro_asks {A} (f : S -> res A) : ro get (asks f). Proof. by intros s. Qed.
  Lemma ro_gets {A} (f : S -> A) : ro get (gets f). Proof. by intros s. Qed.
  Lemma ro_modify f : (forall s, get (f s) = get s) -> ro get (modify f). Proof. intros H s _. apply H. Qed.
  Lemma ro_for {X} (body : X -> st S unit) xs : (forall x, ro get (body x)) -> ro get (for_each body xs).
  Proof. intros H. induction xs as [|x xs IH]; [apply ro_ret|]. cbn [for_each]. apply ro_bind; [apply H|done]. Qed.
End Rules.

Lemma ro_on_dev {A} (m : st dev A) : ro (fun d => d) m -> ro w_dev (on_dev m).
Proof. intros H w Hw. specialize (H (w_dev w) Hw). unfold on_dev, zoom. by destruct (m (w_dev w)). Qed.
Lemma ro_on_world {A} (m : st world A) : ro w_dev m -> ro (fun s : world * writer => w_dev (fst s)) (on_world m).
Proof. intros H [w k] Hw. specialize (H w Hw). unfold on_world, zoom. cbn [fst snd]. by destruct (m w). Qed.

Lemma ro_sector_mut l f : ro (fun d => d) (sector_mut l f).
Proof. intros d Hd. unfold sector_mut. by rewrite Hd. Qed.

Create HintDb ro.
Ltac ro_step :=
  match goal with
  | |- ro _ (sbind _ _) => apply ro_bind; [|intros ?]
  | |- ro _ (ret _) => apply ro_ret
  | |- ro _ (fail _) => apply ro_fail
  | |- ro _ panic => apply ro_panic
  | |- ro _ (lift _) => apply ro_lift
  | |- ro _ (asks _) => apply ro_asks
  | |- ro _ (gets _) => apply ro_gets
  | |- ro _ (modify _) => apply ro_modify; intros ?
  | |- ro _ (for_each _ _) => apply ro_for; intros ?
  | |- ro _ (sector_mut _ _) => apply ro_sector_mut
  | |- ro _ (on_dev _) => apply ro_on_dev
  | |- ro _ (on_world _) => apply ro_on_world
  | |- ro _ (match ?x with _ => _ end) => destruct x
  | |- ro _ (let '(_, _) := ?x in _) => destruct x
  end.
Ltac ro := repeat first [done | solve [eauto with ro nocore] | ro_step].

Lemma ro_dev_flush : ro (fun d => d) dev_flush. Proof. unfold dev_flush. ro. Qed.
Lemma ro_write_sector l data : ro (fun d => d) (write_sector l data).
Proof. intros d Hd. unfold write_sector. destruct (_ =? _); [by apply ro_sector_mut|done]. Qed.
Lemma ro_positioned_write e : ro (fun d => d) (positioned_write e).
Proof.
  intros d Hd. unfold positioned_write. destruct (de_pos e); [|done]. unfold check_writability. by rewrite Hd.
Qed.
Lemma ro_header_write h hf : ro (fun d => d) (header_write h hf). Proof. unfold header_write. ro. Qed.
Lemma ro_zero_sector l : ro (fun d => d) (zero_sector l). Proof. unfold zero_sector. ro. Qed.
#[global] Hint Resolve ro_dev_flush ro_write_sector ro_positioned_write ro_header_write ro_zero_sector : ro.

Lemma ro_bam_flush b : ro (fun d => d) (bam_flush b).
Proof.
  unfold bam_flush. ro. generalize 0 as p. induction (bam_sections (b_format b)) as [|s ss IH]; intros p; cbn [bam_write_sections]; ro.
  unfold bam_write_section. ro.
Qed.
#[global] Hint Resolve ro_bam_flush : ro.

Lemma set_bam_dev nb w : w_dev (set_bam nb w) = w_dev w.
Proof. unfold set_bam, set_cell. by destruct nb, (w_bam w). Qed.
Lemma initialize_dev w : w_dev (initialize w) = w_dev w.
Proof. unfold initialize. cbn [set_fmt w_dev]. rewrite set_bam_dev. done. Qed.

Lemma ro_update_cell c f : ro w_dev (update_cell c f). Proof. unfold update_cell. ro. Qed.
Lemma ro_flush_cell c : ro w_dev (flush_cell c). Proof. unfold flush_cell. ro. Qed.
#[global] Hint Resolve ro_update_cell ro_flush_cell : ro.

Lemma ro_write_format name id : ro w_dev (write_format name id).
Proof. unfold write_format. ro. - apply set_bam_dev. - apply initialize_dev. Qed.
Lemma ro_flush_header : ro w_dev flush_header. Proof. unfold flush_header. ro. Qed.
Lemma ro_header_mut f : ro w_dev (w_header_mut f). Proof. unfold w_header_mut. ro. Qed.
Lemma ro_write_entry e : ro w_dev (write_directory_entry e). Proof. unfold write_directory_entry. ro. Qed.
#[global] Hint Resolve ro_write_format ro_flush_header ro_header_mut ro_write_entry : ro.
Lemma ro_rename a b : ro w_dev (w_rename a b). Proof. unfold w_rename. ro. Qed.
Lemma ro_next_entry : ro w_dev next_free_directory_entry. Proof. unfold next_free_directory_entry. ro. Qed.
Lemma ro_remove_chain c l : ro w_dev (remove_chain c l). Proof. unfold remove_chain. ro. Qed.
#[global] Hint Resolve ro_rename ro_next_entry ro_remove_chain : ro.
Lemma ro_delete f : ro w_dev (file_delete f).
Proof. destruct f; cbn [file_delete]; unfold linear_delete, rel_delete, geos_delete; ro. Qed.
Lemma ro_create name t : ro w_dev (create_file name t).
Proof.
  unfold create_file. ro. intros w Hw.
  match goal with |- context [on_dev ?m w] => pose proof (ro_on_dev m ltac:(eauto with ro nocore) w Hw) as H; destruct (on_dev m w) as [w' [u| | |]] end;
    cbn [fst] in *; try done.
  match goal with |- context [sbind ?m ?f w'] => assert (ro w_dev (sbind m f)) as Hm by ro end.
  rewrite Hm; [done|by rewrite H].
Qed.
#[global] Hint Resolve ro_delete ro_create : ro.

Notation wdev := (fun s : world * writer => w_dev (fst s)).
Lemma ro_current : ro wdev write_current_block. Proof. unfold write_current_block, the_writer. ro. Qed.
Lemma ro_increment : ro wdev increment_entry_blocks. Proof. unfold increment_entry_blocks, the_writer, on_writer. ro. Qed.
#[global] Hint Resolve ro_current ro_increment : ro.
Lemma ro_allocate : ro wdev allocate_next_block.
Proof.
  unfold allocate_next_block, the_writer, on_writer. ro. intros s Hs.
  match goal with |- context [on_world ?m s] => pose proof (ro_on_world m ltac:(ro) s Hs) as H; destruct (on_world m s) as [s' [u| | |]] end;
    cbn [fst] in *; try done.
  match goal with |- context [sbind ?m ?f s'] => assert (ro wdev (sbind m f)) as Hm by ro end.
  rewrite Hm; [done|by rewrite H].
Qed.
#[global] Hint Resolve ro_allocate : ro.
Lemma ro_write_loop fuel buf : ro wdev (write_loop fuel buf).
Proof.
  revert buf. induction fuel as [|fuel IH]; intros [|x buf]; cbn [write_loop]; unfold the_writer, on_writer; ro.
Qed.
Lemma ro_writer_write buf : ro wdev (writer_write buf).
Proof. unfold writer_write, on_writer. ro. apply ro_write_loop. Qed.
Lemma ro_writer_flush : ro wdev writer_flush.
Proof. unfold writer_flush, the_writer, on_writer. ro. Qed.

Lemma call_ro s o : d_writable (w_dev (s_world s)) = false -> w_dev (s_world (fst (call s o))) = w_dev (s_world s).
Proof.
  intros Hw. destruct o; cbn [call].
  - pose proof (ro_create name ft (s_world s) Hw) as H. destruct (create_file name ft (s_world s)) as [w' [x| | |]]; done.
  - by destruct (open_file (s_world s) name).
  - destruct (s_handles s !! h) as [x|]; [|done]. by destruct (file_writer (w_dev (s_world s)) x).
  - destruct (s_writers s !! k) as [[x|]|]; [|done..]. pose proof (ro_writer_write buf (s_world s, x) Hw) as H.
    destruct (writer_write buf (s_world s, x)) as [[w' x'] r]. done.
  - destruct (s_writers s !! k) as [[x|]|]; [|done..]. pose proof (ro_writer_flush (s_world s, x) Hw) as H.
    destruct (writer_flush (s_world s, x)) as [[w' x'] r]. done.
  - destruct (s_writers s !! k) as [[x|]|]; [|done..]. pose proof (ro_writer_flush (s_world s, x) Hw) as H. done.
  - by destruct (s_handles s !! h).
  - by destruct (s_handles s !! h).
  - destruct (s_handles s !! h) as [x|]; [|done]. pose proof (ro_delete x (s_world s) Hw) as H.
    by destruct (file_delete x (s_world s)).
  - pose proof (ro_rename old new (s_world s) Hw) as H. by destruct (w_rename old new (s_world s)).
  - done.
  - done.
  - done.
  - done.
  - apply initialize_dev.
  - unfold open_world. cbn [fst s_world]. by rewrite initialize_dev.
  - pose proof (ro_write_format name id (s_world s) Hw) as H. by destruct (write_format name id (s_world s)).
Qed.

Lemma any_call_ro s o : d_writable (w_dev (s_world s)) = false -> w_dev (s_world (any_call s o)) = w_dev (s_world s).
Proof.
  intros Hw.
  assert (forall A (m : st world A), ro w_dev m -> w_dev (s_world (run m s)) = w_dev (s_world s)) as Hr by (intros A m Hm; by apply Hm).
  destruct o; cbn [any_call]; unfold w_write_sector; try (apply Hr; ro).
  - by apply call_ro.
  - done.
  - done.
  - apply set_bam_dev.
  - by destruct (open_file_from_entry _ _).
Qed.

Theorem read_only s os : d_writable (w_dev (s_world s)) = false -> w_dev (s_world (any_calls s os)) = w_dev (s_world s).
Proof.
  revert s. induction os as [|o os IH]; intros s Hw; [done|]. unfold any_calls in *. cbn [fold_left].
  pose proof (any_call_ro s o Hw) as H. rewrite IH; [done|by rewrite H].
Qed.
