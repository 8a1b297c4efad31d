(** The disk refines the table of files. *)
From Verif Require Import Base ListFacts Layout Block Bam Format Petscii GeosTypes DirEntry Header World Chain Directory Writer Rel
  GeosFile File Validate Spec SpecCodec GeomFacts FlatProofs DevFacts SpecChain ChainProofs SpecBam AllocProofs BamState Evolve Holds
  View Dirs Ops Count OpWrite OpFile OpCreate FormatProofs SpecValidate ValidateProofs SpecKinds SpecialFiles OpDelete Session SpecDisk.
Ltac Zify.zify_post_hook ::= Z.div_mod_to_equations.

Lemma some_pair {A B} (x x' : A) (y y' : B) : Some (x, y) = Some (x', y') -> x = x' /\ y = y'.
Proof. by intros [= -> ->]. Qed.

Definition mf_kind (f : mfile) : kind := match mf_special f with Some y => sp_kind y | None => KPlain end.
Definition abs_file (f : mfile) : afile :=
  mk_afile (mf_name f) (mf_attr f) (length (mf_chain f)) (mf_data f) (mf_kind f).
Definition abs_slot (o : option mfile) : option afile := match o with Some f => Some (abs_file f) | None => None end.
Definition abs_slots (m : mdisk) : list (option afile) := map abs_slot (md_slots m).

Definition abs_border (t : disk_type) (m : mdisk) : border_place :=
  match border m with
  | [] => NoBorder
  | l :: _ => if fst l =? dir_track t then BorderInDirectory else BorderInFiles
  end.

Lemma border_cases m : border m = [] \/ exists l, border m = [l].
Proof. unfold border. destruct (h_geos _) as [gh|]; [right; by exists (gh_border gh)|by left]. Qed.
Lemma border_room_eq t m : border_room (abs_border t m) = border_slots m.
Proof. unfold abs_border, border_slots. destruct (border_cases m) as [->|[l ->]]; [done|]. by destruct (_ =? _). Qed.
Lemma border_block_eq t m : border_block (abs_border t m) = length (border_off t m).
Proof.
  unfold abs_border, border_off. destruct (border_cases m) as [->|[l ->]]; [done|]. cbn.
  by destruct (fst l =? dir_track t).
Qed.
Lemma border_sector_eq t m : border_sector (abs_border t m) = length (border_on t m).
Proof.
  unfold abs_border, border_on. destruct (border_cases m) as [->|[l ->]]; [done|]. cbn.
  by destruct (fst l =? dir_track t).
Qed.
Lemma abs_border_frame t i m m' : frame i m m' -> abs_border t m' = abs_border t m.
Proof. intros (H & _). unfold abs_border, border. by rewrite H. Qed.

Definition handle_for (t : disk_type) (m : mdisk) (c : nat) (o : option nat) (x : file) : Prop :=
  match o with
  | Some i => handle_ok m c i x \/ exists f, slot_at m i = Some f /\ special_handle t m c i f x
  | None => True
  end.
Definition writer_for (m : mdisk) (c : nat) (o : option awriter) (o' : option writer) : Prop :=
  match o with
  | None => o' = None
  | Some x => exists k f, o' = Some k /\ writer_ok m c (aw_slot x) k f (aw_pend x) /\ cw_dirty k = aw_dirty x
  end.

Definition apart (ws : list (option awriter)) : Prop :=
  forall k1 k2 x1 x2, ws !! k1 = Some (Some x1) -> ws !! k2 = Some (Some x2) -> aw_slot x1 = aw_slot x2 -> k1 = k2.

Record related (t : disk_type) (a : astate) (s : session) (m : mdisk) (c : nat) (b : bam) : Prop := {
  rl_wok : wok t (s_world s) m c b [];
  rl_names : names_ok m;
  rl_sizes : sizes_ok m;
  rl_slots : as_slots a = abs_slots m;
  rl_dirs : as_dirs a = length (md_dir m);
  rl_border : as_border a = abs_border t m;
  rl_label : as_label a = h_disk_name (md_header m);
  rl_handles : Forall2 (handle_for t m c) (as_handles a) (s_handles s);
  rl_writers : Forall2 (writer_for m c) (as_writers a) (s_writers s);
  rl_apart : apart (as_writers a);
  rl_synced : as_synced a = true -> disk_bam t (w_dev (s_world s)) = Ok b
}.

(** ** Slots *)

Lemma abs_lookup m i f : slot_at m i = Some f -> abs_slots m !! i = Some (Some (abs_file f)).
Proof. intros H%slot_at_Some. unfold abs_slots. by rewrite list_lookup_fmap, H. Qed.

Lemma abs_lookup_inv m i af : abs_slots m !! i = Some (Some af) -> exists f, slot_at m i = Some f /\ af = abs_file f.
Proof.
  unfold abs_slots. rewrite list_lookup_fmap. intros H. destruct (md_slots m !! i) as [[f|]|] eqn:E; [|done..].
  injection H as <-. exists f. split; [by apply slot_at_Some|done].
Qed.

Lemma abs_set i o m : abs_slots (set_slot i o m) = <[i := abs_slot o]> (abs_slots m).
Proof. unfold abs_slots, set_slot. cbn [md_slots]. by rewrite (list_fmap_insert abs_slot). Qed.

Lemma abs_grow n m : abs_slots (grow_dir n m) = abs_slots m ++ repeat None 8.
Proof. unfold abs_slots, grow_dir. cbn [md_slots]. by rewrite map_app. Qed.

Lemma abs_length m : length (abs_slots m) = length (md_slots m).
Proof. apply map_length. Qed.

Lemma slot_where_some p os i :
  slot_where p os = Some i -> (exists o, os !! i = Some o /\ p o = true) /\ forall j o, j < i -> os !! j = Some o -> p o = false.
Proof.
  revert i. induction os as [|o os IH]; intros i; cbn [slot_where]; [done|]. destruct (p o) eqn:E.
  - intros [= <-]. split; [by exists o|]. intros; lia.
  - destruct (slot_where p os) as [k|]; [|done]. intros [= <-]. destruct (IH k eq_refl) as [H1 H2]. split; [done|].
    intros [|j] o' Hj Ho'; [by injection Ho' as <-|]. by eapply (H2 j); [lia|].
Qed.

Lemma slot_where_none p os : slot_where p os = None -> forall j o, os !! j = Some o -> p o = false.
Proof.
  induction os as [|o os IH]; cbn [slot_where]; [done|]. destruct (p o) eqn:E; [done|].
  destruct (slot_where p os); [done|]. intros _ [|j] o' Ho'; [by injection Ho' as <-|]. by apply (IH eq_refl j).
Qed.

Lemma slot_unused_some a i : slot_unused a = Some i -> as_slots a !! i = Some None /\ border_room (as_border a) <= i.
Proof.
  unfold slot_unused. destruct (slot_where _ _) as [k|] eqn:E; [|done]. intros [= <-].
  apply slot_where_some in E as [(o & Ho & Hu) _]. rewrite lookup_drop in Ho. destruct o; [done|]. split; [done|lia].
Qed.

Lemma named_some a m name i :
  as_slots a = abs_slots m -> slot_named a name = Some i -> exists f, slot_at m i = Some f /\ mf_name f = name.
Proof.
  intros Hs H. unfold slot_named in H. apply slot_where_some in H as [(o & Ho & Hp) _]. rewrite Hs in Ho.
  destruct o as [af|]; [|done]. apply abs_lookup_inv in Ho as (f & Hf & ->). exists f. split; [done|].
  cbn in Hp. by apply bool_decide_eq_true in Hp.
Qed.

Lemma named_none a m name :
  as_slots a = abs_slots m -> slot_named a name = None -> forall i f, slot_at m i = Some f -> mf_name f <> name.
Proof.
  intros Hs H i f Hf Hn. unfold slot_named in H. apply abs_lookup in Hf. rewrite <- Hs in Hf.
  pose proof (slot_where_none _ _ H i _ Hf) as Hp. cbn in Hp. by apply bool_decide_eq_false in Hp.
Qed.

Lemma unused_first t a m : as_slots a = abs_slots m -> as_border a = abs_border t m -> slot_unused a = free_slot m.
Proof.
  intros Hs Hb. unfold slot_unused, free_slot. rewrite Hs, Hb, (border_room_eq t m). f_equal. unfold abs_slots.
  change (map abs_slot) with (@fmap list _ _ _ abs_slot). rewrite <- fmap_drop. induction (drop (border_slots m) (md_slots m)) as [|[f|] os IH]; [done| |done].
  cbn [fmap list_fmap abs_slot slot_where unused first_none]. by rewrite IH.
Qed.

Lemma used_count a m : as_slots a = abs_slots m -> blocks_used a = length (files_used (md_slots m)).
Proof.
  intros Hs. unfold blocks_used. rewrite Hs. unfold abs_slots, files_used. rewrite length_concat, !map_map. f_equal.
  apply map_ext. by intros [f|].
Qed.

Lemma left_count t a m : as_slots a = abs_slots m -> as_border a = abs_border t m ->
  blocks_left t a = data_capacity t - (length (border_off t m) + length (files_used (md_slots m))).
Proof. intros Hs Hb. unfold blocks_left, blocks_taken. rewrite (used_count a m Hs), Hb, border_block_eq. by destruct t. Qed.

Lemma lines_seq k n (os : list (option afile)) : k + n <= length os ->
  lines (slice k n os) = concat (map (fun i => match os !! i with Some (Some f) => [(a_name f, a_attr f, a_blocks f)] | _ => [] end) (seq k n)).
Proof.
  unfold lines. revert k. induction n as [|n IH]; intros k Hk; [done|]. destruct (lookup_lt_is_Some_2 os k) as [o Ho]; [lia|].
  assert (slice k (S n) os = o :: slice (S k) n os) as -> by (unfold slice; by rewrite (drop_S _ o)).
  cbn [seq map concat]. rewrite Ho, (IH (S k)) by lia. by destruct o.
Qed.
Lemma lines_entries m k n : sizes_ok m -> k + n <= length (md_slots m) ->
  map entry_line (concat (map (slot_entry m) (seq k n))) = lines (slice k n (abs_slots m)).
Proof.
  intros Hz Hk. rewrite lines_seq by (by rewrite abs_length). rewrite concat_map, map_map. f_equal. apply map_ext_in. intros i Hi%in_seq. unfold slot_entry.
  destruct (slot_at m i) as [f|] eqn:E.
  - rewrite (abs_lookup _ _ _ E). cbn [map]. unfold entry_line. cbn [de_name de_attr de_size entry_at a_name a_attr a_blocks abs_file].
    by rewrite (Hz _ _ E).
  - destruct (abs_slots m !! i) as [[af|]|] eqn:E'; [|done..]. apply abs_lookup_inv in E' as (f & Hf & _). congruence.
Qed.
Lemma listing_entries t d a m :
  view t d m -> as_slots a = abs_slots m -> as_border a = abs_border t m -> sizes_ok m -> map entry_line (m_entries m) = listing a.
Proof.
  intros V Hs Hb Hz. unfold listing. rewrite Hs, Hb, (border_room_eq t m). unfold m_entries, slot_order. rewrite map_app, concat_app, map_app.
  pose proof (v_slots _ _ _ V) as Hl. rewrite secs_length in Hl. unfold border_slots in *.
  rewrite !lines_entries by (done || lia). f_equal. f_equal. unfold slice. rewrite take_ge; [done|]. rewrite drop_length, abs_length. lia.
Qed.

Lemma special_kind t d m i f y : view t d m -> slot_at m i = Some f -> mf_special f = Some y -> sp_kind y <> KPlain.
Proof.
  intros V Hi%slot_at_Some Hy E. destruct (v_files _ _ _ V i f Hi) as (_ & _ & Hc). unfold contents in Hc. rewrite Hy in Hc.
  destruct Hc as (_ & _ & Hc). destruct (Hc d (v_shape _ _ _ V) eq_refl (fun _ _ => eq_refl)) as (x & _ & _ & H). by rewrite E in H.
Qed.
Lemma plain_kind t d m i f : view t d m -> slot_at m i = Some f -> a_special (abs_file f) = false -> mf_special f = None.
Proof.
  intros V Hi H. destruct (mf_special f) as [y|] eqn:Ey; [|done]. pose proof (special_kind _ _ _ _ _ _ V Hi Ey) as Hy.
  unfold a_special, abs_file, mf_kind in H. cbn [a_kind] in H. rewrite Ey in H. by destruct (sp_kind y).
Qed.

(** ** Handles and writers that a change does not concern *)

Lemma handle_frame t d m m' c i j x :
  view t d m -> frame i m m' -> j <> i -> handle_ok m c j x -> handle_ok m' c j x.
Proof.
  intros V F Hne [(f & e & ex & H1 & H2 & H3 & H4)]. split. exists f, e, ex.
  assert (j < 8 * length (md_secs m)) as Hj.
  { rewrite <- (v_slots _ _ _ V). by eapply slot_at_lt. }
  rewrite (frame_slot_pos i m m' j F Hj). destruct F as (_ & _ & _ & Fs). rewrite Fs by done. done.
Qed.

Lemma special_frame t d m m' c i j f x :
  view t d m -> frame i m m' -> slot_at m j = Some f -> special_handle t m c j f x -> special_handle t m' c j f x.
Proof.
  intros V F Hj (y & e & H1 & H2 & H3). exists y, e.
  assert (j < 8 * length (md_secs m)) as Hlt.
  { rewrite <- (v_slots _ _ _ V). by eapply slot_at_lt. }
  by rewrite (frame_slot_pos i m m' j F Hlt).
Qed.

Lemma handle_same t d m m' c i x f f' :
  view t d m -> frame i m m' -> slot_at m i = Some f -> slot_at m' i = Some f' ->
  hd (0, 0) (mf_chain f') = hd (0, 0) (mf_chain f) -> mf_special f' = mf_special f ->
  (mf_special f <> None -> mf_chain f' = mf_chain f /\ mf_data f' = mf_data f) ->
  handle_for t m c (Some i) x -> handle_for t m' c (Some i) x.
Proof.
  intros V F Hf Hf' Hhd Hsp Hch [[(g & e & ex & H1 & H2 & H3 & H4 & H5)]|(g & Hg & Hk)].
  2: { right. exists f'. split; [done|]. rewrite Hf in Hg. injection Hg as <-.
       apply (special_frame t d m m' c i i f x V F Hf) in Hk. destruct Hk as (y & e & Ey & He1 & He2 & He3 & He4 & He5 & Hk). exists y, e. split; [congruence|].
       destruct Hch as [H1 H2]; [by rewrite Ey|]. do 5 (split; [done|]). intros d' Hd' Hc.
       rewrite H1. apply Hk; [done|]. unfold contents in *. by rewrite Hsp, H1, H2 in Hc. }
  left. split. exists f', e, ex.
  assert (i < 8 * length (md_secs m)) as Hj.
  { rewrite <- (v_slots _ _ _ V). by eapply slot_at_lt. }
  rewrite (frame_slot_pos i m m' i F Hj). rewrite Hf in H1. injection H1 as <-. rewrite Hhd, Hsp. done.
Qed.

Lemma writer_frame t d m m' c i j k f pend :
  view t d m -> frame i m m' -> j <> i -> writer_ok m c j k f pend -> writer_ok m' c j k f pend.
Proof.
  intros V F Hne H. destruct H as [H1 H2 H3 H4 H5 H6 H7 H8 H9 H10 H11].
  assert (j < 8 * length (md_secs m)) as Hj.
  { rewrite <- (v_slots _ _ _ V). by eapply slot_at_lt. }
  split; try done.
  - destruct F as (_ & _ & _ & Fs). by rewrite Fs.
  - by rewrite (frame_slot_pos i m m' j F Hj).
Qed.

Lemma handles_keep t d m m' c i hs xs :
  view t d m -> frame i m m' -> (forall x, handle_for t m c (Some i) x -> handle_for t m' c (Some i) x) ->
  Forall2 (handle_for t m c) hs xs -> Forall2 (handle_for t m' c) hs xs.
Proof.
  intros V F Hi H. eapply Forall2_impl; [exact H|]. intros [j|] x Hx; [|done].
  destruct (decide (j = i)) as [->|Hne]; [by apply Hi|]. destruct Hx as [Hx|(g & Hg & Hk)]; [left; by eapply handle_frame|].
  right. exists g. split; [destruct F as (_ & _ & _ & Fs); by rewrite Fs|]. by eapply special_frame.
Qed.

Lemma writers_keep t d m m' c i ws xs :
  view t d m -> frame i m m' ->
  (forall k f pend, writer_ok m c i k f pend -> exists f', writer_ok m' c i k f' pend) ->
  Forall2 (writer_for m c) ws xs -> Forall2 (writer_for m' c) ws xs.
Proof.
  intros V F Hi H. eapply Forall2_impl; [exact H|]. intros [x|] o Hx; [|done]. cbn in *.
  destruct Hx as (k & f & -> & Hk & Hd). destruct (decide (aw_slot x = i)) as [Heq|Hne].
  - rewrite Heq in Hk |- *. destruct (Hi _ _ _ Hk) as [f' Hf']. by exists k, f'.
  - exists k, f. split; [done|]. split; [by eapply writer_frame|done].
Qed.

(** Replacing the writer with index [k], the only one on slot [i]. *)
Lemma writers_update t d m m' c i ws xs k x x' o' :
  view t d m -> frame i m m' -> apart ws -> ws !! k = Some (Some x) -> aw_slot x = i ->
  Forall2 (writer_for m c) ws xs -> writer_for m' c x' o' ->
  Forall2 (writer_for m' c) (<[k := x']> ws) (<[k := o']> xs).
Proof.
  intros V F Ha Hk Hi H Hx'. apply Forall2_same_length_lookup. rewrite !insert_length.
  pose proof (Forall2_length _ _ _ H) as Hlen. split; [done|].
  intros j y o Hy Ho. destruct (decide (j = k)) as [->|Hne].
  - apply lookup_lt_Some in Hk as Hlt. rewrite list_lookup_insert in Hy by done. rewrite list_lookup_insert in Ho by (by rewrite <- Hlen). by injection Hy as <-; injection Ho as <-.
  - rewrite list_lookup_insert_ne in Hy by done. rewrite list_lookup_insert_ne in Ho by done. pose proof (Forall2_lookup_lr _ _ _ _ _ _ H Hy Ho) as Hyo.
    destruct y as [y|]; [|done]. cbn in *. destruct Hyo as (k' & f & -> & Hok & Hd). exists k', f. split; [done|]. split; [|done].
    eapply writer_frame; [done|done| |done]. intros Heq. apply Hne. eapply Ha; [done|done|congruence].
Qed.

Lemma apart_insert ws k x o :
  apart ws -> ws !! k = Some (Some x) -> (forall y, o = Some y -> aw_slot y = aw_slot x) -> apart (<[k := o]> ws).
Proof.
  intros Ha Hk Ho k1 k2 x1 x2 H1 H2 Heq. apply lookup_lt_Some in Hk as Hlt.
  destruct (decide (k1 = k)) as [->|Hn1]; destruct (decide (k2 = k)) as [->|Hn2]; [done|..].
  - rewrite list_lookup_insert in H1 by done. rewrite list_lookup_insert_ne in H2 by done. injection H1 as ->.
    eapply Ha; [done|done|]. by rewrite <- (Ho _ eq_refl).
  - rewrite list_lookup_insert in H2 by done. rewrite list_lookup_insert_ne in H1 by done. injection H2 as ->.
    eapply Ha; [done|done|]. by rewrite <- (Ho _ eq_refl).
  - rewrite list_lookup_insert_ne in H1 by done. rewrite list_lookup_insert_ne in H2 by done. by eapply Ha.
Qed.

Lemma writer_on_false a i k x :
  writer_on a i = false -> as_writers a !! k = Some (Some x) -> aw_slot x <> i.
Proof.
  unfold writer_on. intros H Hk Heq. assert (existsb (fun o => match o with Some x => aw_slot x =? i | None => false end) (as_writers a) = true); [|congruence].
  apply existsb_exists. exists (Some x). split; [by eapply elem_of_list_In, elem_of_list_lookup_2|]. by apply Nat.eqb_eq.
Qed.

Lemma writer_open_false a k x : writer_open a = false -> as_writers a !! k <> Some (Some x).
Proof.
  unfold writer_open. intros H Hk. assert (existsb (fun o : option awriter => match o with Some _ => true | None => false end) (as_writers a) = true); [|congruence].
  apply existsb_exists. exists (Some x). split; [by eapply elem_of_list_In, elem_of_list_lookup_2|]. done.
Qed.

(** ** One call *)

(** The image goes from one to the other keeping all other files at every sector write. *)
Definition keeps (t : disk_type) (a : astate) (o : op) (s : session) (m : mdisk) (s' : session) (m' : mdisk) : Prop :=
  exists i, moved t i (s_world s) m (s_world s') m'
    /\ forall j f, slot_at m j = Some f -> about a o <> Some j -> j <> i.

(** No file loses a sector or a byte, except one that is deleted. *)
Definition extends (f f' : mfile) : Prop :=
  (exists ls, mf_chain f' = mf_chain f ++ ls) /\ (exists x, mf_data f' = mf_data f ++ x) /\ mf_special f' = mf_special f.

Definition grows (a : astate) (o : op) (m m' : mdisk) : Prop :=
  forall i f, slot_at m i = Some f ->
    (about a o = Some i /\ exists h, o = ODelete h) \/ exists f', slot_at m' i = Some f' /\ extends f f'.

Definition step_full (t : disk_type) (a : astate) (o : op) (a' : astate) (r : answer) (s : session) (m : mdisk) : Prop :=
  exists s' m' c' b', call s o = (s', r) /\ related t a' s' m' c' b' /\ (is_format o = false -> keeps t a o s m s' m' /\ grows a o m m').

Definition step_ok (t : disk_type) (a : astate) (o : op) (a' : astate) (r : answer) (s : session) (m : mdisk) : Prop :=
  exists s' m' c' b', call s o = (s', r) /\ related t a' s' m' c' b' /\ (is_format o = false -> keeps t a o s m s' m').

Section step.
  Context (t : disk_type) (a : astate) (s : session) (m : mdisk) (c : nat) (b : bam) (R : related t a s m c b).
  Notation w := (s_world s).

  Lemma rl_view : view t (w_dev w) m.
  Proof. apply (wo_view _ _ _ _ _ _ (rl_wok _ _ _ _ _ _ R)). Qed.

  Lemma extends_refl f : extends f f.
  Proof. split; [exists []; by rewrite app_nil_r|]. split; [exists []; by rewrite app_nil_r|done]. Qed.

  Lemma grows_moved o i w' m' :
    moved t i w m w' m' ->
    (forall f, slot_at m i = Some f -> (about a o = Some i /\ exists h, o = ODelete h) \/ exists f', slot_at m' i = Some f' /\ extends f f') ->
    grows a o m m'.
  Proof.
    intros Mv H j f Hj. destruct (decide (j = i)) as [->|Hne]; [by apply H|]. right. exists f.
    destruct (mv_frame _ _ _ _ _ _ Mv) as (_ & _ & _ & Hs). rewrite Hs by done. split; [done|apply extends_refl].
  Qed.

  Lemma keeps_same o s' : w_dev (s_world s') = w_dev w -> keeps t a o s m s' m.
  Proof.
    intros Hd. exists (length (md_slots m)). split.
    - split; [|apply frame_refl|apply R]. rewrite Hd. apply evolves_refl. apply (safe_intro t _ m m); [apply rl_view|apply R|apply frame_refl].
    - intros j f Hj _. apply slot_at_lt in Hj. lia.
  Qed.

  Lemma same_full o s' : w_dev (s_world s') = w_dev w -> keeps t a o s m s' m /\ grows a o m m.
  Proof. intros Hd. split; [by apply keeps_same|]. intros j f Hj. right. exists f. split; [done|apply extends_refl]. Qed.

  (** Nothing changes. *)
  Lemma step_none o r : call s o = (s, r) -> step_full t a o a r s m.
  Proof. intros H. exists s, m, c, b. split; [done|]. split; [done|]. intros _. by apply same_full. Qed.

  Lemma file_of_some h i af :
    file_of a h = Some (i, af) ->
    exists x f, s_handles s !! h = Some x /\ handle_ok m c i x /\ slot_at m i = Some f /\ af = abs_file f.
  Proof.
    unfold file_of. destruct (as_handles a !! h) as [[j|]|] eqn:Eh; [|done..].
    destruct (as_slots a !! j) as [[g|]|] eqn:Es; [|done..]. destruct (a_special g) eqn:Eg; [done|]. intros [= -> ->].
    rewrite (rl_slots _ _ _ _ _ _ R) in Es. apply abs_lookup_inv in Es as (f & Hf & ->).
    destruct (Forall2_lookup_l _ _ _ _ _ (rl_handles _ _ _ _ _ _ R) Eh) as (x & Hx & [Hok|(f' & Hf' & Hk)]); [by exists x, f|].
    exfalso. rewrite Hf in Hf'. injection Hf' as <-. destruct Hk as (y & e & Ey & _).
    by rewrite (plain_kind _ _ _ _ _ (wo_view _ _ _ _ _ _ (rl_wok _ _ _ _ _ _ R)) Hf Eg) in Ey.
  Qed.

  (** The handle of a relative or GEOS file. *)
  Lemma special_reads h k :
    kind_of a h = Some k -> k <> KPlain -> exists x, s_handles s !! h = Some x /\ reads_as (w_dev w) x k.
  Proof.
    unfold kind_of. destruct (as_handles a !! h) as [[j|]|] eqn:Eh; [|done..].
    destruct (as_slots a !! j) as [[g|]|] eqn:Es; [|done..]. intros [= <-] Hk.
    rewrite (rl_slots _ _ _ _ _ _ R) in Es. apply abs_lookup_inv in Es as (f & Hf & ->). cbn [abs_file a_kind] in *.
    destruct (Forall2_lookup_l _ _ _ _ _ (rl_handles _ _ _ _ _ _ R) Eh) as (x & Hx & Hok). exists x. split; [done|].
    pose proof (wo_view _ _ _ _ _ _ (rl_wok _ _ _ _ _ _ R)) as V. destruct Hok as [Hok|(f' & Hf' & y & e & Ey & _ & _ & _ & _ & _ & Hr)].
    - exfalso. destruct Hok as [(g & e & ex & H1 & _ & _ & _ & _ & _ & _ & H2)]. rewrite Hf in H1. injection H1 as <-. unfold mf_kind in Hk. by rewrite H2 in Hk.
    - rewrite Hf in Hf'. injection Hf' as <-. unfold mf_kind. rewrite Ey. apply Hr; [apply (v_shape _ _ _ V)|].
      apply (v_files _ _ _ V j). by apply slot_at_Some.
  Qed.
  Lemma kind_of_plain h : file_of a h = None -> kind_of a h <> Some KPlain.
  Proof.
    unfold file_of, kind_of. destruct (as_handles a !! h) as [[j|]|]; [|done..]. destruct (as_slots a !! j) as [[g|]|]; [|done..].
    unfold a_special. destruct (a_kind g); done.
  Qed.

  Lemma writer_of k x :
    as_writers a !! k = Some (Some x) ->
    exists k' f, s_writers s !! k = Some (Some k') /\ writer_ok m c (aw_slot x) k' f (aw_pend x) /\ cw_dirty k' = aw_dirty x
      /\ slot_at m (aw_slot x) = Some f /\ as_slots a !! aw_slot x = Some (Some (abs_file f)).
  Proof.
    intros H. destruct (Forall2_lookup_l _ _ _ _ _ (rl_writers _ _ _ _ _ _ R) H) as (o & Ho & (k' & f & -> & Hok & Hd)).
    exists k', f. split; [done|]. split; [done|]. split; [done|]. pose proof (wk_slot _ _ _ _ _ _ Hok) as Hs. split; [done|].
    rewrite (rl_slots _ _ _ _ _ _ R). by apply abs_lookup.
  Qed.

  Lemma step_open name a' r : astep t a (OOpen name) = Some (a', r) -> step_full t a (OOpen name) a' r s m.
  Proof.
    cbn [astep]. destruct (slot_named a name) as [i|] eqn:E; intros [= <- <-].
    - destruct (named_some _ _ _ _ (rl_slots _ _ _ _ _ _ R) E) as (f & Hf & <-).
      assert (exists x, open_file w (mf_name f) = Ok x /\ handle_for t m c (Some i) x) as (x & Hx & Hok).
      { destruct (mf_special f) as [y|] eqn:Ey.
        - destruct (open_special t w m c b i f y (rl_wok _ _ _ _ _ _ R) (rl_names _ _ _ _ _ _ R) Hf Ey) as (x & Hx & Hat & _).
          exists x. split; [done|]. right. exists f. split; [done|]. pose proof (wo_view _ _ _ _ _ _ (rl_wok _ _ _ _ _ _ R)) as V.
          destruct (v_files _ _ _ V i f) as ((Hfo & _) & Hls & Hc); [by apply slot_at_Some|].
          apply (special_handle_open t (w_dev w) m f c i x (v_shape _ _ _ V) Hls Hc ltac:(by rewrite Ey) (eo_name _ Hfo) Hat).
        - destruct (open_view t w m c b i f (rl_wok _ _ _ _ _ _ R) (rl_names _ _ _ _ _ _ R) Hf Ey) as (x & Hx & Hok).
          exists x. split; [done|]. by left. }
      eexists _, m, c, b. cbn [call]. rewrite Hx. split; [|split].
      + rewrite (Forall2_length _ _ _ (rl_handles _ _ _ _ _ _ R)). reflexivity.
      + destruct R. split; try done. cbn [set_handles as_handles s_handles]. apply Forall2_app; [done|]. apply List.Forall2_cons; [done|apply List.Forall2_nil].
      + intros _. by apply same_full.
    - apply step_none. cbn [call]. unfold open_file.
      rewrite (find_none t w m c b name (rl_wok _ _ _ _ _ _ R) (named_none _ _ _ (rl_slots _ _ _ _ _ _ R) E)). done.
  Qed.

  Lemma step_writer h a' r : astep t a (OWriter h) = Some (a', r) -> step_full t a (OWriter h) a' r s m.
  Proof.
    cbn [astep]. destruct (file_of a h) as [[i af]|] eqn:E.
    2: { destruct (kind_of a h) as [[|td rs|data]|] eqn:Ek; intros H; [done| | |done]; apply some_pair in H as [<- <-]; apply step_none; cbn [call].
         - destruct (special_reads _ _ Ek) as (x & -> & _ & _ & _ & -> & _); done.
         - destruct (special_reads _ _ Ek) as (x & -> & _ & _ & _ & ->); done. }
    destruct (writer_on a i) eqn:Ew; [done|].
    intros [= <- <-]. destruct (file_of_some _ _ _ E) as (x & f & Hx & Hok & Hf & _).
    destruct (writer_view t w m c b i x f (rl_wok _ _ _ _ _ _ R) Hok Hf) as (k & Hk & Hw & Hd).
    eexists _, m, c, b. cbn [call]. rewrite Hx, Hk. split; [|split].
    - rewrite (Forall2_length _ _ _ (rl_writers _ _ _ _ _ _ R)). reflexivity.
    - pose proof (rl_apart _ _ _ _ _ _ R) as Ha.
      pose proof (writer_on_false a i) as Hno. destruct R. split; try done; cbn [set_writers as_writers s_writers].
      + apply Forall2_app; [done|]. apply List.Forall2_cons; [|apply List.Forall2_nil]. exists k, f. done.
      + intros k1 k2 x1 x2 H1 H2 Heq.
        assert (forall k x, (as_writers a ++ [Some (mk_awriter i [] true)]) !! k = Some (Some x) ->
            as_writers a !! k = Some (Some x) \/ (k = length (as_writers a) /\ x = mk_awriter i [] true)) as Hcase.
        { intros k0 x0 H. apply lookup_app_Some in H as [H|[Hge H]]; [by left|]. right.
          apply list_lookup_singleton_Some in H as [H0 [= <-]]. split; [lia|done]. }
        apply Hcase in H1 as [H1|[-> ->]]; apply Hcase in H2 as [H2|[-> ->]]; [by eapply Ha| | |done].
        * by destruct (Hno k1 x1 Ew H1).
        * symmetry in Heq. by destruct (Hno k2 x2 Ew H2).
    - intros _. by apply same_full.
  Qed.

  Lemma step_read h ns a' r : astep t a (ORead h ns) = Some (a', r) -> step_full t a (ORead h ns) a' r s m.
  Proof.
    cbn [astep]. destruct (file_of a h) as [[i af]|] eqn:E.
    2: { destruct (kind_of a h) as [[|td rs|data]|] eqn:Ek; intros H; [done| | |done]; apply some_pair in H as [<- <-]; apply step_none; cbn [call].
         - destruct (special_reads _ _ Ek) as (x & -> & _ & _ & Hr & _); [done|]. unfold read_through in Hr. by rewrite Hr.
         - destruct (special_reads _ _ Ek) as (x & -> & _ & _ & Hr & _); [done|]. unfold read_through in Hr. by rewrite Hr. }
    intros [= <- <-].
    destruct (file_of_some _ _ _ E) as (x & f & Hx & Hok & Hf & ->). apply step_none. cbn [call]. rewrite Hx.
    destruct Hok as [(g & e & ex & H1 & -> & H3 & H4 & _ & _ & _ & Hk)]. rewrite Hf in H1. injection H1 as <-.
    cbn [file_reader rbind]. rewrite H4. pose proof rl_view as V. apply slot_at_Some in Hf.
    pose proof (view_file_sound t _ m V i f Hf Hk) as Hs.
    destruct (reads_sound t _ _ _ ns (v_shape _ _ _ V) Hs) as [Hr Ha]. rewrite Hr.
    rewrite (view_file_read t _ m V i f Hf Hk) in Ha. apply Ok_inj in Ha. rewrite <- Ha. cbn [abs_file a_data].
    assert (forall l, all_reads (map Ok l) = Ok l) as ->; [|done].
    induction l as [|y l IH]; [done|]. cbn [map all_reads rbind]. by rewrite IH.
  Qed.

  Lemma step_record h i a' r : astep t a (ORecord h i) = Some (a', r) -> step_full t a (ORecord h i) a' r s m.
  Proof.
    cbn [astep]. destruct (file_of a h) as [[j af]|] eqn:E.
    2: { destruct (kind_of a h) as [[|td rs|data]|] eqn:Ek; intros H; [done| | |done]; apply some_pair in H as [<- <-]; apply step_none; cbn [call].
         - destruct (special_reads _ _ Ek) as (x & -> & _ & Hr & _); [done|]. rewrite Hr. by destruct (rs !! i).
         - destruct (special_reads _ _ Ek) as (x & -> & _ & Hr & _); [done|]. by rewrite Hr. }
    intros [= <- <-].
    destruct (file_of_some _ _ _ E) as (x & f & Hx & Hok & Hf & ->). apply step_none. cbn [call]. rewrite Hx.
    destruct (i =? 0) eqn:Ei.
    - apply Nat.eqb_eq in Ei. subst i. by rewrite (handle_read t w m c b j x f (rl_wok _ _ _ _ _ _ R) Hok Hf).
    - destruct Hok as [(g & e & ex & H1 & -> & H3)]. cbn [file_record]. by rewrite Ei.
  Qed.

  Lemma step_list a' r : astep t a OList = Some (a', r) -> step_full t a OList a' r s m.
  Proof.
    cbn [astep]. intros [= <- <-]. apply step_none. cbn [call]. unfold w_directory.
    rewrite (iter_view t (w_dev w) m rl_view) by (done || apply R). cbn [all_or_error fst snd rbind answer_of].
    by rewrite (listing_entries t _ a m rl_view (rl_slots _ _ _ _ _ _ R) (rl_border _ _ _ _ _ _ R) (rl_sizes _ _ _ _ _ _ R)).
  Qed.

  Lemma step_free a' r : astep t a OFree = Some (a', r) -> step_full t a OFree a' r s m.
  Proof.
    cbn [astep]. intros [= <- <-]. apply step_none. cbn [call]. unfold w_blocks_free, w_get_bam, cell.
    rewrite (wo_bam _ _ _ _ _ _ (rl_wok _ _ _ _ _ _ R)). cbn [rbind]. rewrite (wo_cell _ _ _ _ _ _ (rl_wok _ _ _ _ _ _ R)).
    cbn [rbind]. rewrite (free_count t (w_dev w) m rl_view b (wo_alloc _ _ _ _ _ _ (rl_wok _ _ _ _ _ _ R))). cbn [answer_of].
    by rewrite (left_count t a m (rl_slots _ _ _ _ _ _ R) (rl_border _ _ _ _ _ _ R)).
  Qed.

  Lemma step_name a' r : astep t a OName = Some (a', r) -> step_full t a OName a' r s m.
  Proof.
    cbn [astep]. intros [= <- <-]. apply step_none. cbn [call]. unfold w_name, w_get_header.
    rewrite (wo_header _ _ _ _ _ _ (rl_wok _ _ _ _ _ _ R)). by rewrite (rl_label _ _ _ _ _ _ R).
  Qed.

  Lemma step_validate a' r : astep t a OValidate = Some (a', r) -> step_full t a OValidate a' r s m.
  Proof.
    cbn [astep]. intros [= <- <-]. apply step_none. cbn [call]. by rewrite (validate_view t w m c b (rl_wok _ _ _ _ _ _ R)).
  Qed.

  Lemma storable name ft :
    storable_name name && storable_type ft = true ->
    last name <> Some PADDING_BYTE /\ type_ok ft /\ ft <> REL.
  Proof.
    intros [H1 H2]%andb_prop. unfold storable_name in H1. apply negb_true_iff, bool_decide_eq_false in H1. split; [done|].
    unfold type_ok. destruct ft; try done. cbn [storable_type] in H2. apply andb_prop in H2 as [H2%Nat.leb_le H3%Nat.ltb_lt]. done.
  Qed.

  Lemma step_create name ft a' r : astep t a (OCreate name ft) = Some (a', r) -> step_full t a (OCreate name ft) a' r s m.
  Proof.
    pose proof (rl_wok _ _ _ _ _ _ R) as W. pose proof (rl_names _ _ _ _ _ _ R) as Hn. pose proof (rl_slots _ _ _ _ _ _ R) as Hs.
    pose proof rl_view as V. pose proof (left_count t a m Hs (rl_border _ _ _ _ _ _ R)) as Hleft. pose proof (files_fit t _ m V) as Hfit.
    cbn [astep]. destruct (16 <? length name) eqn:El.
    { intros [= <- <-]. apply step_none. cbn [call]. apply Nat.ltb_lt in El. rewrite (create_too_long w name ft El). cbn. by destruct s. }
    apply Nat.ltb_ge in El. destruct (slot_named a name) as [i|] eqn:E.
    { intros [= <- <-]. destruct (named_some _ _ _ _ Hs E) as (f & Hf & <-). apply step_none. cbn [call].
      rewrite (create_taken t w m c b i f ft W Hn Hf). cbn. by destruct s. }
    pose proof (named_none _ _ _ Hs E) as Hfresh.
    destruct (storable_name name && storable_type ft) eqn:Est; [|done]. cbn [negb].
    destruct (storable _ _ Est) as (Hlast & Htype & Hrel). rewrite (unused_first t a m Hs (rl_border _ _ _ _ _ _ R)).
    (* the three outcomes *)
    destruct (create_view t w m c b name ft W Hn (rl_sizes _ _ _ _ _ _ R) Htype Hrel El Hlast Hfresh)
      as [(i & n & m1 & w' & b' & x & Hc & W' & Hx & H1 & H2 & H3 & H4 & Hmv & Hz & Hdb & Hcase)
         |[(m1 & w' & b' & Hc & Hfull & W' & Hmv & Hz & Hdb & Hcase)|(Hno & Hcap & Hc)]].
    - (* created *)
      assert (blocks_left t a <> 0) as Hleft0.
      { rewrite Hleft. intros H0. assert (length (border_off t m) + length (files_used (md_slots m)) = data_capacity t) as Hfull by lia.
        pose proof (proj2 (full_iff t _ m V) Hfull) as Hfull2. destruct (Hfull2 n H3) as [?|?%not_elem_of_nil]; done. }
      rewrite (proj2 (Nat.eqb_neq _ _) Hleft0).
      assert (frame i m (set_slot i (Some (new_file name ft n)) m1)) as F by apply Hmv.
      assert (slot_at m i = None) as Hempty.
      { destruct Hcase as [[H5 ->]|(H5 & _ & -> & _)]; [done|].
        destruct (slot_at m (length (md_slots m))) eqn:Ex; [|done]. apply slot_at_lt in Ex. lia. }
      set (m' := set_slot i (Some (new_file name ft n)) m1) in *.
      assert (exists a0, as_slots a0 = abs_slots m1 /\ as_dirs a0 = length (md_dir m1) /\ as_border a0 = as_border a /\ as_label a0 = as_label a
          /\ as_handles a0 = as_handles a /\ as_writers a0 = as_writers a
          /\ match free_slot m with
             | Some i => Some (add i name ft a, AIndex (length (as_handles a)))
             | None => if border_sector (as_border a) + as_dirs a <? dir_limit t
                       then Some (add (length (as_slots a)) name ft (grow a), AIndex (length (as_handles a)))
                       else Some (a, AError EDiskFull)
             end = Some (add i name ft a0, AIndex (length (as_handles a)))) as (a0 & A1 & A2 & Ab & A3 & A4 & A5 & ->).
      { destruct Hcase as [[H5 ->]|(H5 & H6 & -> & k & ->)].
        - exists a. rewrite H5. repeat split; [done|apply R].
        - exists (grow a). rewrite H5. assert (border_sector (as_border a) + as_dirs a <? dir_limit t = true) as ->.
          { apply Nat.ltb_lt. rewrite (rl_dirs _ _ _ _ _ _ R), (rl_border _ _ _ _ _ _ R), border_sector_eq. by destruct t. }
          cbn [grow as_slots as_dirs as_border as_label as_handles as_writers]. rewrite abs_grow, Hs, abs_length, (rl_dirs _ _ _ _ _ _ R).
          repeat split. cbn [grow_dir md_dir]. rewrite app_length. cbn. lia. }
      intros [= <- <-]. eexists _, m', c, b'. cbn [call]. rewrite Hc. split; [|split].
      + rewrite (Forall2_length _ _ _ (rl_handles _ _ _ _ _ _ R)). reflexivity.
      + destruct R. split; cbn [s_world s_handles s_writers add set_synced set_handles put set_slots as_slots as_dirs as_border as_label as_handles as_writers as_synced]; try done.
        * apply Hmv.
        * rewrite A1. unfold m'. by rewrite (abs_set i).
        * rewrite Ab, (abs_border_frame t _ _ _ F). done.
        * rewrite A3. destruct F as (-> & _). done.
        * rewrite A4. apply Forall2_app; [|apply List.Forall2_cons; [by left|apply List.Forall2_nil]].
          eapply handles_keep; [exact V|exact F| |done]. intros y [[(f & e & ex & Hy & _)]|(f & Hy & _)]; congruence.
        * rewrite A5. eapply writers_keep; [exact V|exact F| |done]. intros k f pend Hk. apply wk_slot in Hk. congruence.
        * by rewrite A5.
      + intros _. split; [exists i; split; [exact Hmv|]; intros j f Hj _ ->; congruence|].
        apply (grows_moved _ i _ _ Hmv). intros f Hj. congruence.
    - (* no block *)
      assert (blocks_left t a = 0) as -> by (rewrite Hleft; lia). cbn [Nat.eqb].
      assert (exists a0, as_slots a0 = abs_slots m1 /\ as_dirs a0 = length (md_dir m1) /\ as_border a0 = as_border a /\ as_label a0 = as_label a
          /\ as_handles a0 = as_handles a /\ as_writers a0 = as_writers a
          /\ (as_synced a0 = true -> b' = b /\ as_synced a = true)
          /\ match free_slot m with
             | Some i => Some (a, AError EDiskFull)
             | None => if border_sector (as_border a) + as_dirs a <? dir_limit t then Some (grow a, AError EDiskFull) else Some (a, AError EDiskFull)
             end = Some (a0, AError EDiskFull)) as (a0 & A1 & A2 & Ab & A3 & A4 & A5 & A6 & ->).
      { destruct Hcase as [(H5 & -> & -> & ->)|(H5 & H6 & k & ->)].
        - exists a. destruct (free_slot m); [|done]. repeat split; [done|apply R|done].
        - exists (grow a). rewrite H5. assert (border_sector (as_border a) + as_dirs a <? dir_limit t = true) as ->.
          { apply Nat.ltb_lt. rewrite (rl_dirs _ _ _ _ _ _ R), (rl_border _ _ _ _ _ _ R), border_sector_eq. by destruct t. }
          cbn [grow as_slots as_dirs as_border as_label as_handles as_writers as_synced]. rewrite abs_grow, Hs, (rl_dirs _ _ _ _ _ _ R).
          repeat split; try done. cbn [grow_dir md_dir]. rewrite app_length. cbn. lia. }
      intros [= <- <-]. exists (set_world w' s), m1, c, b'. cbn [call]. rewrite Hc. split; [done|].
      assert (frame (length (md_slots m)) m m1) as F by apply (Hmv (length (md_slots m))).
      assert (slot_at m (length (md_slots m)) = None) as Hempty.
      { destruct (slot_at m (length (md_slots m))) eqn:Ex; [|done]. apply slot_at_lt in Ex. lia. }
      split.
      + destruct R. split; cbn [set_world s_world s_handles s_writers]; try done.
        * apply (Hmv 0).
        * rewrite Ab, (abs_border_frame t _ _ _ F). done.
        * rewrite A3. destruct F as (-> & _). done.
        * rewrite A4. eapply handles_keep; [exact V|exact F| |done]. intros y [[(f & e & ex & Hy & _)]|(f & Hy & _)]; congruence.
        * rewrite A5. eapply writers_keep; [exact V|exact F| |done]. intros k f pend Hk. apply wk_slot in Hk. congruence.
        * by rewrite A5.
        * intros Hsy. destruct (A6 Hsy) as [-> ?]. rewrite Hdb. auto.
      + intros _. split; [exists (length (md_slots m)); split; [apply Hmv|]; intros j f Hj _ ->; congruence|].
        apply (grows_moved _ _ _ _ (Hmv (length (md_slots m)))). intros f Hj. congruence.
    - (* no slot *)
      rewrite Hno. assert (border_sector (as_border a) + as_dirs a <? dir_limit t = false) as ->.
      { apply Nat.ltb_ge. rewrite (rl_dirs _ _ _ _ _ _ R), (rl_border _ _ _ _ _ _ R), border_sector_eq, Hcap. by destruct t. }
      intros [= <- <-]. apply step_none. cbn [call]. rewrite Hc. cbn. by destruct s.
  Qed.

  (** A change of one file that keeps its first block. *)
  Lemma related_set a' w' xs i f f' b' :
    slot_at m i = Some f -> wok t w' (set_slot i (Some f') m) c b' [] -> moved t i w m w' (set_slot i (Some f') m) ->
    sizes_ok (set_slot i (Some f') m) -> hd (0, 0) (mf_chain f') = hd (0, 0) (mf_chain f) -> mf_special f' = mf_special f ->
    (mf_special f <> None -> mf_chain f' = mf_chain f /\ mf_data f' = mf_data f) ->
    as_slots a' = <[i := Some (abs_file f')]> (as_slots a) -> as_dirs a' = as_dirs a -> as_border a' = as_border a -> as_label a' = as_label a ->
    as_handles a' = as_handles a ->
    Forall2 (writer_for (set_slot i (Some f') m) c) (as_writers a') xs -> apart (as_writers a') ->
    (as_synced a' = true -> disk_bam t (w_dev w') = Ok b') ->
    related t a' (mk_session w' (s_handles s) xs) (set_slot i (Some f') m) c b'.
  Proof.
    intros Hf W' Hmv Hz Hhd Hsp Hch A1 A2 Ab A3 A4 A5 A6 A7. pose proof rl_view as V. destruct R.
    split; cbn [s_world s_handles s_writers]; try done.
    - apply Hmv.
    - rewrite A1, rl_slots0. by rewrite (abs_set i).
    - by rewrite A2.
    - by rewrite Ab.
    - by rewrite A3.
    - rewrite A4. eapply handles_keep; [exact V|apply Hmv| |done]. intros x Hx.
      eapply handle_same; [exact V|apply Hmv|exact Hf| |done|done|done|done]. apply slot_at_set. by eapply slot_at_lt.
  Qed.

  Lemma keeps_about o s' m' i : about a o = Some i -> moved t i w m (s_world s') m' -> keeps t a o s m s' m'.
  Proof. intros Ha Hm. exists i. split; [done|]. intros j f _ Hne ->. congruence. Qed.

  Lemma about_full o s' i f f' :
    about a o = Some i -> moved t i w m (s_world s') (set_slot i (Some f') m) -> slot_at m i = Some f -> extends f f' ->
    keeps t a o s m s' (set_slot i (Some f') m) /\ grows a o m (set_slot i (Some f') m).
  Proof.
    intros Ha Hm Hf He. split; [by apply (keeps_about _ _ _ i)|]. apply (grows_moved _ _ _ _ Hm). intros g Hg. right. exists f'.
    rewrite Hf in Hg. injection Hg as <-. split; [|done]. apply slot_at_set. by eapply slot_at_lt.
  Qed.

  Lemma deleted_full h s' i m' : about a (ODelete h) = Some i -> moved t i w m (s_world s') m' ->
    keeps t a (ODelete h) s m s' m' /\ grows a (ODelete h) m m'.
  Proof.
    intros Ha Hm. split; [by apply (keeps_about _ _ _ i)|]. apply (grows_moved _ _ _ _ Hm). intros g _. left. split; [done|by exists h].
  Qed.

  Lemma writer_slot_holds i f k pend : writer_ok m c i k f pend -> 1 <= length (mf_chain f).
  Proof. intros Hk. apply (view_slot_holds t (w_dev w) m i f rl_view (wk_slot _ _ _ _ _ _ Hk) (wk_plain _ _ _ _ _ _ Hk)). Qed.

  Lemma step_write k buf a' r : astep t a (OWrite k buf) = Some (a', r) -> step_full t a (OWrite k buf) a' r s m.
  Proof.
    pose proof (rl_wok _ _ _ _ _ _ R) as W. pose proof (rl_names _ _ _ _ _ _ R) as Hn. pose proof (rl_slots _ _ _ _ _ _ R) as Hs.
    pose proof rl_view as V.
    cbn [astep]. destruct (as_writers a !! k) as [[x|]|] eqn:Ek; [|done..].
    destruct (writer_of k x Ek) as (k0 & f & Hk0 & Hok & Hd & Hf & Hslot). rewrite Hslot.
    destruct (write_view t buf w m c b (aw_slot x) k0 f (aw_pend x) W Hn (rl_sizes _ _ _ _ _ _ R) Hok)
      as (w' & k' & b' & f' & pend' & r0 & Hw & W' & Hmv & Hz & Hok' & Hd' & Hdb & Hb & Hwr).
    pose proof (writer_slot_holds _ _ _ _ Hok) as Hone.
    pose proof (left_count t a m Hs (rl_border _ _ _ _ _ _ R)) as Hleft.
    pose proof (wk_len _ _ _ _ _ _ Hok') as Hlen'.
    destruct Hwr as [Wa Wn We Wsp Wz [ls Wc] Wr].
    assert (write_to (blocks_left t a) (abs_file f) (aw_pend x) buf
      = (abs_file f', pend', answer_of (match r0 with Ok _ => Ok (length buf) | Err e => Err e | Panic => Panic | NoFuel => NoFuel end) ACount)) as ->.
    { unfold write_to. cbn [a_data a_blocks a_name a_attr a_kind abs_file]. rewrite Hleft.
      destruct Wr as [(H1 & -> & H3 & H4 & H5)|(H1 & -> & H3 & H4 & ->)].
      - rewrite (proj2 (Nat.leb_le _ _) H1). rewrite H3 in Hlen'.
        assert (blocks_for (length (mf_chain f)) (length (mf_data f ++ aw_pend x ++ buf)) = length (mf_chain f')) as ->.
        { unfold blocks_for. assert (length (mf_chain f) <= length (mf_chain f')) as Hle by (rewrite Wc, app_length; lia).
          set (F := length (mf_data f ++ aw_pend x ++ buf)) in *. clearbody F. clear -H4 Hlen' Hone Hle. lia. }
        rewrite <- H5. unfold abs_file, mf_kind. rewrite Wn, Wa, Wsp. cbn [answer_of]. f_equal. f_equal.
        rewrite <- H3. by rewrite drop_app.
      - rewrite (proj2 (Nat.leb_gt _ _) H1). unfold abs_file, mf_kind. rewrite Wn, Wa, Wsp, <- H3, <- H4. done. }
    assert (exists y, mf_data f' = mf_data f ++ y) as Hgrow.
    { assert (length (mf_chain f) <= length (mf_chain f')) as Hle by (rewrite Wc, app_length; lia).
      pose proof (wk_len _ _ _ _ _ _ Hok) as Hlen.
      rewrite app_length in Hlen.
      destruct Wr as [(_ & _ & _ & _ & H5)|(_ & _ & _ & H4 & _)].
      - destruct (Nat.eqb_spec (length (mf_chain f')) (length (mf_chain f))) as [_|Hne] in H5; [exists []; by rewrite app_nil_r|].
        exists (take (254 * (length (mf_chain f') - 1) - length (mf_data f)) (aw_pend x ++ buf)).
        rewrite H5. apply take_app_ge. lia.
      - exists (take (254 * length (mf_chain f') - length (mf_data f)) (aw_pend x ++ buf)). rewrite H4. apply take_app_ge. lia. }
    cbv beta iota zeta. intros [<- <-]%some_pair.
    eexists _, (set_slot (aw_slot x) (Some f') m), c, b'. cbn [call]. rewrite Hk0, Hw. split; [reflexivity|].
    assert (writer_for (set_slot (aw_slot x) (Some f') m) c (Some (mk_awriter (aw_slot x) pend' true)) (Some k')) as Hwf.
    { exists k', f'. done. }
    split.
    - set (a1 := put (aw_slot x) (Some (abs_file f')) (set_writers (<[k := Some (mk_awriter (aw_slot x) pend' true)]> (as_writers a)) a)).
      assert (exists sy, (if a_blocks (abs_file f') =? a_blocks (abs_file f) then a1 else set_synced false a1) = set_synced sy a1
         /\ (sy = true -> as_synced a = true /\ b' = b)) as (sy & -> & Hsy).
      { destruct (a_blocks (abs_file f') =? a_blocks (abs_file f)) eqn:Eb.
        - exists (as_synced a). split; [by destruct a|]. intros ->. split; [done|]. apply Hb.
          apply Nat.eqb_eq in Eb. cbn [a_blocks abs_file] in Eb. rewrite Wc, app_length in Eb. destruct ls; [by rewrite Wc, app_nil_r|cbn in Eb; lia].
        - by exists false. }
      apply (related_set _ _ _ (aw_slot x) f f'); try done.
      + rewrite Wc. apply hd_app_nonempty. destruct (mf_chain f); [cbn in Hone; lia|done].
      + by rewrite (wk_plain _ _ _ _ _ _ Hok).
      + cbn [set_synced a1 put set_slots set_writers as_writers].
        eapply writers_update; [exact V|apply Hmv|apply R|exact Ek|done|apply R|exact Hwf].
      + cbn [set_synced a1 put set_slots set_writers as_writers]. eapply apart_insert; [apply R|exact Ek|]. by intros y [= <-].
      + cbn [set_synced as_synced]. intros H. destruct (Hsy H) as [H1 ->]. rewrite Hdb. by apply R.
    - intros _. apply (about_full _ _ (aw_slot x) f f'); [cbn [about]; by rewrite Ek|done|done|].
      split; [by exists ls|]. split; [|done]. exact Hgrow.
  Qed.

  (** Flushing, explicitly or when the writer is dropped. *)
  Lemma settle_view k x o' (keep : bool) :
    as_writers a !! k = Some (Some x) ->
    o' = (if keep then Some (mk_awriter (aw_slot x) [] false) else None) ->
    exists w' k0 k' m' b', s_writers s !! k = Some (Some k0) /\ writer_flush (w, k0) = ((w', k'), Ok tt)
      /\ related t (settle x (set_writers (<[k := o']> (as_writers a)) a))
           (mk_session w' (s_handles s) (<[k := (if keep then Some k' else None)]> (s_writers s))) m' c b'
      /\ (forall o, about a o = Some (aw_slot x) ->
            keeps t a o s m (mk_session w' (s_handles s) (<[k := (if keep then Some k' else None)]> (s_writers s))) m' /\ grows a o m m').
  Proof.
    intros Ek ->. pose proof (rl_wok _ _ _ _ _ _ R) as W. pose proof (rl_names _ _ _ _ _ _ R) as Hn. pose proof rl_view as V.
    destruct (writer_of k x Ek) as (k0 & f & Hk0 & Hok & Hd & Hf & Hslot).
    destruct (flush_view t w m c b (aw_slot x) k0 f (aw_pend x) W Hn Hok)
      as (w' & k' & Hfl & W' & Hmv & Hok' & Hd' & Hcase).
    set (m' := set_slot (aw_slot x) (Some (settled f (aw_pend x))) m) in *.
    exists w', k0, k', m', b. split; [done|]. split; [done|].
    assert (Forall2 (writer_for m' c) (<[k := if keep then Some (mk_awriter (aw_slot x) [] false) else None]> (as_writers a))
              (<[k := if keep then Some k' else None]> (s_writers s))) as Hws.
    { eapply writers_update; [exact V|apply Hmv|apply R|exact Ek|done|apply R|]. destruct keep; [|done].
      exists k', (settled f (aw_pend x)). done. }
    assert (apart (<[k := if keep then Some (mk_awriter (aw_slot x) [] false) else None]> (as_writers a))) as Hap.
    { eapply apart_insert; [apply R|exact Ek|]. intros y Hy. destruct keep; [|done]. by injection Hy as <-. }
    assert (sizes_ok m') as Hz.
    { apply sizes_ok_set; [apply R| |by eapply slot_at_lt]. apply (rl_sizes _ _ _ _ _ _ R _ _ Hf). }
    split.
    2: { intros o Ho. apply (about_full _ _ (aw_slot x) f); [done|done|by apply (wk_slot _ _ _ _ _ _ Hok)|].
         split; [exists []; by rewrite app_nil_r|]. split; [by exists (aw_pend x)|done]. }
    unfold settle. rewrite <- Hd. destruct (cw_dirty k0) eqn:Edk.
    - cbn [set_writers as_slots]. rewrite Hslot.
      apply (related_set _ _ _ (aw_slot x) f (settled f (aw_pend x))); try done.
      by rewrite (wk_plain _ _ _ _ _ _ Hok).
    - destruct Hcase as [-> ->]. apply (related_set _ _ _ (aw_slot x) f (settled f (aw_pend x))); try done.
      + by rewrite (wk_plain _ _ _ _ _ _ Hok).
      + cbn [set_writers as_slots]. unfold abs_file, settled, set_chain. cbn [mf_name mf_attr mf_chain mf_data].
        rewrite (wk_dirty _ _ _ _ _ _ Hok Edk), app_nil_r. rewrite list_insert_id by (exact Hslot). done.
      + cbn [set_writers as_synced]. apply R.
  Qed.

  Lemma step_flush k a' r : astep t a (OFlush k) = Some (a', r) -> step_full t a (OFlush k) a' r s m.
  Proof.
    cbn [astep]. destruct (as_writers a !! k) as [[x|]|] eqn:Ek; [|done..]. intros [= <- <-].
    destruct (settle_view k x _ true Ek eq_refl) as (w' & k0 & k' & m' & b' & Hk0 & Hfl & R' & Hmv).
    eexists _, m', c, b'. cbn [call]. rewrite Hk0, Hfl. split; [reflexivity|]. split; [exact R'|].
    intros _. apply Hmv. cbn [about]. by rewrite Ek.
  Qed.

  Lemma step_close k a' r : astep t a (OClose k) = Some (a', r) -> step_full t a (OClose k) a' r s m.
  Proof.
    cbn [astep]. destruct (as_writers a !! k) as [[x|]|] eqn:Ek; [|done..]. intros [= <- <-].
    destruct (settle_view k x _ false Ek eq_refl) as (w' & k0 & k' & m' & b' & Hk0 & Hfl & R' & Hmv).
    eexists _, m', c, b'. cbn [call]. unfold writer_drop. rewrite Hk0, Hfl. split; [reflexivity|]. split; [exact R'|].
    intros _. apply Hmv. cbn [about]. by rewrite Ek.
  Qed.

(** The slot of a deleted file is unused; handles on it are stale. *)
  Lemma slot_gone i f w' b' y :
    slot_at m i = Some f -> writer_on a i = false ->
    wok t w' (set_slot i None m) c b' [] -> moved t i w m w' (set_slot i None m) ->
    (y = true -> disk_bam t (w_dev w') = Ok b') ->
    related t (set_synced y (set_handles (map (stale i) (as_handles a)) (put i None a))) (set_world w' s) (set_slot i None m) c b'.
  Proof.
    intros Hf Ew W' Hmv Hdb. pose proof rl_view as V. pose proof (writer_on_false a i) as Hno. destruct R.
    split; cbn [set_world s_world s_handles s_writers set_synced set_handles put set_slots as_slots as_dirs as_border as_label as_handles as_writers as_synced]; try done.
    + apply Hmv.
    + intros j g Hj. destruct (decide (j = i)) as [->|Hne].
      * rewrite slot_at_set in Hj by (by eapply slot_at_lt). done.
      * rewrite slot_at_set_ne in Hj by done. by eapply rl_sizes0.
    + by rewrite rl_slots0, (abs_set i).
    + rewrite <- (map_id (s_handles s)). apply Forall2_fmap_2. eapply Forall2_impl; [exact rl_handles0|].
      intros [j|] x Hx; [|done]. cbn [id stale]. destruct (j =? i) eqn:Ej; [done|]. apply Nat.eqb_neq in Ej.
      destruct Hx as [Hx|(g & Hg & Hk)]; [left; by eapply handle_frame; [exact V|apply Hmv| |]|].
      right. exists g. split; [by rewrite slot_at_set_ne|]. eapply special_frame; [exact V|apply Hmv|done|done].
    + apply Forall2_same_length_lookup. split; [by eapply Forall2_length|].
      intros j x o Hx Ho. pose proof (Forall2_lookup_lr _ _ _ _ _ _ rl_writers0 Hx Ho) as Hyo.
      destruct x as [x|]; [|done]. cbn in *. destruct Hyo as (k' & g & -> & Hgk & Hgd). exists k', g. split; [done|]. split; [|done].
      eapply writer_frame; [exact V|apply Hmv| |done]. by eapply Hno.
  Qed.

  (** The handle of a file, and its slot. *)
  Lemma held_some h i af :
    held a h = Some (i, af) ->
    exists x f, s_handles s !! h = Some x /\ slot_at m i = Some f /\ af = abs_file f
      /\ ((handle_ok m c i x /\ a_special af = false)
         \/ exists y, special_handle t m c i f x /\ mf_special f = Some y /\ a_kind af = sp_kind y /\ a_special af = true).
  Proof.
    unfold held. destruct (as_handles a !! h) as [[j|]|] eqn:Eh; [|done..].
    destruct (as_slots a !! j) as [[g|]|] eqn:Es; [|done..]. intros [= -> ->].
    rewrite (rl_slots _ _ _ _ _ _ R) in Es. apply abs_lookup_inv in Es as (f & Hf & ->).
    destruct (Forall2_lookup_l _ _ _ _ _ (rl_handles _ _ _ _ _ _ R) Eh) as (x & Hx & Hok).
    exists x, f. split; [done|]. split; [done|]. split; [done|]. destruct Hok as [Hok|(f' & Hf' & Hk)].
    - left. split; [done|]. destruct Hok as [(g & e & ex & H1 & _ & _ & _ & _ & _ & _ & H2)]. rewrite Hf in H1. injection H1 as <-.
      unfold a_special, abs_file, mf_kind. cbn [a_kind]. by rewrite H2.
    - right. rewrite Hf in Hf'. injection Hf' as <-. pose proof Hk as (y & e & Hy & _). exists y. split; [done|]. split; [done|].
      split; [cbn [abs_file a_kind]; unfold mf_kind; by rewrite Hy|].
      pose proof (special_kind _ _ _ _ _ _ rl_view Hf Hy) as Hsp. unfold a_special, abs_file, mf_kind. cbn [a_kind]. rewrite Hy. by destruct (sp_kind y).
  Qed.

  Lemma step_delete h a' r : astep t a (ODelete h) = Some (a', r) -> step_full t a (ODelete h) a' r s m.
  Proof.
    pose proof (rl_wok _ _ _ _ _ _ R) as W. pose proof (rl_names _ _ _ _ _ _ R) as Hn.
    cbn [astep]. destruct (held a h) as [[i af]|] eqn:E; [|done]. destruct (writer_on a i) eqn:Ew; [done|]. cbn [orb].
    destruct (removable (a_kind af)) eqn:Erm; [|done]. cbn [negb]. intros [= <- <-].
    destruct (held_some _ _ _ E) as (x & f & Hx & Hf & Haf & [[Hok ->]|(y & Hok & Hy & Hk & ->)]).
    - destruct (delete_view t w m c b i x f W Hn Hok Hf) as (w' & b' & Hdel & W' & Hmv & Hdb).
      exists (set_world w' s), (set_slot i None m), c, b'. cbn [call]. rewrite Hx, Hdel. split; [done|]. split.
      + by apply (slot_gone i f).
      + intros _. apply (deleted_full _ _ i); [|done]. cbn [about]. by rewrite E.
    - rewrite Hk in Erm. destruct (delete_special_view t w m c b i x f y W Hn Hf Hok Hy Erm) as (w' & b' & _ & Hdel & W' & Hmv & _).
      exists (set_world w' s), (set_slot i None m), c, b'. cbn [call]. rewrite Hx, Hdel. split; [done|]. split.
      + by apply (slot_gone i f).
      + intros _. apply (deleted_full _ _ i); [|done]. cbn [about]. by rewrite E.
  Qed.

  Lemma step_rename old new a' r : astep t a (ORename old new) = Some (a', r) -> step_full t a (ORename old new) a' r s m.
  Proof.
    pose proof (rl_wok _ _ _ _ _ _ R) as W. pose proof (rl_names _ _ _ _ _ _ R) as Hn. pose proof (rl_slots _ _ _ _ _ _ R) as Hs.
    pose proof rl_view as V.
    assert (set_world w s = s) as Hset by (by destruct s).
    cbn [astep]. destruct (slot_named a old) as [i|] eqn:E.
    2: { intros [= <- <-]. apply step_none. cbn [call]. rewrite (rename_no_file t w m c b old new W (named_none _ _ _ Hs E)). by rewrite Hset. }
    destruct (named_some _ _ _ _ Hs E) as (f & Hf & <-).
    destruct (16 <? length new) eqn:El.
    { intros [= <- <-]. apply step_none. cbn [call]. apply Nat.ltb_lt in El.
      rewrite (rename_too_long t w m c b i f new W Hn Hf El). by rewrite Hset. }
    apply Nat.ltb_ge in El.
    destruct (slot_named a new) as [j|] eqn:E2.
    { intros [= <- <-]. destruct (named_some _ _ _ _ Hs E2) as (g & Hg & <-). apply step_none. cbn [call].
      rewrite (rename_taken t w m c b i f j g W Hn Hf Hg). by rewrite Hset. }
    destruct (storable_name new) eqn:Est; [|done]. cbn [negb].
    rewrite Hs, (abs_lookup _ _ _ Hf). intros [= <- <-].
    assert (last new <> Some PADDING_BYTE) as Hlast.
    { unfold storable_name in Est. by apply negb_true_iff, bool_decide_eq_false in Est. }
    destruct (rename_view t w m c b i f new W Hn Hf El Hlast (named_none _ _ _ Hs E2)) as (w' & Hr & W' & Hmv & Hdb).
    exists (set_world w' s), (set_slot i (Some (renamed new f)) m), c, b. cbn [call]. rewrite Hr. split; [done|]. split.
    - apply (related_set _ _ _ i f (renamed new f)); try done.
      + apply sizes_ok_set; [apply R| |by eapply slot_at_lt]. apply (rl_sizes _ _ _ _ _ _ R _ _ Hf).
      + cbn [put set_slots as_writers]. eapply writers_keep; [exact V|apply Hmv| |apply R].
        intros k g pend Hk. exists (renamed new g). destruct Hk as [K1 K2 K3 K4 K5 K6 K7 K8 K9 K10 K11].
        rewrite Hf in K1. injection K1 as <-. split; try done.
        apply slot_at_set. by eapply slot_at_lt.
      + apply R.
      + cbn [put set_slots as_synced]. rewrite Hdb. apply R.
    - intros _. apply (about_full _ _ i f); [exact E|done|done|].
      split; [exists []; by rewrite app_nil_r|]. split; [exists []; by rewrite app_nil_r|done].
  Qed.

  Lemma step_init a' r : astep t a OInit = Some (a', r) -> step_full t a OInit a' r s m.
  Proof.
    cbn [astep]. destruct (as_synced a) eqn:Es; [|done]. intros [= <- <-].
    pose proof (rl_wok _ _ _ _ _ _ R) as W. pose proof rl_view as V.
    destruct (initialize_view t w m b) as (c' & W' & Hd & Hc & _ & _).
    - apply W.
    - done.
    - intros c' Hc'. rewrite (wo_bam _ _ _ _ _ _ W) in Hc'. injection Hc' as <-. eapply lookup_lt_Some, W.
    - by apply R.
    - apply W.
    - assert (c' = c) as -> by (by apply Hc, W).
      exists (set_world (initialize w) s), m, c, b. split; [done|]. split; [|intros _; by apply same_full].
      destruct R. split; cbn [set_world s_world s_handles s_writers]; try done. by rewrite Hd.
  Qed.

  Lemma step_reopen a' r : astep t a OReopen = Some (a', r) -> step_full t a OReopen a' r s m.
  Proof.
    cbn [astep]. destruct (as_synced a) eqn:Es; [|done]. destruct (writer_open a) eqn:Ew; [done|]. cbn [andb negb]. intros [= <- <-].
    pose proof (rl_wok _ _ _ _ _ _ R) as W. pose proof rl_view as V.
    assert (w_type w = t) as Ht by apply W.
    destruct (initialize_view t (mk_world t (w_dev w) None None None []) m b) as (c' & W' & Hd & _ & _ & _); [done|done|done|by apply R|apply W|].
    exists (mk_session (open_world t (w_dev w)) [] []), m, c', b. cbn [call]. rewrite Ht. split; [done|].
    split; [|intros _; apply same_full; exact Hd].
    destruct R. split; cbn [set_handles set_writers s_world s_handles s_writers as_slots as_dirs as_label as_handles as_writers as_synced]; try done.
    intros _. change (w_dev (open_world t (w_dev w))) with (w_dev (initialize (mk_world t (w_dev w) None None None []))). rewrite Hd. by apply rl_synced0.
  Qed.

  Lemma step_format name id a' r : astep t a (OFormat name id) = Some (a', r) -> step_full t a (OFormat name id) a' r s m.
  Proof.
    cbn [astep]. destruct (writer_open a) eqn:Ew; [done|]. destruct (16 <? length name) eqn:El; [done|]. cbn [orb]. intros [= <- <-].
    apply Nat.ltb_ge in El. pose proof (rl_wok _ _ _ _ _ _ R) as W. pose proof rl_view as V.
    destruct (format_view t w name id) as (w' & c' & b' & Hf & W' & Hdb & _ & Hc & _); [apply W|apply V|apply V| |done|].
    { intros c' Hc'. rewrite (wo_bam _ _ _ _ _ _ W) in Hc'. injection Hc' as <-. eapply lookup_lt_Some, W. }
    exists (set_world w' s), (empty_disk t (fresh_header t name id)), c', b'. cbn [call]. rewrite Hf. split; [done|]. split; [|done].
    split; cbn [set_world s_world s_handles s_writers formatted as_slots as_dirs as_label as_handles as_writers as_synced]; try done.
    - apply empty_names.
    - apply empty_sizes.
    - rewrite (Forall2_length _ _ _ (rl_handles _ _ _ _ _ _ R)). clear.
      induction (s_handles s); [apply List.Forall2_nil|by apply List.Forall2_cons].
    - assert (s_writers s = repeat None (length (as_writers a))) as ->.
      { apply list_eq. intros i. destruct (as_writers a !! i) as [o|] eqn:Ei.
        - destruct (Forall2_lookup_l _ _ _ _ _ (rl_writers _ _ _ _ _ _ R) Ei) as (o' & Ho' & Hoo). rewrite Ho'.
          destruct o as [y|]; [by destruct (writer_open_false a i y Ew)|]. cbn in Hoo. subst o'. symmetry.
          apply lookup_lt_Some in Ei. clear -Ei. revert i Ei. induction (length (as_writers a)) as [|n IH]; intros i Hi; [lia|].
          destruct i as [|i]; [done|]. apply IH. lia.
        - apply lookup_ge_None in Ei. rewrite !(proj2 (lookup_ge_None _ _)); [done|by rewrite repeat_length|].
          by rewrite <- (Forall2_length _ _ _ (rl_writers _ _ _ _ _ _ R)). }
      clear. induction (length (as_writers a)); [apply List.Forall2_nil|apply List.Forall2_cons; done].
    - intros k1 k2 x1 x2 H1. exfalso. clear -H1. revert k1 H1. induction (length (as_writers a)) as [|n IH]; intros k1 H1; [done|].
      destruct k1 as [|k1]; [done|]. by apply (IH k1).
  Qed.

  Lemma step_grows o a' r : astep t a o = Some (a', r) -> step_full t a o a' r s m.
  Proof.
    destruct o.
    - apply step_create.
    - apply step_open.
    - apply step_writer.
    - apply step_write.
    - apply step_flush.
    - apply step_close.
    - apply step_read.
    - apply step_record.
    - apply step_delete.
    - apply step_rename.
    - apply step_list.
    - apply step_free.
    - apply step_name.
    - apply step_validate.
    - apply step_init.
    - apply step_reopen.
    - apply step_format.
  Qed.

  Lemma step_refines o a' r : astep t a o = Some (a', r) -> step_ok t a o a' r s m.
  Proof.
    intros H. destruct (step_grows o a' r H) as (s' & m' & c' & b' & H1 & H2 & H3). exists s', m', c', b'.
    split; [done|]. split; [done|]. intros Hn. apply (H3 Hn).
  Qed.
End step.

Lemma run_refines t os : forall a a' rs s m c b,
  related t a s m c b -> arun t a os = Some (a', rs) ->
  exists s' m' c' b', calls s os = (s', rs) /\ related t a' s' m' c' b'.
Proof.
  induction os as [|o os IH]; intros a a' rs s m c b R; cbn [arun calls].
  - intros [= <- <-]. by exists s, m, c, b.
  - destruct (astep t a o) as [[a1 r]|] eqn:E; [|done]. destruct (arun t a1 os) as [[a2 rs2]|] eqn:E2; [|done]. intros [= <- <-].
    destruct (step_refines t a s m c b R o a1 r E) as (s1 & m1 & c1 & b1 & Hc & R1 & _). rewrite Hc.
    destruct (IH _ _ _ _ _ _ _ R1 E2) as (s2 & m2 & c2 & b2 & Hc2 & R2). rewrite Hc2. by exists s2, m2, c2, b2.
Qed.
