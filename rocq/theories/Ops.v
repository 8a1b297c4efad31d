(** The relation between an open disk and the contents of its image, and the
    steps the file operations are made of. *)
From Verif Require Import Base ListFacts Layout Block Bam Format Chain GeosTypes Petscii DirEntry Header World Directory Writer
  Rel File Spec SpecCodec SpecChain SpecBam GeomFacts FlatProofs DevFacts CodecProofs EntryProofs HeaderProofs ChainProofs
  BamProofs AllocProofs BamState Evolve Holds View Dirs.
Ltac Zify.zify_post_hook ::= Z.div_mod_to_equations.

(** ** Steps of the state monad *)

Lemma sbind_ok {S A B} (m : st S A) (f : A -> st S B) s s' a :
  m s = (s', Ok a) -> sbind m f s = f a s'.
Proof. intros H. unfold sbind. by rewrite H. Qed.
Lemma sbind_err {S A B} (m : st S A) (f : A -> st S B) s s' e :
  m s = (s', Err e) -> sbind m f s = (s', Err e).
Proof. intros H. unfold sbind. by rewrite H. Qed.

Lemma on_dev_run {A} (m : st dev A) w d' r : m (w_dev w) = (d', r) -> on_dev m w = (set_dev d' w, r).
Proof. intros H. unfold on_dev, zoom. by rewrite H. Qed.

Lemma on_dev_mut w l f b :
  d_writable (w_dev w) = true -> sector (w_dev w) l = Ok b ->
  on_dev (sector_mut l f) w = (set_dev (upd (w_dev w) l (f b)) w, Ok tt).
Proof. intros Hw Hs. apply on_dev_run. by apply sector_mut_upd. Qed.

Lemma update_cell_run w c b f b' :
  w_cells w !! c = Some b -> f b = Ok b' -> update_cell c f w = (set_cell c b' w, Ok tt).
Proof. intros Hc Hf. unfold update_cell, sbind, asks, cell, lift, modify. by rewrite Hc, Hf. Qed.

Lemma on_world_run {A} (m : st world A) w k w' r : m w = (w', r) -> on_world m (w, k) = ((w', k), r).
Proof. intros H. unfold on_world, zoom. simpl. by rewrite H. Qed.

(** ** The BAM of a sound image *)

(** The free sectors are those that are neither system sectors, nor used, nor
    in the list [ex] of sectors allocated but not yet linked. *)
Record bam_ok (t : disk_type) (b : bam) (m : mdisk) (ex : list location) : Prop := {
  bo_con : bam_consistent t b;
  bo_fmt : b_format b = m_format t m;
  bo_free : forall l, bam_sector t l -> freeb b l = true <-> ~ sys t l /\ l ∉ used m /\ l ∉ ex
}.

Lemma bam_ok_used t b m ex m' ex' :
  bam_ok t b m ex -> md_header m' = md_header m ->
  (forall l, l ∈ used m' \/ l ∈ ex' <-> l ∈ used m \/ l ∈ ex) -> bam_ok t b m' ex'.
Proof.
  intros [Hc Hf Hr] Hh H. split; [done|unfold m_format, is_geos in *; by rewrite Hh|]. intros l Hl. rewrite (Hr l Hl). specialize (H l). tauto.
Qed.


Lemma bam_ok_allocate t b m ex l :
  bam_ok t b m ex -> bam_sector t l -> exists b', bam_allocate b l = Ok b' /\ bam_ok t b' m (l :: ex).
Proof.
  intros [Hc Hf Hr] Hl. destruct (allocate_spec t b l Hc Hl) as (b' & Ha & Hc' & Hf' & Hfr).
  exists b'. split; [done|]. split; [done|congruence|]. intros l' Hl'. rewrite (Hfr l' Hl').
  rewrite andb_true_iff, negb_true_iff, bool_decide_eq_false, (Hr l' Hl'), not_elem_of_cons. tauto.
Qed.

(** A block for a file. *)
Lemma alloc_data t b m ex :
  bam_ok t b m ex ->
  (exists n b', bam_next_free_block b None = Ok n /\ data_loc t n /\ n ∉ used m /\ n ∉ ex
     /\ bam_allocate b n = Ok b' /\ bam_ok t b' m (n :: ex))
  \/ (bam_next_free_block b None = Err EDiskFull
      /\ forall l, data_loc t l -> l ∈ used m \/ l ∈ ex).
Proof.
  intros Hb. pose proof Hb as [Hc Hf Hr].
  assert ((exists l, bam_next_free_block b None = Ok l /\ bam_sector t l /\ fst l <> dir_track t /\ is_free b l)
    \/ (bam_next_free_block b None = Err EDiskFull
        /\ forall l, bam_sector t l -> fst l <> dir_track t -> ~ reserved t (fst l) -> ~ is_free b l))
    as [(l & Hn & Hl & Hd & Hfr)|[Hn Hno]].
  { destruct (geos (b_format b)) eqn:Hg.
    - destruct (alloc_new_geos t b Hc Hg) as [(l & H1 & (H2 & H3 & _) & H4)|[H1 H2]]; [left; by exists l|].
      right. split; [done|]. intros l H3 H4 H5. by apply H2.
    - destruct (alloc_new_cbm t b Hc Hg) as [H1|[H1 H2]]; [by left|]. right. split; [done|]. intros l H3 H4 _. by apply H2. }
  - left. apply is_free_b, (Hr l Hl) in Hfr as (Hs & Hu & Hex).
    destruct (bam_ok_allocate t b m ex l Hb Hl) as (b' & Ha & Hb'). exists l, b'. done.
  - right. split; [done|]. intros l (Hl & Hd & Hs).
    assert (~ is_free b l) as Hnf by (apply Hno; [done|done|]; intros H; apply Hs; by right).
    rewrite is_free_b, (Hr l Hl) in Hnf.
    destruct (decide (l ∈ used m)); [by left|]. destruct (decide (l ∈ ex)); [by right|]. tauto.
Qed.

(** A block for the directory. *)
Lemma alloc_dir t b m ex p :
  bam_ok t b m ex -> dir_loc t p ->
  (exists n b', bam_next_free_block b (Some p) = Ok n /\ dir_loc t n /\ n ∉ used m /\ n ∉ ex
     /\ bam_allocate b n = Ok b' /\ bam_ok t b' m (n :: ex))
  \/ (bam_next_free_block b (Some p) = Err EDiskFull
      /\ forall l, dir_loc t l -> l ∈ used m \/ l ∈ ex).
Proof.
  intros Hb (Hp1 & Hp2 & Hp3). pose proof Hb as [Hc Hf Hr].
  destruct (alloc_after t b p Hc Hp1) as [(l & Hn & (Hl & Hd & _) & Hfr)|[Hn Hno]].
  - left. apply is_free_b, (Hr l Hl) in Hfr as (Hs & Hu & Hex).
    destruct (bam_ok_allocate t b m ex l Hb Hl) as (b' & Ha & Hb'). exists l, b'.
    split; [done|]. split; [|done]. split; [done|]. split; [by apply Hd|done].
  - right. split; [done|]. intros l (Hl & Hd & Hs).
    assert (~ is_free b l) as Hnf.
    { apply Hno. split; [done|]. split; [done|]. intros Hx. congruence. }
    rewrite is_free_b, (Hr l Hl) in Hnf.
    destruct (decide (l ∈ used m)); [by left|]. destruct (decide (l ∈ ex)); [by right|]. tauto.
Qed.

(** ** Open disks *)

Record wok (t : disk_type) (w : world) (m : mdisk) (c : nat) (b : bam) (ex : list location) : Prop := {
  wo_type : w_type w = t;
  wo_fmt : w_fmt w = Some (m_format t m);
  wo_header : w_header w = Some (md_header m);
  wo_bam : w_bam w = Some c;
  wo_cell : w_cells w !! c = Some b;
  wo_view : view t (w_dev w) m;
  wo_alloc : bam_ok t b m ex
}.

(** The image holds the BAM [b]. *)
Definition d_format (t : disk_type) (d : dev) : disk_format :=
  match header_read d (hf t) with
  | Ok h => set_geos (match h_geos h with Some _ => true | None => false end) (native_format t)
  | _ => native_format t
  end.
Definition disk_bam (t : disk_type) (d : dev) : res bam := bam_read d (d_format t d).

Lemma view_format t d m : view t d m -> d_format t d = m_format t m.
Proof. intros V. unfold d_format. by rewrite (v_header _ _ _ V). Qed.
Lemma d_format_sections t d : bam_sections (d_format t d) = bam_sections (native_format t).
Proof. unfold d_format. by destruct (header_read d (hf t)). Qed.

Lemma disk_bam_plain t d l b :
  dev_shape t d -> plain t l -> disk_bam t (upd d l b) = disk_bam t d.
Proof.
  intros Hd [Hl Hs]. unfold disk_bam.
  assert (forall l', sys t l' -> sector (upd d l b) l' = sector d l') as H.
  { intros l' Hl'. apply (sector_upd_other t); [done|by intros ->|by eapply bam_sector_valid]. }
  assert (d_format t (upd d l b) = d_format t d) as ->.
  { unfold d_format. rewrite (header_read_sector d); [done|]. apply H, header_loc_sys. }
  apply bam_read_sector. intros l'. rewrite d_format_sections. intros Hl'. by apply H, bam_loc_sys.
Qed.

Lemma set_dev_cells w d c : w_cells (set_dev d w) !! c = w_cells w !! c. Proof. done. Qed.

Lemma wok_dev t w m c b ex d' m' ex' :
  wok t w m c b ex -> view t d' m' -> md_header m' = md_header m -> bam_ok t b m' ex' ->
  wok t (set_dev d' w) m' c b ex'.
Proof.
  intros [Ht Hf Hh Hbm Hc V Ha] V' Hhd Ha'. split; simpl; try done; [|by rewrite Hhd].
  unfold m_format, is_geos in *. by rewrite Hhd.
Qed.

Lemma wok_cell t w m c b ex b' ex' :
  wok t w m c b ex -> bam_ok t b' m ex' -> wok t (set_cell c b' w) m c b' ex'.
Proof.
  intros [Ht Hf Hh Hbm Hc V Ha] Ha'. split; simpl; try done.
  apply list_lookup_insert. by eapply lookup_lt_Some.
Qed.

(** ** What other files see *)

(** Only slot [i] may have changed. *)
Definition frame (i : nat) (m m' : mdisk) : Prop :=
  md_header m' = md_header m /\ (exists dirs, md_dir m' = md_dir m ++ dirs)
  /\ length (md_slots m) <= length (md_slots m')
  /\ forall j, j <> i -> slot_at m' j = slot_at m j.

Lemma frame_refl i m : frame i m m.
Proof. split; [done|]. split; [exists []; by rewrite app_nil_r|]. done. Qed.
Lemma frame_trans i m m' m'' : frame i m m' -> frame i m' m'' -> frame i m m''.
Proof.
  intros (H1 & (a & H2) & H3 & H4) (H1' & (b & H2') & H3' & H4'). split; [congruence|].
  split; [exists (a ++ b); by rewrite H2', H2, app_assoc|]. split; [lia|].
  intros j Hj. by rewrite H4', H4.
Qed.
Lemma frame_set_slot i o m : frame i m (set_slot i o m).
Proof.
  split; [done|]. split; [exists []; by rewrite app_nil_r|]. simpl. rewrite insert_length. split; [done|].
  intros j Hj. unfold slot_at. simpl. by rewrite list_lookup_insert_ne.
Qed.
Lemma frame_slot_pos i m m' j :
  frame i m m' -> j < 8 * length (md_secs m) -> slot_pos m' j = slot_pos m j.
Proof.
  intros (H1 & (a & H2) & _) Hj. unfold slot_pos, slot_loc.
  assert (md_secs m' = md_secs m ++ a) as -> by (unfold md_secs, border; rewrite H1, H2; by rewrite app_assoc).
  by rewrite lookup_total_app_l by lia.
Qed.

Lemma slot_at_set i o m : i < length (md_slots m) -> slot_at (set_slot i o m) i = o.
Proof. intros H. unfold slot_at. simpl. by rewrite list_lookup_insert. Qed.
Lemma slot_at_set_ne i j o m : i <> j -> slot_at (set_slot i o m) j = slot_at m j.
Proof. intros H. unfold slot_at. simpl. by rewrite list_lookup_insert_ne. Qed.

Lemma names_ok_set i o m :
  names_ok m -> i < length (md_slots m) ->
  (forall f', o = Some f' -> forall j f, j <> i -> slot_at m j = Some f -> mf_name f <> mf_name f') ->
  names_ok (set_slot i o m).
Proof.
  intros Hn Hi Ho a b f g Ha Hb Hfg.
  destruct (decide (a = i)) as [->|Ha'], (decide (b = i)) as [->|Hb']; [done| | |].
  - rewrite slot_at_set in Ha by done. rewrite slot_at_set_ne in Hb by done.
    exfalso. by eapply Ho.
  - rewrite slot_at_set in Hb by done. rewrite slot_at_set_ne in Ha by done.
    exfalso. by eapply Ho.
  - rewrite slot_at_set_ne in Ha, Hb by done. by eapply Hn.
Qed.

Lemma names_ok_same i f f' m :
  names_ok m -> slot_at m i = Some f -> mf_name f' = mf_name f -> names_ok (set_slot i (Some f') m).
Proof.
  intros Hn Hi He. pose proof Hi as Hi'. apply slot_at_Some, lookup_lt_Some in Hi'.
  apply names_ok_set; [done|done|]. intros g [= <-] j x Hj Hx Hxe. apply Hj.
  eapply Hn; [exact Hx|exact Hi|congruence].
Qed.

(** A crash in the middle of an operation on slot [i] leaves such an image. *)
Definition safe (t : disk_type) (i : nat) (m : mdisk) (d : dev) : Prop :=
  exists m', view t d m' /\ names_ok m' /\ frame i m m'.

Lemma safe_intro t i m m' d : view t d m' -> names_ok m' -> frame i m m' -> safe t i m d.
Proof. intros. by exists m'. Qed.

Lemma safe_weaken t i m m' d : frame i m m' -> safe t i m' d -> safe t i m d.
Proof. intros Hf (m'' & V & Hn & Hf'). exists m''. split; [done|]. split; [done|]. by eapply frame_trans. Qed.

Lemma safe_bam_closed t i m : bam_closed t (safe t i m).
Proof.
  intros d l b Hd (m' & V & Hn & Hf) Hst. exists m'. split; [|done].
  by apply (view_bam_closed t m' d l b).
Qed.

(** ** Entries *)

Definition entry_for (e : dirent) (f : mfile) : Prop :=
  de_attr e = mf_attr f /\ de_first e = mf_first f /\ de_name e = mf_name f
  /\ de_extra e = mf_extras f /\ de_size e = mf_size f.

Lemma to_bytes_for e f bytes : entry_for e f -> dirent_to_bytes e bytes = dirent_to_bytes (mf_entry f None) bytes.
Proof. intros (Ha & Hf & Hn & Hx & Hs). unfold dirent_to_bytes. by rewrite Ha, Hf, Hn, Hx, Hs. Qed.

Lemma take_app_2 (x : list nat) v : 2 <= length x -> take 2 (take 2 x ++ v) = take 2 x.
Proof. intros H. apply take_app_alt. rewrite take_length. lia. Qed.

(** Writing the entry of a file into slot [i]. *)
Lemma entry_write_view t d m i e f :
  view t d m -> i < length (md_slots m) -> de_pos e = Some (slot_pos m i) -> entry_for e f ->
  file_ok f -> Forall (data_loc t) (mf_chain f) -> contents t d f ->
  mf_special f = None \/ (exists f0, slot_at m i = Some f0 /\ mf_extras f = mf_extras f0) ->
  NoDup (used (set_slot i (Some f) m)) ->
  exists b', positioned_write e d = (upd d (slot_loc m i) b', Ok tt) /\ length b' = 256
    /\ view t (upd d (slot_loc m i) b') (set_slot i (Some f) m).
Proof.
  intros V Hi Hp He Hok Hc Hh Hrec Hnd.
  destruct (lookup_lt_is_Some_2 _ _ Hi) as [o Ho]. destruct (v_slot _ _ _ V i o Ho) as (b & Hb & Hsl0).
  pose proof (sector_Ok_length t d _ _ (v_shape _ _ _ V) Hb) as Hlb. pose proof (slot_off_bound i) as Hob.
  destruct (entry_write_read (mf_entry f None) (slice (slot_off i) 32 b)) as (bytes & Hby & Hl & Htk & Hparse).
  { rewrite length_slice; lia. }
  { apply Hok. }
  { unfold record_length_kept. cbn [mf_entry de_extra]. destruct Hrec as [Hk|(f0 & Hf0 & Hx)].
    - unfold mf_extras. by rewrite Hk.
    - rewrite Hx. apply slot_at_Some in Hf0. rewrite Ho in Hf0. injection Hf0 as ->.
      specialize (Hsl0 None). unfold dirent_parse in Hsl0. rewrite length_slice in Hsl0 by lia.
      cbn [Nat.eqb ENTRY_SIZE negb] in Hsl0. apply Ok_inj in Hsl0. apply (f_equal de_extra) in Hsl0. cbn [de_extra mf_entry] in Hsl0.
      rewrite <- Hsl0. unfold extra_from_bytes. destruct (entry_scheme _ _); try done.
      by rewrite (lookup_total_slice ENTRY_EXTRA_OFFSET) by (unfold EXTRA_SIZE; lia). }
  exists (splice (slot_off i) bytes b). split; [|split].
  - unfold positioned_write. rewrite Hp. unfold check_writability. rewrite (v_writable _ _ _ V).
    cbn [slot_pos p_loc p_off p_size rbind]. rewrite Hb. cbn [rbind].
    destruct (Nat.ltb_spec (length b) (slot_off i + 32)); [lia|].
    rewrite (to_bytes_for e f) by done. rewrite Hby. apply sector_mut_upd; [apply V|done].
  - rewrite length_splice; lia.
  - apply (view_write_slot t d m i (Some f) b bytes V Hi Hb Hl).
    + rewrite Htk. apply take_app_2. rewrite length_slice; lia.
    + intros p. rewrite slice_splice_same by lia. rewrite Hparse. done.
    + done.
    + intros g [= <-]. done.
Qed.

(** Marking slot [i] as deleted. *)
Definition extra_writes (x : extra) : Prop :=
  forall old, length old = 9 -> exists bytes, extra_to_bytes x old = Ok bytes /\ length bytes = 9.
Lemma entry_delete_any t d m i e :
  view t d m -> i < length (md_slots m) -> de_pos e = Some (slot_pos m i) ->
  length (de_name e) <= 16 -> extra_writes (de_extra e) ->
  exists b', positioned_write (deleted_entry e) d = (upd d (slot_loc m i) b', Ok tt) /\ length b' = 256
    /\ view t (upd d (slot_loc m i) b') (set_slot i None m).
Proof.
  intros V Hi Hp Hn Hx.
  destruct (lookup_lt_is_Some_2 _ _ Hi) as [o Ho]. destruct (v_slot _ _ _ V i o Ho) as (b & Hb & _).
  pose proof (sector_Ok_length t d _ _ (v_shape _ _ _ V) Hb) as Hlb. pose proof (slot_off_bound i) as Hob.
  destruct (padded_roundtrip' (de_name e) Hn) as (name & Hname & Hnl & _).
  set (old := slice (slot_off i) 32 b).
  assert (length old = 32) as Hlo by (unfold old; rewrite length_slice; lia).
  set (a := set_type DEL false (de_attr e)).
  destruct (Hx (slice 21 9 old)) as (x & Hxb & Hlx); [rewrite length_slice; lia|].
  change (de_extra e) with (de_extra (deleted_entry e)) in Hxb.
  pose proof (dirent_to_bytes_eq (deleted_entry e) old name x Hlo Hname Hnl Hxb Hlx) as Hby.
  change (de_attr (deleted_entry e)) with a in Hby.
  destruct (attr_roundtrip a) as [Hab _]; [done|].
  set (bytes := entry_bytes _ _ _ _ _ _ _ _ _) in Hby.
  assert (length bytes = 32) as Hlby.
  { unfold bytes, entry_bytes. rewrite !app_length. simpl. rewrite Hnl, Hlx. done. }
  exists (splice (slot_off i) bytes b). split; [|split].
  - unfold positioned_write. change (de_pos (deleted_entry e)) with (de_pos e). rewrite Hp.
    unfold check_writability. rewrite (v_writable _ _ _ V).
    cbn [slot_pos p_loc p_off p_size rbind]. rewrite Hb. cbn [rbind].
    destruct (Nat.ltb_spec (length b) (slot_off i + 32)); [lia|]. fold old.
    rewrite Hby. apply sector_mut_upd; [apply V|done].
  - rewrite length_splice; lia.
  - apply (view_write_slot t d m i None b bytes V Hi Hb Hlby).
    + unfold bytes, entry_bytes. fold old. clearbody old. do 2 (destruct old as [|? old]; [done|]). done.
    + unfold slot_is. rewrite lookup_total_splice by lia. case_decide; [|lia].
      replace (slot_off i + 2 - slot_off i) with 2 by lia. unfold bytes, entry_bytes.
      change (_ !!! 2) with (attr_to_byte a). rewrite Hab. done.
    + pose proof (v_nodup _ _ _ V) as Hu. unfold used in *. simpl.
      rewrite files_used_insert by done. rewrite (files_used_split _ _ _ Ho) in Hu. simpl.
      apply NoDup_app in Hu as (H1 & H2 & H3). apply NoDup_app in H3 as (H3 & H4 & H5).
      apply NoDup_app in H5 as (H5 & H6 & H7).
      apply NoDup_app. split; [done|]. split.
      * intros y Hy Hy'. apply (H2 y Hy). rewrite !elem_of_app in *. tauto.
      * apply NoDup_app. split; [done|]. split; [|done]. intros y Hy Hy'. apply (H4 y Hy). rewrite elem_of_app. tauto.
    + done.
Qed.

Lemma entry_delete_view t d m i e x :
  view t d m -> i < length (md_slots m) -> de_pos e = Some (slot_pos m i) ->
  length (de_name e) <= 16 -> de_extra e = XLinear x -> length x = 9 ->
  exists b', positioned_write (deleted_entry e) d = (upd d (slot_loc m i) b', Ok tt) /\ length b' = 256
    /\ view t (upd d (slot_loc m i) b') (set_slot i None m).
Proof.
  intros V Hi Hp Hn Hx Hlx. apply entry_delete_any; [done..|]. rewrite Hx. intros old _. exists x. unfold extra_to_bytes. by rewrite Hlx.
Qed.

Lemma entry_read_view t d m i e f :
  view t d m -> slot_at m i = Some f -> de_pos e = Some (slot_pos m i) ->
  positioned_read d e = Ok (mf_entry f (Some (slot_pos m i))).
Proof.
  intros V Hi Hp. unfold positioned_read. rewrite Hp. cbn [slot_pos p_loc p_off p_size].
  apply slot_at_Some in Hi. destruct (v_slot _ _ _ V i _ Hi) as (b & Hb & Hsl).
  pose proof (sector_Ok_length t d _ _ (v_shape _ _ _ V) Hb) as Hlb. pose proof (slot_off_bound i) as Hob.
  rewrite Hb. cbn [rbind]. destruct (Nat.ltb_spec (length b) (slot_off i + 32)); [lia|]. apply Hsl.
Qed.

(** Used sectors after replacing a file by one with the same chain. *)
Lemma used_same_chain m i f f' :
  slot_at m i = Some f -> mf_chain f' = mf_chain f -> used (set_slot i (Some f') m) = used m.
Proof.
  intros Hi Hc. apply slot_at_Some in Hi. unfold used. simpl. f_equal.
  rewrite files_used_insert by (by eapply lookup_lt_Some). rewrite (files_used_split _ _ _ Hi). simpl. by rewrite Hc.
Qed.

Lemma used_set_in m i o f l :
  slot_at m i = o -> i < length (md_slots m) -> NoDup (used m) ->
  l ∈ used (set_slot i f m) <-> l ∈ chain_of f \/ (l ∈ used m /\ l ∉ chain_of o).
Proof.
  intros Hi Hlt Hnd. destruct (lookup_lt_is_Some_2 _ _ Hlt) as [o' Ho'].
  assert (chain_of o' = chain_of o) as E.
  { unfold slot_at in Hi. rewrite Ho' in Hi. simpl in Hi. by subst. }
  unfold used in *. simpl. rewrite files_used_insert by done. rewrite (files_used_split _ _ _ Ho') in Hnd |- *.
  rewrite <- E. rewrite !elem_of_app.
  apply NoDup_app in Hnd as (H1 & H2 & H3). apply NoDup_app in H3 as (H3 & H4 & H5).
  apply NoDup_app in H5 as (H5 & H6 & H7).
  specialize (H2 l). specialize (H4 l). specialize (H6 l). rewrite !elem_of_app in *.
  destruct (decide (l ∈ chain_of o')); tauto.
Qed.
