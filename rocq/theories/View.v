(** What a sound image holds: the header, the directory sectors, and for each
    directory slot nothing or a file with its chain and its contents. *)
From Verif Require Import Base ListFacts Layout Block Bam Chain GeosTypes DirEntry Header World Directory Writer Rel GeosFile File Spec SpecCodec SpecChain SpecKinds SpecBam
  GeomFacts FlatProofs DevFacts EntryProofs HeaderProofs ChainProofs BamProofs AllocProofs Evolve Holds.
Ltac Zify.zify_post_hook ::= Z.div_mod_to_equations.

(** ** Kinds of sectors *)

(** Header and BAM sectors. *)
Definition sys_sectors (t : disk_type) : nat := match t with D81 => 3 | _ => 1 end.
Definition sys (t : disk_type) (l : location) : Prop :=
  (fst l = dir_track t /\ snd l < sys_sectors t) \/ reserved t (fst l).
Definition first_dir (t : disk_type) : location := (dir_track t, sys_sectors t).
Definition dir_loc (t : disk_type) (l : location) : Prop :=
  bam_sector t l /\ fst l = dir_track t /\ ~ sys t l.
Definition data_loc (t : disk_type) (l : location) : Prop :=
  bam_sector t l /\ fst l <> dir_track t /\ ~ sys t l.
Definition plain (t : disk_type) (l : location) : Prop := bam_sector t l /\ ~ sys t l.

Lemma dir_plain t l : dir_loc t l -> plain t l. Proof. intros (?&?&?). done. Qed.
Lemma data_plain t l : data_loc t l -> plain t l. Proof. intros (?&?&?). done. Qed.

Lemma bam_sector_valid t d l : dev_shape t d -> bam_sector t l -> valid_loc (d_geom d) l = true.
Proof.
  intros Hd Hl. apply (valid_loc_on_disk t); [apply Hd|]. destruct Hl as [H1 H2]. split; [|done].
  pose proof (ds_geom _ _ Hd) as Hg. split; [lia|].
  assert (spec_tracks t <= g_tracks (d_geom d)); [|lia].
  destruct t; simpl in *; decompose [or] Hg; subst; try done;
    match goal with H : _ = d_geom d |- _ => rewrite <- H end; apply Nat.leb_le; reflexivity.
Qed.

Lemma bam_loc_sys t l : bam_loc (bam_sections (native_format t)) l -> sys t l.
Proof.
  rewrite bam_locs. unfold sys, reserved. destruct t; simpl; intros H; decompose [or] H; subst; simpl;
    try done; try (left; lia). by right.
Qed.
Lemma header_loc_sys t : sys t (hf_location (hf t)).
Proof. rewrite header_loc_cases. left. simpl. destruct t; simpl; lia. Qed.

Lemma plain_track t l : plain t l -> fst l <> 0.
Proof. intros [[H _] _]. lia. Qed.

Lemma bam_sector_byte t l : bam_sector t l -> is_byte (fst l) /\ is_byte (snd l).
Proof.
  intros [H1 H2]. unfold is_byte. pose proof (spec_sectors_bounds t (fst l) H1).
  assert (spec_tracks t < 256) by (destruct t; simpl; lia). lia.
Qed.

(** ** The contents of an image *)

(** What the entry of a relative or a GEOS file adds. *)
Record special := mk_special {
  sp_first : location;
  sp_extra : extra;
  sp_scheme : scheme;
  sp_kind : kind
}.

(** A file. [mf_chain]: its sectors; [mf_data]: its contents, or for a relative
    or GEOS file the sectors one after the other. *)
Record mfile := mk_mfile {
  mf_attr : attributes;
  mf_name : list nat;
  mf_extra : list nat;
  mf_size : nat;
  mf_chain : list location;
  mf_data : list nat;
  mf_special : option special
}.

Record mdisk := mk_mdisk {
  md_header : header;
  md_dir : list location;
  md_slots : list (option mfile)
}.

Definition mf_first (f : mfile) : location :=
  match mf_special f with Some x => sp_first x | None => hd (0, 0) (mf_chain f) end.
Definition mf_extras (f : mfile) : extra :=
  match mf_special f with Some x => sp_extra x | None => XLinear (mf_extra f) end.
Definition mf_scheme (f : mfile) : scheme :=
  match mf_special f with Some x => sp_scheme x | None => SLinear end.
Definition mf_entry (f : mfile) (p : option position) : dirent :=
  mk_dirent (mf_attr f) (mf_first f) (mf_name f) (mf_extras f) (mf_size f) p (mf_scheme f) false.

Definition special_entry (x : special) : dirent :=
  mk_dirent (mk_attr DEL false false false false) (sp_first x) [] (sp_extra x) 0 None (sp_scheme x) false.

Definition raw_of (d : dev) (ls : list location) : list nat :=
  concat (map (fun l => match sector d l with Ok b => b | _ => [] end) ls).

(** The sectors of the file hold its contents. Those of a relative or GEOS file
    are found, and it reads the same, whatever the other sectors hold. *)
Definition contents (t : disk_type) (d : dev) (f : mfile) : Prop :=
  match mf_special f with
  | None => holds d (mf_chain f) (mf_data f)
  | Some x => sp_scheme x <> SLinear /\ raw_of d (mf_chain f) = mf_data f
      /\ forall d', dev_shape t d' -> d_geom d' = d_geom d -> (forall l, l ∈ mf_chain f -> sector d' l = sector d l) ->
           exists y, file_at d' 0 (special_entry x) = Ok y /\ file_occupied d' y = Ok (mf_chain f) /\ reads_as d' y (sp_kind x)
  end.

Lemma raw_ext d d' ls : (forall l, l ∈ ls -> sector d' l = sector d l) -> raw_of d' ls = raw_of d ls.
Proof.
  intros H. unfold raw_of. f_equal. apply map_ext_in. intros l Hl. rewrite H; [done|]. by apply elem_of_list_In.
Qed.

Lemma contents_ext t d d' f :
  contents t d f -> dev_shape t d' -> d_geom d' = d_geom d -> (forall l, l ∈ mf_chain f -> sector d' l = sector d l) ->
  contents t d' f.
Proof.
  unfold contents. intros H Hd Hg Hs. destruct (mf_special f) as [x|]; [|by eapply holds_ext].
  destruct H as (Hx & Hr & H). split; [done|]. split; [by rewrite (raw_ext d)|].
  intros d2 Hd2 Hg2 Hs2. apply H; [done|congruence|]. intros l Hl. by rewrite Hs2, Hs.
Qed.

Lemma contents_plain t d f : contents t d f -> mf_special f = None -> holds d (mf_chain f) (mf_data f).
Proof. unfold contents. intros H E. by rewrite E in H. Qed.

Definition file_ok (f : mfile) : Prop :=
  entry_ok (mf_entry f None) /\ is_scratched (mf_attr f) = false.

Definition chain_of (o : option mfile) : list location :=
  match o with Some f => mf_chain f | None => [] end.
Definition files_used (slots : list (option mfile)) : list location := concat (map chain_of slots).
(** The border sector of a GEOS disk; the sectors that hold directory slots,
    those of the border sector first. *)
Definition border (m : mdisk) : list location :=
  match h_geos (md_header m) with Some gh => [gh_border gh] | None => [] end.
Definition md_secs (m : mdisk) : list location := border m ++ md_dir m.
Definition used (m : mdisk) : list location := md_secs m ++ files_used (md_slots m).

Definition slot_loc (m : mdisk) (i : nat) : location := md_secs m !!! (i / 8).
Definition slot_off (i : nat) : nat := 32 * (i mod 8).
Definition slot_pos (m : mdisk) (i : nat) : position := mk_position (slot_loc m i) (slot_off i) 32.

(** The 32 bytes of a slot of the block [b]. *)
Definition slot_is (b : list nat) (off : nat) (o : option mfile) : Prop :=
  match o with
  | None => is_scratched (attr_from_byte (b !!! (off + 2))) = true
  | Some f => forall p, dirent_parse (slice off 32 b) p = Ok (mf_entry f p)
  end.

Record view (t : disk_type) (d : dev) (m : mdisk) : Prop := {
  v_shape : dev_shape t d;
  v_writable : d_writable d = true;
  v_header : header_read d (hf t) = Ok (md_header m);
  v_border : Forall (plain t) (border m);
  v_nodup : NoDup (used m);
  v_dirs : Forall (dir_loc t) (md_dir m);
  v_head : head (md_dir m) = Some (first_dir t);
  v_links : links d (md_dir m) (0, 255);
  v_slots : length (md_slots m) = 8 * length (md_secs m);
  v_slot : forall i o, md_slots m !! i = Some o ->
      exists b, sector d (slot_loc m i) = Ok b /\ slot_is b (slot_off i) o;
  v_files : forall i f, md_slots m !! i = Some (Some f) ->
      file_ok f /\ Forall (data_loc t) (mf_chain f) /\ contents t d f
}.

(** ** Accessors *)

Lemma files_used_in slots l :
  l ∈ files_used slots <-> exists i f, slots !! i = Some (Some f) /\ l ∈ mf_chain f.
Proof.
  unfold files_used. rewrite elem_of_list_In, in_concat. split.
  - intros (x & Hx & Hl). apply in_map_iff in Hx as (o & <- & Ho). apply elem_of_list_In in Ho, Hl.
    apply elem_of_list_lookup in Ho as [i Hi]. destruct o as [f|]; [|by apply elem_of_nil in Hl]. eauto.
  - intros (i & f & Hi & Hl). exists (mf_chain f). split; [|by apply elem_of_list_In].
    apply in_map_iff. exists (Some f). split; [done|]. apply elem_of_list_In. by eapply elem_of_list_lookup_2.
Qed.

Lemma used_in m l :
  l ∈ used m <-> l ∈ md_secs m \/ exists i f, md_slots m !! i = Some (Some f) /\ l ∈ mf_chain f.
Proof. unfold used. by rewrite elem_of_app, files_used_in. Qed.

Lemma files_used_split slots i o :
  slots !! i = Some o ->
  files_used slots = files_used (take i slots) ++ chain_of o ++ files_used (drop (S i) slots).
Proof.
  intros H. unfold files_used. rewrite <- (take_drop_middle slots i o H) at 1.
  by rewrite map_app, concat_app.
Qed.

Lemma files_used_insert slots i o :
  i < length slots ->
  files_used (<[i := o]> slots) = files_used (take i slots) ++ chain_of o ++ files_used (drop (S i) slots).
Proof.
  intros H. rewrite insert_take_drop by done. unfold files_used. by rewrite map_app, concat_app.
Qed.

Lemma used_nodup_chain m i f : NoDup (used m) -> md_slots m !! i = Some (Some f) -> NoDup (mf_chain f).
Proof.
  unfold used. intros H Hi. rewrite (files_used_split _ _ _ Hi) in H.
  apply NoDup_app in H as (_ & _ & H). apply NoDup_app in H as (_ & _ & H).
  apply NoDup_app in H as (H & _ & _). done.
Qed.

(** A sector of one file is not in the directory nor in another file. *)
Lemma used_apart_dir m i f l :
  NoDup (used m) -> md_slots m !! i = Some (Some f) -> l ∈ mf_chain f -> l ∉ md_secs m.
Proof.
  intros H Hi Hl Hd. apply NoDup_app in H as (_ & H & _). apply (H l Hd). apply files_used_in. eauto.
Qed.

Lemma files_apart slots i j f g l :
  NoDup (files_used slots) -> slots !! i = Some (Some f) -> slots !! j = Some (Some g) ->
  l ∈ mf_chain f -> l ∈ mf_chain g -> i = j.
Proof.
  revert i j. induction slots as [|o slots IH]; intros i j Hnd Hi Hj Hf Hg; [done|].
  assert (files_used (o :: slots) = chain_of o ++ files_used slots) as E by done.
  rewrite E in Hnd. apply NoDup_app in Hnd as (_ & H1 & H2).
  destruct i as [|i], j as [|j]; simpl in *.
  - done.
  - injection Hi as ->. exfalso. apply (H1 l Hf). apply files_used_in. eauto.
  - injection Hj as ->. exfalso. apply (H1 l Hg). apply files_used_in. eauto.
  - f_equal. by eapply IH.
Qed.

Lemma used_apart_files m i j f g l :
  NoDup (used m) -> md_slots m !! i = Some (Some f) -> md_slots m !! j = Some (Some g) ->
  l ∈ mf_chain f -> l ∈ mf_chain g -> i = j.
Proof. intros H. apply NoDup_app in H as (_ & _ & H). by apply files_apart. Qed.

Lemma dir_secs m l : l ∈ md_dir m -> l ∈ md_secs m.
Proof. unfold md_secs. rewrite elem_of_app. tauto. Qed.
Lemma border_secs m l : l ∈ border m -> l ∈ md_secs m.
Proof. unfold md_secs. rewrite elem_of_app. tauto. Qed.

Lemma slot_loc_in m i : i < 8 * length (md_secs m) -> md_secs m !! (i / 8) = Some (slot_loc m i).
Proof.
  intros H. unfold slot_loc. apply list_lookup_lookup_total_lt. lia.
Qed.

Lemma slot_loc_elem m i : i < 8 * length (md_secs m) -> slot_loc m i ∈ md_secs m.
Proof. intros H. eapply elem_of_list_lookup_2. by apply slot_loc_in. Qed.

Lemma slot_off_bound i : slot_off i + 32 <= 256.
Proof. unfold slot_off. lia. Qed.

Section facts.
  Context (t : disk_type) (d : dev) (m : mdisk) (V : view t d m).

  Lemma view_slot_lt i o : md_slots m !! i = Some o -> i < 8 * length (md_secs m).
  Proof. intros H. apply lookup_lt_Some in H. rewrite (v_slots _ _ _ V) in H. done. Qed.

  Lemma view_dir_nonempty : 1 <= length (md_dir m).
  Proof. pose proof (v_head _ _ _ V) as H. destruct (md_dir m); [done|simpl; lia]. Qed.

  Lemma view_secs_nodup : NoDup (md_secs m).
  Proof. pose proof (v_nodup _ _ _ V) as H. by apply NoDup_app in H as (H & _). Qed.
  Lemma view_dir_nodup : NoDup (md_dir m).
  Proof. pose proof view_secs_nodup as H. by apply NoDup_app in H as (_ & _ & H). Qed.
  Lemma view_border_apart l : l ∈ border m -> l ∉ md_dir m.
  Proof. pose proof view_secs_nodup as H. apply NoDup_app in H as (_ & H & _). apply H. Qed.

  Lemma view_used_plain l : l ∈ used m -> plain t l.
  Proof.
    rewrite used_in. intros [H|(i & f & Hi & H)].
    - unfold md_secs in H. rewrite elem_of_app in H. destruct H as [H|H].
      { pose proof (v_border _ _ _ V) as Hd. rewrite Forall_forall in Hd. by apply Hd. }
      pose proof (v_dirs _ _ _ V) as Hd. rewrite Forall_forall in Hd. by apply dir_plain, Hd.
    - destruct (v_files _ _ _ V i f Hi) as (_ & Hc & _). rewrite Forall_forall in Hc. by apply data_plain, Hc.
  Qed.

  Lemma view_plain_valid l : plain t l -> valid_loc (d_geom d) l = true.
  Proof. intros [H _]. eapply bam_sector_valid; [apply V|done]. Qed.

  Lemma view_chain_tracks i f : md_slots m !! i = Some (Some f) -> Forall (fun l => fst l <> 0) (mf_chain f).
  Proof.
    intros Hi. destruct (v_files _ _ _ V i f Hi) as (_ & Hc & _). eapply Forall_impl; [exact Hc|].
    intros l Hl. by apply (plain_track t), data_plain.
  Qed.

  Lemma view_chain_nodup i f : md_slots m !! i = Some (Some f) -> NoDup (mf_chain f).
  Proof. apply used_nodup_chain. apply V. Qed.

  Lemma view_file_nonempty i f : md_slots m !! i = Some (Some f) -> mf_special f = None -> exists l ls, mf_chain f = l :: ls.
  Proof.
    intros Hi Hk. destruct (v_files _ _ _ V i f Hi) as (_ & _ & Hh). destruct (contents_plain _ _ _ Hh Hk) as [Hne _].
    destruct (mf_chain f) as [|l ls]; [done|]. eauto.
  Qed.

  Lemma view_file_head i f :
    md_slots m !! i = Some (Some f) -> mf_special f = None -> head (mf_chain f) = Some (hd (0, 0) (mf_chain f)).
  Proof. intros Hi Hk. destruct (view_file_nonempty i f Hi Hk) as (l & ls & ->). done. Qed.

  Lemma view_file_sound i f :
    md_slots m !! i = Some (Some f) -> mf_special f = None -> sound_chain d (hd (0, 0) (mf_chain f)) (mf_chain f).
  Proof.
    intros Hi Hk. destruct (v_files _ _ _ V i f Hi) as (_ & _ & Hh).
    eapply holds_sound; [by eapply view_chain_nodup|by eapply view_chain_tracks|by eapply contents_plain|by eapply view_file_head].
  Qed.

  Lemma view_file_read i f :
    md_slots m !! i = Some (Some f) -> mf_special f = None -> read_all d (hd (0, 0) (mf_chain f)) = Ok (mf_data f).
  Proof.
    intros Hi Hk. destruct (v_files _ _ _ V i f Hi) as (_ & _ & Hh).
    eapply holds_read; [apply V|by eapply view_chain_nodup|by eapply view_chain_tracks|by eapply contents_plain|by eapply view_file_head].
  Qed.

  Lemma view_dir_sound : sound_chain d (first_dir t) (md_dir m).
  Proof.
    eapply links_sound; [apply view_dir_nodup| |apply (v_links _ _ _ V)|done|apply V].
    eapply Forall_impl; [apply (v_dirs _ _ _ V)|]. intros l Hl. by apply (plain_track t), dir_plain.
  Qed.

  Lemma view_last_dir : exists l, last (md_dir m) = Some l /\ l ∈ md_dir m.
  Proof.
    destruct (last_index (md_dir m)) as (l & Hl & Hla).
    { pose proof view_dir_nonempty. by destruct (md_dir m); [simpl in *; lia|]. }
    exists l. split; [done|]. by eapply elem_of_list_lookup_2.
  Qed.
End facts.

(** ** Sector writes *)

Lemma header_read_sector d d' f :
  sector d' (hf_location f) = sector d (hf_location f) -> header_read d' f = header_read d f.
Proof. intros H. unfold header_read. by rewrite H. Qed.

Lemma bam_read_sector d d' f :
  (forall l, bam_loc (bam_sections f) l -> sector d' l = sector d l) -> bam_read d' f = bam_read d f.
Proof.
  intros H. unfold bam_read.
  assert (bam_read_sections d' (bam_sections f) = bam_read_sections d (bam_sections f)) as ->; [|done].
  induction (bam_sections f) as [|s ss IH]; [done|]. cbn [bam_read_sections].
  rewrite IH by (intros l (s' & Hs' & Hl); apply H; exists s'; split; [by right|done]).
  unfold bam_read_section. rewrite !H; [done| |]; (exists s; split; [by left|tauto]).
Qed.

(** Writing a sector that is not used. *)
Lemma view_write_unused t d m l b :
  view t d m -> plain t l -> l ∉ used m -> length b = 256 -> view t (upd d l b) m.
Proof.
  intros V Hl Hnu Hb. pose proof (view_plain_valid _ _ _ V _ Hl) as Hv. destruct Hl as [Hl1 Hl2].
  assert (forall l', l' ∈ used m -> sector (upd d l b) l' = sector d l') as Hs.
  { intros l' Hl'. apply (sector_upd_other t); [apply V|by intros ->|done]. }
  split; try apply V.
  - apply upd_shape; [apply V|done].
  - rewrite <- (v_header _ _ _ V). apply header_read_sector. apply (sector_upd_other t); [apply V| |done].
    intros ->. apply Hl2. apply header_loc_sys.
  - eapply links_ext; [apply (v_links _ _ _ V)|]. intros l' Hl'. apply Hs. apply used_in. left. by apply dir_secs.
  - intros i o Hi. rewrite Hs; [by apply (v_slot _ _ _ V)|]. apply used_in. left.
    apply slot_loc_elem. by eapply view_slot_lt.
  - intros i f Hi. destruct (v_files _ _ _ V i f Hi) as (Hok & Hc & Hh). split; [done|]. split; [done|].
    eapply contents_ext; [done|by apply upd_shape; [apply V|]|done|]. intros l' Hl'. apply Hs. apply used_in. right. eauto.
Qed.

(** Replacing a slot in the model. *)
Definition set_slot (i : nat) (o : option mfile) (m : mdisk) : mdisk :=
  mk_mdisk (md_header m) (md_dir m) (<[i := o]> (md_slots m)).

Definition set_chain (ls : list location) (data : list nat) (f : mfile) : mfile :=
  mk_mfile (mf_attr f) (mf_name f) (mf_extra f) (mf_size f) ls data (mf_special f).

Lemma hd_app_nonempty {A} (x : A) l l' : l <> [] -> hd x (l ++ l') = hd x l.
Proof. by destruct l. Qed.

(** Rewriting the last block of a file. *)
Lemma view_write_tail t d m i f l b data' :
  view t d m -> md_slots m !! i = Some (Some f) -> mf_special f = None -> last (mf_chain f) = Some l ->
  length b = 256 ->
  take (254 * (length (mf_chain f) - 1)) data' = take (254 * (length (mf_chain f) - 1)) (mf_data f) ->
  b !!! 0 = 0 -> b !!! 1 = S (length data' - 254 * (length (mf_chain f) - 1)) ->
  slice 2 (length data' - 254 * (length (mf_chain f) - 1)) b = drop (254 * (length (mf_chain f) - 1)) data' ->
  254 * (length (mf_chain f) - 1) <= length data' <= 254 * length (mf_chain f) ->
  view t (upd d l b) (set_slot i (Some (set_chain (mf_chain f) data' f)) m).
Proof.
  intros V Hi Hpl0 Hla Hb Htk H0 H1 H2 Hlen.
  assert (l ∈ mf_chain f) as Hlf.
  { rewrite last_lookup in Hla. by eapply elem_of_list_lookup_2. }
  assert (l ∈ used m) as Hlu by (apply used_in; right; eauto).
  pose proof (view_used_plain _ _ _ V _ Hlu) as Hpl.
  pose proof (view_plain_valid _ _ _ V _ Hpl) as Hv. destruct Hpl as [Hl1 Hl2].
  pose proof (lookup_lt_Some _ _ _ Hi) as Hilt.
  assert (forall l', l' <> l -> sector (upd d l b) l' = sector d l') as Hs.
  { intros l' Hl'. apply (sector_upd_other t); [apply V|done|done]. }
  assert (l ∉ md_secs m) as Hnd by (eapply used_apart_dir; [apply V|done|done]).
  split; cbn [set_slot md_header md_dir md_slots]; try apply V.
  - apply upd_shape; [apply V|done].
  - rewrite <- (v_header _ _ _ V). apply header_read_sector. apply Hs.
    intros <-. apply Hl2. apply header_loc_sys.
  - unfold used. change (md_secs (set_slot _ _ m)) with (md_secs m). cbn [set_slot md_slots]. rewrite files_used_insert by done. cbn [chain_of set_chain mf_chain].
    pose proof (v_nodup _ _ _ V) as Hu. unfold used in Hu. by rewrite (files_used_split _ _ _ Hi) in Hu.
  - eapply links_ext; [apply (v_links _ _ _ V)|]. intros l' Hl'. apply Hs. intros ->. by apply Hnd, dir_secs.
  - rewrite insert_length. apply V.
  - intros j o Hj. change (slot_loc _ j) with (slot_loc m j).
    assert (j < 8 * length (md_secs m)) as Hjl.
    { apply lookup_lt_Some in Hj. rewrite insert_length, (v_slots _ _ _ V) in Hj. done. }
    pose proof (slot_loc_elem m j Hjl) as Hje.
    rewrite Hs by (by intros E; rewrite E in Hje). destruct (decide (i = j)) as [<-|Hne].
    + rewrite list_lookup_insert in Hj by done. injection Hj as <-.
      destruct (v_slot _ _ _ V i _ Hi) as (b' & Hb' & Hsl). exists b'. split; [done|]. exact Hsl.
    + rewrite list_lookup_insert_ne in Hj by done. by apply (v_slot _ _ _ V).
  - intros j g Hj. destruct (decide (i = j)) as [<-|Hne].
    + rewrite list_lookup_insert in Hj by done. injection Hj as <-. cbn [set_chain mf_chain mf_data].
      destruct (v_files _ _ _ V i f Hi) as (Hok & Hc & Hh). split; [exact Hok|]. split; [done|].
      unfold contents. cbn [set_chain mf_special mf_chain mf_data]. rewrite Hpl0.
      eapply holds_tail_write; try done; [apply V|by eapply view_chain_nodup|by eapply contents_plain].
    + rewrite list_lookup_insert_ne in Hj by done.
      destruct (v_files _ _ _ V j g Hj) as (Hok & Hc & Hh). split; [done|]. split; [done|].
      eapply contents_ext; [done|by apply upd_shape; [apply V|]|done|]. intros l' Hl'. apply Hs. intros ->. apply Hne.
      by eapply used_apart_files; [apply V| | | |].
Qed.

(** Linking a new last sector to a file whose last block is full. *)
Lemma view_write_link t d m i f l n b bn data' :
  view t d m -> md_slots m !! i = Some (Some f) -> mf_special f = None -> last (mf_chain f) = Some l ->
  length (mf_data f) = 254 * length (mf_chain f) ->
  data_loc t n -> n ∉ used m ->
  sector d l = Ok b -> sector d n = Ok bn -> bn !!! 0 = 0 -> bn !!! 1 = S (length data') ->
  slice 2 (length data') bn = data' -> length data' <= 254 ->
  view t (upd d l (write_loc n b))
    (set_slot i (Some (set_chain (mf_chain f ++ [n]) (mf_data f ++ data') f)) m).
Proof.
  intros V Hi Hpl0 Hla Hfull Hdn Hnn Hsl Hsn H0 H1 H2 Hlen.
  assert (l ∈ mf_chain f) as Hlf.
  { rewrite last_lookup in Hla. by eapply elem_of_list_lookup_2. }
  assert (l ∈ used m) as Hlu by (apply used_in; right; eauto).
  pose proof (view_used_plain _ _ _ V _ Hlu) as Hpl.
  pose proof (view_plain_valid _ _ _ V _ Hpl) as Hv. destruct Hpl as [Hl1 Hl2].
  pose proof (lookup_lt_Some _ _ _ Hi) as Hilt.
  pose proof (sector_Ok_length t d l b (v_shape _ _ _ V) Hsl) as Hlb.
  assert (length (write_loc n b) = 256) as Hlw by (unfold write_loc; rewrite length_splice; simpl; lia).
  assert (forall l', l' <> l -> sector (upd d l (write_loc n b)) l' = sector d l') as Hs.
  { intros l' Hl'. apply (sector_upd_other t); [apply V|done|done]. }
  assert (l ∉ md_secs m) as Hnd by (eapply used_apart_dir; [apply V|done|done]).
  split; cbn [set_slot md_header md_dir md_slots]; try apply V.
  - apply upd_shape; [apply V|]. unfold write_loc. rewrite length_splice; simpl; lia.
  - rewrite <- (v_header _ _ _ V). apply header_read_sector. apply Hs.
    intros <-. apply Hl2. apply header_loc_sys.
  - unfold used. change (md_secs (set_slot _ _ m)) with (md_secs m). cbn [set_slot md_slots]. rewrite files_used_insert by done. cbn [chain_of set_chain mf_chain].
    pose proof (v_nodup _ _ _ V) as Hu. unfold used in Hu, Hnn. rewrite (files_used_split _ _ _ Hi) in Hu, Hnn.
    cbn [chain_of] in *.
    assert (md_secs m ++ files_used (take i (md_slots m)) ++ (mf_chain f ++ [n]) ++ files_used (drop (S i) (md_slots m))
      ≡ₚ n :: (md_secs m ++ files_used (take i (md_slots m)) ++ mf_chain f ++ files_used (drop (S i) (md_slots m)))) as ->;
      [|by constructor]. solve_Permutation.
  - eapply links_ext; [apply (v_links _ _ _ V)|]. intros l' Hl'. apply Hs. intros ->. by apply Hnd, dir_secs.
  - rewrite insert_length. apply V.
  - intros j o Hj. change (slot_loc _ j) with (slot_loc m j).
    assert (j < 8 * length (md_secs m)) as Hjl.
    { apply lookup_lt_Some in Hj. rewrite insert_length, (v_slots _ _ _ V) in Hj. done. }
    pose proof (slot_loc_elem m j Hjl) as Hje.
    rewrite Hs by (by intros E; rewrite E in Hje). destruct (decide (i = j)) as [<-|Hne].
    + rewrite list_lookup_insert in Hj by done. injection Hj as <-.
      destruct (v_slot _ _ _ V i _ Hi) as (b' & Hb' & Hsl'). exists b'. split; [done|].
      intros p. rewrite (Hsl' p). unfold mf_entry, mf_first, mf_extras, mf_scheme, set_chain. cbn [mf_special mf_chain].
      rewrite Hpl0, hd_app_nonempty; [done|].
      by destruct (view_file_nonempty _ _ _ V i f Hi Hpl0) as (? & ? & ->).
    + rewrite list_lookup_insert_ne in Hj by done. by apply (v_slot _ _ _ V).
  - intros j g Hj. destruct (decide (i = j)) as [<-|Hne].
    + rewrite list_lookup_insert in Hj by done. injection Hj as <-. cbn [set_chain mf_chain mf_data].
      destruct (v_files _ _ _ V i f Hi) as (Hok & Hc & Hh). split; [|split].
      * unfold file_ok, mf_entry, mf_first, mf_extras, mf_scheme in *.
        cbn [mf_attr mf_name mf_extra mf_size mf_chain mf_special set_chain]. rewrite Hpl0 in *.
        rewrite hd_app_nonempty; [done|]. by destruct (view_file_nonempty _ _ _ V i f Hi Hpl0) as (? & ? & ->).
      * apply Forall_app. split; [done|]. by constructor.
      * unfold contents. cbn [set_chain mf_special mf_chain mf_data]. rewrite Hpl0.
        eapply holds_extend; try done; [apply V| |by eapply contents_plain]. apply NoDup_app. split; [by eapply view_chain_nodup|].
        split; [|apply NoDup_singleton]. intros x Hx Hx'. apply elem_of_list_singleton in Hx'. subst x.
        apply Hnn. apply used_in. right. eauto.
    + rewrite list_lookup_insert_ne in Hj by done.
      destruct (v_files _ _ _ V j g Hj) as (Hok & Hc & Hh). split; [done|]. split; [done|].
      eapply contents_ext; [done|by apply upd_shape; [apply V|]|done|]. intros l' Hl'. apply Hs. intros ->. apply Hne.
      by eapply used_apart_files; [apply V| | | |].
Qed.

(** Two slots have different bytes. *)
Lemma slot_apart i j : i <> j -> i / 8 = j / 8 -> slot_off i + 32 <= slot_off j \/ slot_off j + 32 <= slot_off i.
Proof. unfold slot_off. lia. Qed.

(** Writing bytes 2 to 31 of a slot. *)
Lemma view_write_slot t d m i o' (b bytes : list nat) :
  view t d m -> i < length (md_slots m) -> sector d (slot_loc m i) = Ok b -> length bytes = 32 ->
  take 2 bytes = take 2 (slice (slot_off i) 32 b) ->
  slot_is (splice (slot_off i) bytes b) (slot_off i) o' ->
  NoDup (used (set_slot i o' m)) ->
  (forall f, o' = Some f -> file_ok f /\ Forall (data_loc t) (mf_chain f) /\ contents t d f) ->
  view t (upd d (slot_loc m i) (splice (slot_off i) bytes b)) (set_slot i o' m).
Proof.
  intros V Hi Hsb Hlby Htk Hsi Hnd' Hnew.
  assert (i < 8 * length (md_secs m)) as Hi8 by (by rewrite (v_slots _ _ _ V) in Hi).
  pose proof (slot_loc_elem m i Hi8) as Hle. set (l := slot_loc m i) in *.
  assert (l ∈ used m) as Hlu by (apply used_in; by left).
  pose proof (view_used_plain _ _ _ V _ Hlu) as Hpl.
  pose proof (view_plain_valid _ _ _ V _ Hpl) as Hv. destruct Hpl as [Hl1 Hl2].
  pose proof (sector_Ok_length t d l b (v_shape _ _ _ V) Hsb) as Hlb.
  pose proof (slot_off_bound i) as Hob.
  set (b' := splice (slot_off i) bytes b) in *.
  assert (length b' = 256) as Hlb' by (unfold b'; rewrite length_splice; lia).
  assert (forall l', l' <> l -> sector (upd d l b') l' = sector d l') as Hs.
  { intros l' Hl'. apply (sector_upd_other t); [apply V|done|done]. }
  assert (sector (upd d l b') l = Ok b') as Hsl by (eapply sector_upd_same; [apply V|done]).
  assert (forall k, k < 2 -> b' !!! k = b !!! k) as Hlink.
  { intros k Hk. unfold b'. rewrite lookup_total_splice by lia.
    destruct (decide (slot_off i = 0)) as [E|E].
    - rewrite E in *. case_decide; [|done]. rewrite Nat.sub_0_r.
      pose proof (f_equal (fun x => x !!! k) Htk) as Hx. cbn beta in Hx.
      rewrite !lookup_total_take in Hx by done. rewrite Hx, lookup_total_slice by lia. done.
    - case_decide; [|done]. unfold slot_off in *. lia. }
  split; cbn [set_slot md_header md_dir md_slots]; try apply V.
  - apply upd_shape; [apply V|done].
  - rewrite <- (v_header _ _ _ V). apply header_read_sector. apply Hs.
    intros <-. apply Hl2. apply header_loc_sys.
  - done.
  - eapply links_write; [apply V|apply V|done| |]; apply Hlink; lia.
  - rewrite insert_length. apply V.
  - intros j o Hj. change (slot_loc _ j) with (slot_loc m j).
    assert (j < 8 * length (md_secs m)) as Hjl.
    { apply lookup_lt_Some in Hj. rewrite insert_length, (v_slots _ _ _ V) in Hj. done. }
    destruct (decide (i = j)) as [<-|Hne].
    + rewrite list_lookup_insert in Hj by done. injection Hj as <-. fold l. rewrite Hsl. eauto.
    + rewrite list_lookup_insert_ne in Hj by done.
      destruct (v_slot _ _ _ V j o Hj) as (bj & Hbj & Hoj).
      destruct (decide (slot_loc m j = l)) as [E|E].
      * rewrite E in *. rewrite Hsl. rewrite Hsb in Hbj. apply Ok_inj in Hbj as <-. exists b'. split; [done|].
        assert (i / 8 = j / 8) as E8.
        { pose proof (slot_loc_in m j Hjl) as Hj8. pose proof (slot_loc_in m i Hi8) as Hii.
          fold l in Hii. rewrite E in Hj8. by eapply NoDup_lookup; [apply (view_secs_nodup _ _ _ V)| |]. }
        pose proof (slot_apart i j Hne E8) as Hap. pose proof (slot_off_bound j) as Hobj.
        unfold slot_is in *. destruct o as [f|].
        -- intros p. unfold b'. rewrite slice_splice_other by lia. apply Hoj.
        -- unfold b'. rewrite lookup_total_splice by lia. case_decide; [lia|done].
      * rewrite Hs by done. eauto.
  - intros j g Hj.
    assert (forall g, contents t d g -> l ∉ mf_chain g -> contents t (upd d l b') g) as Hfr.
    { intros g' Hh Hn. eapply contents_ext; [done|by apply upd_shape; [apply V|]|done|]. intros l' Hl'. apply Hs. by intros ->. }
    destruct (decide (i = j)) as [<-|Hne].
    + rewrite list_lookup_insert in Hj by done. injection Hj as ->.
      destruct (Hnew g eq_refl) as (Hok & Hc & Hh). split; [done|]. split; [done|]. apply Hfr; [done|].
      intros Hlg. apply (used_apart_dir (set_slot i (Some g) m) i g l Hnd'); [|done|done].
      cbn [set_slot md_slots]. by apply list_lookup_insert.
    + rewrite list_lookup_insert_ne in Hj by done.
      destruct (v_files _ _ _ V j g Hj) as (Hok & Hc & Hh). split; [done|]. split; [done|]. apply Hfr; [done|].
      intros Hlg. by apply (used_apart_dir m j g l (v_nodup _ _ _ V) Hj Hlg).
Qed.

(** Linking a new directory sector whose slots are empty. *)
Definition grow_dir (n : location) (m : mdisk) : mdisk :=
  mk_mdisk (md_header m) (md_dir m ++ [n]) (md_slots m ++ repeat None 8).

Lemma secs_grow n m : md_secs (grow_dir n m) = md_secs m ++ [n].
Proof. unfold md_secs, border. cbn [grow_dir md_header md_dir]. by rewrite app_assoc. Qed.

Lemma files_used_app a b : files_used (a ++ b) = files_used a ++ files_used b.
Proof. unfold files_used. by rewrite map_app, concat_app. Qed.
Lemma files_used_none n : files_used (repeat None n) = [].
Proof. induction n; done. Qed.

Lemma view_write_dir t d m l n b (bn : list nat) :
  view t d m -> last (md_dir m) = Some l -> dir_loc t n -> n ∉ used m ->
  sector d l = Ok b -> sector d n = Ok bn -> bn !!! 0 = 0 -> bn !!! 1 = 255 ->
  (forall k, k < 8 -> is_scratched (attr_from_byte (bn !!! (32 * k + 2))) = true) ->
  view t (upd d l (write_loc n b)) (grow_dir n m).
Proof.
  intros V Hla Hdn Hnn Hsl Hsn H0 H1 Hscr.
  assert (l ∈ md_dir m) as Hld.
  { rewrite last_lookup in Hla. by eapply elem_of_list_lookup_2. }
  assert (l ∈ used m) as Hlu by (apply used_in; left; by apply dir_secs).
  pose proof (view_used_plain _ _ _ V _ Hlu) as Hpl.
  pose proof (view_plain_valid _ _ _ V _ Hpl) as Hv. destruct Hpl as [Hl1 Hl2].
  pose proof (sector_Ok_length t d l b (v_shape _ _ _ V) Hsl) as Hlb.
  assert (n <> l) as Hnl by (by intros ->).
  assert (forall l', l' <> l -> sector (upd d l (write_loc n b)) l' = sector d l') as Hs.
  { intros l' Hl'. apply (sector_upd_other t); [apply V|done|done]. }
  assert (sector (upd d l (write_loc n b)) l = Ok (write_loc n b)) as Hsl' by (eapply sector_upd_same; [apply V|done]).
  assert (length (write_loc n b) = 256) as Hlw by (unfold write_loc; rewrite length_splice; simpl; lia).
  assert (NoDup (md_dir m ++ [n])) as Hndd.
  { apply NoDup_app. split; [apply (view_dir_nodup _ _ _ V)|]. split; [|apply NoDup_singleton].
    intros x Hx Hx'. apply elem_of_list_singleton in Hx' as ->. apply Hnn, used_in. left. by apply dir_secs. }
  pose proof (v_slots _ _ _ V) as Hsz.
  split; cbn [grow_dir md_header md_dir md_slots]; try apply V.
  - apply upd_shape; [apply V|done].
  - rewrite <- (v_header _ _ _ V). apply header_read_sector. apply Hs.
    intros <-. apply Hl2. apply header_loc_sys.
  - unfold used. rewrite secs_grow. cbn [grow_dir md_slots]. rewrite files_used_app, files_used_none, app_nil_r.
    pose proof (v_nodup _ _ _ V) as Hu. unfold used in Hu, Hnn.
    assert ((md_secs m ++ [n]) ++ files_used (md_slots m) ≡ₚ n :: (md_secs m ++ files_used (md_slots m))) as ->;
      [|by constructor]. solve_Permutation.
  - apply Forall_app. split; [apply V|]. by constructor.
  - pose proof (v_head _ _ _ V) as Hh. by destruct (md_dir m).
  - eapply links_extend; try done; apply V.
  - rewrite secs_grow. rewrite !app_length, repeat_length. simpl. lia.
  - intros j o Hj. unfold slot_loc. rewrite secs_grow.
    destruct (decide (j < length (md_slots m))) as [Hjl|Hjl].
    + rewrite lookup_app_l in Hj by done. rewrite lookup_total_app_l by lia.
      destruct (v_slot _ _ _ V j o Hj) as (bj & Hbj & Hoj). unfold slot_loc in Hbj.
      set (lj := md_secs m !!! (j / 8)) in *. destruct (decide (lj = l)) as [E|E].
      * rewrite E in *. rewrite Hsl'. rewrite Hsl in Hbj. apply Ok_inj in Hbj as <-. eexists. split; [done|].
        unfold slot_is in *. destruct o as [f|].
        -- intros p. rewrite <- (Hoj p). unfold dirent_parse.
           pose proof (slot_off_bound j) as Hobj.
           rewrite !length_slice by lia.
           assert (forall k, 2 <= k < 32 -> slice (slot_off j) 32 (write_loc n b) !!! k = slice (slot_off j) 32 b !!! k) as Hk.
           { intros k Hk. rewrite !lookup_total_slice by lia. unfold write_loc.
             rewrite lookup_total_splice by (simpl; lia). simpl. case_decide; [lia|done]. }
           assert (forall o n', 2 <= o -> o + n' <= 32 ->
             slice o n' (slice (slot_off j) 32 (write_loc n b)) = slice o n' (slice (slot_off j) 32 b)) as Hsl2.
           { intros o n' Ho Hn'. apply byte_slice_ext; rewrite ?length_slice by lia; try lia.
             intros k Hk'. apply Hk. lia. }
           unfold entry_scheme, is_entry_geos, is_entry_vlir, ENTRY_FILE_ATTRIBUTE_OFFSET, ENTRY_FIRST_SECTOR_OFFSET,
             ENTRY_FILENAME_OFFSET, ENTRY_FILENAME_LENGTH, ENTRY_EXTRA_OFFSET, EXTRA_SIZE, ENTRY_FILE_SIZE_OFFSET.
           cbn [Nat.add]. rewrite !Hsl2 by lia. rewrite !Hk by lia. done.
        -- unfold write_loc. rewrite lookup_total_splice by (simpl; pose proof (slot_off_bound j); lia). simpl.
           case_decide; [lia|done].
      * rewrite Hs by done. eauto.
    + rewrite lookup_app_r in Hj by lia. pose proof (lookup_lt_Some _ _ _ Hj) as Hj8.
      rewrite repeat_length in Hj8. apply elem_of_list_lookup_2, elem_of_list_In, repeat_spec in Hj. subst o.
      assert (j / 8 = length (md_secs m)) as E8 by lia.
      rewrite lookup_total_app_r by lia. rewrite E8, Nat.sub_diag. cbn [lookup_total list_lookup_total].
      rewrite Hs by done. exists bn. split; [done|]. unfold slot_is, slot_off. apply Hscr. lia.
  - intros j g Hj. assert (j < length (md_slots m)) as Hjl.
    { destruct (decide (j < length (md_slots m))); [done|]. rewrite lookup_app_r in Hj by lia.
      apply elem_of_list_lookup_2, elem_of_list_In, repeat_spec in Hj. done. }
    rewrite lookup_app_l in Hj by done.
    destruct (v_files _ _ _ V j g Hj) as (Hok & Hc & Hh). split; [done|]. split; [done|].
    eapply contents_ext; [done|by apply upd_shape; [apply V|]|done|]. intros l' Hl'. apply Hs. intros ->.
    by apply (used_apart_dir m j g l (v_nodup _ _ _ V) Hj Hl'), dir_secs.
Qed.

(** Writing the BAM. *)
Lemma view_bam_closed t m : bam_closed t (fun d => view t d m).
Proof.
  intros d l b Hd V (Hb & Hv & Hl & Hk).
  assert (forall l', ~ sys t l' -> sector (upd d l b) l' = sector d l') as Hs.
  { intros l' Hl'. apply (sector_upd_other t); [apply V| |done]. intros ->. by apply Hl', bam_loc_sys. }
  assert (forall l', l' ∈ used m -> sector (upd d l b) l' = sector d l') as Hs'.
  { intros l' Hl'. apply Hs. by apply (view_used_plain _ _ _ V). }
  split; try apply V.
  - by apply upd_shape.
  - rewrite <- (v_header _ _ _ V). apply header_ext; [done|by apply upd_shape|].
    intros i Hi. rewrite (image_byte_upd t) by done. case_decide as E; [|done]. subst l. by apply Hk.
  - eapply links_ext; [apply (v_links _ _ _ V)|]. intros l' Hl'. apply Hs'. apply used_in. left. by apply dir_secs.
  - intros i o Hi. rewrite Hs'; [by apply (v_slot _ _ _ V)|]. apply used_in. left.
    apply slot_loc_elem. by eapply view_slot_lt.
  - intros i f Hi. destruct (v_files _ _ _ V i f Hi) as (Hok & Hc & Hh). split; [done|]. split; [done|].
    eapply contents_ext; [done|by apply upd_shape; [apply V|]|done|]. intros l' Hl'. apply Hs'. apply used_in. right. eauto.
Qed.
