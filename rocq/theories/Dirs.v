(** The directory of an image that has a view: iteration, lookup and free slots. *)
From Verif Require Import Base ListFacts Layout Block Bam Chain GeosTypes Petscii DirEntry Header World Directory Spec SpecCodec SpecChain
  SpecBam GeomFacts FlatProofs DevFacts EntryProofs HeaderProofs ChainProofs BamProofs Evolve Holds View.
Ltac Zify.zify_post_hook ::= Z.div_mod_to_equations.

Definition slot_at (m : mdisk) (i : nat) : option mfile := mjoin (md_slots m !! i).

Lemma slot_at_Some m i f : slot_at m i = Some f <-> md_slots m !! i = Some (Some f).
Proof. unfold slot_at. destruct (md_slots m !! i) as [[g|]|]; simpl; split; congruence. Qed.

(** The slots of the border sector come first. *)
Definition border_slots (m : mdisk) : nat := 8 * length (border m).
Definition entry_at (m : mdisk) (i : nat) (f : mfile) : dirent :=
  mk_dirent (mf_attr f) (mf_first f) (mf_name f) (mf_extras f) (mf_size f) (Some (slot_pos m i)) (mf_scheme f) (i <? border_slots m).
Definition slot_entry (m : mdisk) (i : nat) : list dirent :=
  match slot_at m i with Some f => [entry_at m i f] | None => [] end.

(** The slots in the order they are listed: those of the border sector last. *)
Definition slot_order (m : mdisk) : list nat :=
  seq (border_slots m) (8 * length (md_dir m)) ++ seq 0 (border_slots m).
(** The directory entries. *)
Definition m_entries (m : mdisk) : list dirent := concat (map (slot_entry m) (slot_order m)).

Lemma secs_length m : length (md_secs m) = length (border m) + length (md_dir m).
Proof. unfold md_secs. apply app_length. Qed.
Lemma secs_dir m k : md_secs m !! (length (border m) + k) = md_dir m !! k.
Proof. unfold md_secs. rewrite lookup_app_r by lia. f_equal. lia. Qed.

(** ** Chunks *)

Lemma chunks_spec {A} fuel n k (l : list A) :
  0 < n -> length l = n * k -> k <= fuel ->
  chunks_fuel fuel n l = map (fun j => slice (n * j) n l) (seq 0 k).
Proof.
  intros Hn. revert fuel l. induction k as [|k IH]; intros fuel l Hl Hk.
  { destruct l; [|simpl in Hl; lia]. by destruct fuel. }
  destruct fuel as [|fuel]; [lia|]. cbn [chunks_fuel]. destruct l as [|x l]; [simpl in Hl; lia|].
  rewrite IH by (rewrite ?drop_length; lia). cbn [seq map]. f_equal.
  - unfold slice. by rewrite Nat.mul_0_r.
  - rewrite <- seq_shift, map_map. apply map_ext. intros j. unfold slice. rewrite drop_drop. f_equal. f_equal. lia.
Qed.

Lemma chunks_block (b : list nat) :
  length b = 256 -> chunks ENTRY_SIZE b = map (fun j => slice (32 * j) 32 b) (seq 0 8).
Proof. intros H. unfold chunks. apply chunks_spec; unfold ENTRY_SIZE; lia. Qed.

Lemma parse_attr bytes p :
  length bytes = 32 -> exists e, dirent_parse bytes p = Ok e /\ de_attr e = attr_from_byte (bytes !!! 2) /\ de_pos e = p.
Proof. intros H. unfold dirent_parse. rewrite H. eexists. done. Qed.

(** ** One sector *)

(** [b] is sector [k] of those with slots, with slots [8 * k] to [8 * k + 7]. *)
Definition sector_slots (m : mdisk) (k : nat) (b : list nat) : Prop :=
  length b = 256 /\ forall j, j < 8 -> slot_is b (32 * j) (slot_at m (8 * k + j)).

Lemma slot_div k j : j < 8 -> (8 * k + j) / 8 = k.
Proof. lia. Qed.
Lemma slot_mod k j : j < 8 -> slot_off (8 * k + j) = 32 * j.
Proof. unfold slot_off. lia. Qed.

Lemma slot_parse m k b j p :
  sector_slots m k b -> j < 8 ->
  match slot_at m (8 * k + j) with
  | Some f => dirent_parse (slice (32 * j) 32 b) p = Ok (mf_entry f p)
  | None => exists e, dirent_parse (slice (32 * j) 32 b) p = Ok e /\ is_scratched (de_attr e) = true /\ de_pos e = p
  end.
Proof.
  intros [Hl H] Hj. specialize (H j Hj). unfold slot_is in H. destruct (slot_at m (8 * k + j)) as [f|].
  - apply H.
  - destruct (parse_attr (slice (32 * j) 32 b) p) as (e & He & Ha & Hp); [rewrite length_slice; lia|].
    exists e. split; [done|]. split; [|done]. rewrite Ha, lookup_total_slice by lia. done.
Qed.

Lemma sector_entries_view m k b l n j :
  sector_slots m k b -> md_secs m !! k = Some l -> j + n = 8 ->
  (forall i f, slot_at m i = Some f -> is_scratched (mf_attr f) = false) ->
  sector_entries (k <? length (border m)) l ((32 * j) mod 256) (map (fun j => slice (32 * j) 32 b) (seq j n))
  = Ok (concat (map (slot_entry m) (seq (8 * k + j) n))).
Proof.
  intros Hs Hl Hjn Hsc. revert j Hjn. induction n as [|n IH]; intros j Hjn; [done|].
  cbn [seq map sector_entries concat]. rewrite length_slice by (destruct Hs; lia).
  change (negb (32 =? ENTRY_SIZE)) with false. cbn match.
  rewrite (Nat.mod_small (32 * j)) by lia.
  replace ((32 * j + ENTRY_SIZE) mod 256) with ((32 * S j) mod 256) by (unfold ENTRY_SIZE; f_equal; lia).
  pose proof (slot_parse m k b j (Some (mk_position l (32 * j) ENTRY_SIZE)) Hs ltac:(lia)) as Hp.
  rewrite (IH (S j)) by lia. replace (S (8 * k + j)) with (8 * k + S j) by lia.
  assert (slot_pos m (8 * k + j) = mk_position l (32 * j) ENTRY_SIZE) as Hpos.
  { unfold slot_pos, slot_loc. rewrite slot_div, slot_mod by lia. unfold ENTRY_SIZE. f_equal.
    by apply list_lookup_total_correct. }
  assert ((8 * k + j <? border_slots m) = (k <? length (border m))) as Hbd.
  { unfold border_slots. apply eq_true_iff_eq. rewrite !Nat.ltb_lt. lia. }
  unfold slot_entry at 2. destruct (slot_at m (8 * k + j)) as [f|] eqn:E.
  - rewrite Hp. cbn [rbind]. unfold entry_at. rewrite Hpos, Hbd. cbn [set_border de_attr mf_entry].
    rewrite (Hsc _ _ E). done.
  - destruct Hp as (e & -> & He & _). cbn [rbind]. cbn [set_border de_attr]. rewrite He. done.
Qed.

(** ** The whole directory *)

Definition is_geos (m : mdisk) : bool := match h_geos (md_header m) with Some _ => true | None => false end.
Definition m_format (t : disk_type) (m : mdisk) : disk_format := set_geos (is_geos m) (native_format t).

Lemma native_first_dir t : first_directory_location (native_format t) = first_dir t.
Proof. by destruct t. Qed.
Lemma m_first_dir t m : first_directory_location (m_format t m) = first_dir t.
Proof. by destruct t. Qed.

Section dir.
  Context (t : disk_type) (d : dev) (m : mdisk) (V : view t d m).

  Lemma slot_at_file i f : slot_at m i = Some f ->
    file_ok f /\ Forall (data_loc t) (mf_chain f) /\ contents t d f.
  Proof. rewrite slot_at_Some. apply V. Qed.

  Lemma slot_at_scratched i f : slot_at m i = Some f -> is_scratched (mf_attr f) = false.
  Proof. intros H. by apply slot_at_file in H as [[_ H] _]. Qed.

  Lemma sec_block k l : md_secs m !! k = Some l -> exists b, sector d l = Ok b /\ sector_slots m k b.
  Proof.
    intros Hk. pose proof (lookup_lt_Some _ _ _ Hk) as Hlt.
    assert (valid_loc (d_geom d) l = true) as Hv.
    { apply (view_plain_valid _ _ _ V), (view_used_plain _ _ _ V), used_in. left. by eapply elem_of_list_lookup_2. }
    destruct (sector_valid t d l (v_shape _ _ _ V) Hv) as (b & _ & Hb & Hlb).
    exists b. split; [done|]. split; [done|]. intros j Hj.
    destruct (lookup_lt_is_Some_2 (md_slots m) (8 * k + j)) as [o Ho].
    { rewrite (v_slots _ _ _ V). lia. }
    destruct (v_slot _ _ _ V _ _ Ho) as (b' & Hb' & Hsl).
    assert (slot_loc m (8 * k + j) = l) as El.
    { unfold slot_loc. rewrite slot_div by done. by apply list_lookup_total_correct. }
    rewrite El, Hb in Hb'. apply Ok_inj in Hb' as <-. rewrite slot_mod in Hsl by done.
    unfold slot_at. rewrite Ho. done.
  Qed.

  Lemma dir_block k l : md_dir m !! k = Some l ->
    exists b, sector d l = Ok b /\ sector_slots m (length (border m) + k) b /\ used_part b = b.
  Proof.
    intros Hk. rewrite <- secs_dir in Hk. destruct (sec_block _ l Hk) as (b' & Hb' & Hsl). rewrite secs_dir in Hk.
    destruct (v_links _ _ _ V k l Hk) as (b & Hb & H0 & H1).
    rewrite Hb in Hb'. apply Ok_inj in Hb' as <-.
    pose proof (sector_Ok_length t d l b (v_shape _ _ _ V) Hb) as Hlb.
    exists b. split; [done|]. split; [done|].
    unfold used_part. destruct (md_dir m !! S k) as [l'|] eqn:E; simpl in H0, H1.
    - assert (fst l' <> 0).
        { apply (plain_track t). apply dir_plain. pose proof (v_dirs _ _ _ V) as Hd. rewrite Forall_forall in Hd.
          apply Hd. by eapply elem_of_list_lookup_2. }
        destruct (Nat.eqb_spec (b !!! 0) 0); [lia|done].
    - rewrite H0, H1. simpl (0 =? 0). cbn match. apply take_ge. lia.
  Qed.

  (** The sectors the chain iterator delivers. *)
  Definition dir_sectors : list chain_sector := map (fun l => mk_cs (block_of d l) l) (md_dir m).

  Lemma dir_walk : chain_walk d (first_dir t) = (dir_sectors, Ok tt).
  Proof.
    rewrite (walk_sound t d _ (md_dir m) (v_shape _ _ _ V) (view_dir_sound _ _ _ V)). f_equal.
    apply map_ext_in. intros l Hl. apply elem_of_list_In, elem_of_list_lookup in Hl as [k Hk].
    destruct (dir_block k l Hk) as (b & Hb & _ & Hu). unfold block_of. rewrite Hb. by rewrite Hu.
  Qed.

  Lemma on_border_in l : on_border (md_header m) l = true <-> l ∈ border m.
  Proof.
    unfold on_border, border. destruct (h_geos (md_header m)) as [gh|]; [|rewrite elem_of_nil; done].
    rewrite bool_decide_eq_true, elem_of_list_singleton. done.
  Qed.

  (** The border sector, after the directory sectors. *)
  Lemma border_view :
    entries_of_sectors (md_header m) (map (fun l => mk_cs (block_of d l) l) (border m)) (Ok tt)
    = (concat (map (slot_entry m) (seq 0 (border_slots m))), Ok tt).
  Proof.
    destruct (border m) as [|l [|l' ls]] eqn:E.
    - unfold border_slots. by rewrite E.
    - cbn [map entries_of_sectors cs_location cs_data].
      assert (on_border (md_header m) l = true) as -> by (apply on_border_in; rewrite E; by left).
      assert (md_secs m !! 0 = Some l) as Hl by (unfold md_secs; by rewrite E).
      destruct (sec_block 0 l Hl) as (b & Hb & Hsl). unfold block_of. rewrite Hb, chunks_block by apply Hsl.
      pose proof (sector_entries_view m 0 b l 8 0 Hsl Hl eq_refl slot_at_scratched) as Hse.
      change ((32 * 0) mod 256) with 0 in Hse. rewrite E in Hse. cbn [length Nat.ltb Nat.leb] in Hse. rewrite Hse.
      unfold border_slots. rewrite E, app_nil_r. done.
    - unfold border in E. by destruct (h_geos _).
  Qed.

  Lemma entries_app ss ss' es r :
    entries_of_sectors (md_header m) ss (Ok tt) = (es, Ok tt) ->
    entries_of_sectors (md_header m) (ss ++ ss') r
    = (es ++ fst (entries_of_sectors (md_header m) ss' r), snd (entries_of_sectors (md_header m) ss' r)).
  Proof.
    revert es. induction ss as [|s ss IH]; intros es H; cbn [entries_of_sectors app] in *.
    - injection H as <-. by destruct (entries_of_sectors _ _ _).
    - destruct (sector_entries _ _ _ _) as [x| | |]; try done.
      destruct (entries_of_sectors (md_header m) ss (Ok tt)) as [es' r'] eqn:E. injection H as <- ->.
      rewrite (IH es' eq_refl), <- app_assoc. done.
  Qed.

  Lemma entries_view ls k :
    md_dir m = take k (md_dir m) ++ ls -> length (take k (md_dir m)) = k ->
    entries_of_sectors (md_header m) (map (fun l => mk_cs (block_of d l) l) ls) (Ok tt)
    = (concat (map (slot_entry m) (seq (border_slots m + 8 * k) (8 * length ls))), Ok tt).
  Proof.
    revert k. induction ls as [|l ls IH]; intros k E Hk.
    { by rewrite Nat.mul_0_r. }
    cbn [map entries_of_sectors cs_location cs_data].
    assert (md_dir m !! k = Some l) as Hl.
    { rewrite E, lookup_app_r by lia. by rewrite Hk, Nat.sub_diag. }
    destruct (dir_block k l Hl) as (b & Hb & Hsl & _). unfold block_of at 1. rewrite Hb.
    assert (on_border (md_header m) l = false) as ->.
    { apply not_true_iff_false. rewrite on_border_in. intros Hb'. apply (view_border_apart _ _ _ V l Hb'). by eapply elem_of_list_lookup_2. }
    rewrite chunks_block by apply Hsl. pose proof Hl as Hl'. rewrite <- secs_dir in Hl'.
    pose proof (sector_entries_view m _ b l 8 0 Hsl Hl' eq_refl slot_at_scratched) as Hse.
    change ((32 * 0) mod 256) with 0 in Hse. rewrite (proj2 (Nat.ltb_ge (length (border m) + k) (length (border m)))) in Hse by lia.
    rewrite Hse.
    rewrite (IH (S k)).
    - f_equal. cbn [length]. replace (8 * S (length ls)) with (8 + 8 * length ls) by lia.
      rewrite seq_app, map_app, concat_app. rewrite Nat.add_0_r. unfold border_slots. f_equal; do 3 f_equal; lia.
    - rewrite (take_S_r _ _ l) by done. by rewrite <- app_assoc.
    - rewrite (take_S_r _ _ l) by done. rewrite app_length, Hk. simpl. lia.
  Qed.

  Lemma iter_view w :
    w_dev w = d -> w_fmt w = Some (m_format t m) -> w_header w = Some (md_header m) ->
    w_iter w = (m_entries m, Ok tt).
  Proof.
    intros Hd Hf Hh. unfold w_iter, w_disk_format, w_get_header. rewrite Hf, Hh, Hd.
    unfold directory_sectors. rewrite m_first_dir, dir_walk.
    assert (match h_geos (md_header m) with
      | Some gh =>
          match sector d (gh_border gh) with
          | Ok b => (dir_sectors ++ [mk_cs b (gh_border gh)], Ok tt)
          | Err e => (dir_sectors, Err e) | Panic => (dir_sectors, Panic) | NoFuel => (dir_sectors, NoFuel)
          end
      | None => (dir_sectors, Ok tt)
      end = (dir_sectors ++ map (fun l => mk_cs (block_of d l) l) (border m), Ok tt)) as ->.
    { pose proof (sec_block 0) as Hsb. unfold md_secs, border in *. destruct (h_geos (md_header m)) as [gh|].
      - destruct (Hsb _ eq_refl) as (b & Hb & _). cbn [map]. unfold block_of. by rewrite Hb.
      - by rewrite app_nil_r. }
    unfold dir_sectors. erewrite entries_app; [|apply (entries_view (md_dir m) 0); done].
    rewrite border_view. cbn [fst snd]. rewrite Nat.mul_0_r, Nat.add_0_r.
    unfold m_entries, slot_order. by rewrite map_app, concat_app.
  Qed.
End dir.

Lemma in_entries t d m e : view t d m ->
  In e (m_entries m) <-> exists i f, slot_at m i = Some f /\ e = entry_at m i f.
Proof.
  intros V. unfold m_entries. rewrite in_concat. split.
  - intros (x & Hx & He). apply in_map_iff in Hx as (i & <- & _). unfold slot_entry in He.
    destruct (slot_at m i) as [f|] eqn:E; [|done]. destruct He as [<-|[]]. eauto.
  - intros (i & f & Hi & ->). exists (slot_entry m i). split; [|unfold slot_entry; rewrite Hi; by left].
    apply in_map_iff. exists i. split; [done|]. unfold slot_order. apply in_app_iff. rewrite !in_seq. apply slot_at_Some in Hi.
    apply lookup_lt_Some in Hi. rewrite (v_slots _ _ _ V), secs_length in Hi. unfold border_slots. lia.
Qed.

(** No two files with the same name. *)
Definition names_ok (m : mdisk) : Prop :=
  forall i j f g, slot_at m i = Some f -> slot_at m j = Some g -> mf_name f = mf_name g -> i = j.

Lemma find_view t d m w i f :
  view t d m -> names_ok m ->
  w_dev w = d -> w_fmt w = Some (m_format t m) -> w_header w = Some (md_header m) ->
  slot_at m i = Some f -> w_find w (mf_name f) = Ok (entry_at m i f).
Proof.
  intros V Hn Hd Hf Hh Hi. unfold w_find. rewrite (iter_view t d m V w Hd Hf Hh).
  destruct (List.find _ _) as [e|] eqn:E.
  - apply find_some in E as [He Hne]. apply bool_decide_eq_true in Hne.
    apply (in_entries t d) in He as (j & g & Hj & ->); [|done]. cbn [de_name entry_at] in Hne.
    assert (j = i) as -> by (by eapply Hn). rewrite Hi in Hj. by injection Hj as <-.
  - pose proof (find_none _ _ E (entry_at m i f)) as H. cbn beta in H.
    rewrite bool_decide_eq_false in H. exfalso. apply H; [|done]. apply (in_entries t d); [done|]. eauto.
Qed.

Lemma find_view_none t d m w name :
  view t d m -> w_dev w = d -> w_fmt w = Some (m_format t m) -> w_header w = Some (md_header m) ->
  (forall i f, slot_at m i = Some f -> mf_name f <> name) -> w_find w name = Err ENotFound.
Proof.
  intros V Hd Hf Hh Hi. unfold w_find. rewrite (iter_view t d m V w Hd Hf Hh).
  destruct (List.find _ _) as [e|] eqn:E; [|done].
  apply find_some in E as [He Hne]. apply bool_decide_eq_true in Hne.
  apply (in_entries t d) in He as (j & g & Hj & ->); [|done]. by apply Hi in Hj.
Qed.

(** ** The first free slot *)

Fixpoint first_none {A} (l : list (option A)) : option nat :=
  match l with
  | [] => None
  | None :: _ => Some 0
  | Some _ :: l => S <$> first_none l
  end.

Lemma first_none_Some {A} (l : list (option A)) i :
  first_none l = Some i -> l !! i = Some None /\ forall j, j < i -> exists x, l !! j = Some (Some x).
Proof.
  revert i. induction l as [|[x|] l IH]; intros i H; simpl in H; [done| |].
  - destruct (first_none l) as [k|] eqn:E; [|done]. simpl in H. injection H as <-.
    destruct (IH k eq_refl) as [H1 H2]. split; [done|]. intros [|j] Hj; [by exists x|]. apply H2. lia.
  - injection H as <-. split; [done|]. lia.
Qed.

Lemma first_none_None {A} (l : list (option A)) :
  first_none l = None -> forall i o, l !! i = Some o -> o <> None.
Proof.
  induction l as [|[x|] l IH]; intros H i o Hi; simpl in H; [done| |done].
  destruct (first_none l) as [k|] eqn:E; [done|]. destruct i as [|i]; simpl in Hi; [by injection Hi as <-|].
  by eapply IH.
Qed.

Lemma first_none_app {A} (l l' : list (option A)) :
  first_none (l ++ l') = match first_none l with Some i => Some i | None => (Nat.add (length l)) <$> first_none l' end.
Proof.
  induction l as [|[x|] l IH]; simpl.
  - by destruct (first_none l').
  - rewrite IH. destruct (first_none l); simpl; [done|]. by destruct (first_none l').
  - done.
Qed.

Lemma chunks_slot m k b l n j :
  sector_slots m k b -> md_secs m !! k = Some l -> j + n = 8 -> 8 * k + 8 <= length (md_slots m) ->
  (forall i f, slot_at m i = Some f -> is_scratched (mf_attr f) = false) ->
  exists r, free_slot_in_chunks l ((32 * j) mod 256) (map (fun j => slice (32 * j) 32 b) (seq j n)) = Ok r
    /\ match first_none (slice (8 * k + j) n (md_slots m)), r with
       | None, None => True
       | Some x, Some e => de_pos e = Some (slot_pos m (8 * k + j + x))
       | _, _ => False
       end.
Proof.
  intros Hs Hl Hjn Hlen Hscr. revert j Hjn. induction n as [|n IH]; intros j Hjn; [by exists None|].
  cbn [seq map free_slot_in_chunks].
  rewrite (Nat.mod_small (32 * j)) by lia.
  replace ((32 * j + ENTRY_SIZE) mod 256) with ((32 * S j) mod 256) by (unfold ENTRY_SIZE; f_equal; lia).
  pose proof (slot_parse m k b j (Some (mk_position l (32 * j) ENTRY_SIZE)) Hs ltac:(lia)) as Hp.
  assert (slot_pos m (8 * k + j) = mk_position l (32 * j) ENTRY_SIZE) as Hpos.
  { unfold slot_pos, slot_loc. rewrite slot_div, slot_mod by lia. unfold ENTRY_SIZE. f_equal.
    by apply list_lookup_total_correct. }
  destruct (lookup_lt_is_Some_2 (md_slots m) (8 * k + j)) as [o Ho]; [lia|].
  assert (slice (8 * k + j) (S n) (md_slots m) = o :: slice (8 * k + S j) n (md_slots m)) as ->.
  { unfold slice. rewrite (drop_S _ o) by done. simpl. do 2 f_equal. f_equal. lia. }
  destruct (slot_at m (8 * k + j)) as [f|] eqn:E.
  - pose proof E as E'. apply slot_at_Some in E'. rewrite Ho in E'. injection E' as ->.
    rewrite Hp. cbn [rbind]. destruct (IH (S j)) as (r & Hr & Hm); [lia|].
    cbn [mf_entry de_attr]. rewrite (Hscr _ _ E). exists r. split; [done|]. simpl.
    destruct (first_none (slice (8 * k + S j) n (md_slots m))); simpl; [|done].
    destruct r; [|done]. rewrite Hm. do 2 f_equal. lia.
  - assert (o = None) as ->.
    { unfold slot_at in E. rewrite Ho in E. by destruct o. }
    destruct Hp as (e & He & Hsc & Hpe). rewrite He. cbn [rbind]. rewrite Hsc. exists (Some e). split; [done|].
    simpl. by rewrite Nat.add_0_r, Hpos.
Qed.

Lemma sectors_slot t d m ls k last :
  view t d m -> md_dir m = take k (md_dir m) ++ ls -> length (take k (md_dir m)) = k ->
  exists r, free_slot_in_sectors last (map (fun l => mk_cs (block_of d l) l) ls) (Ok tt) = Ok r
    /\ match first_none (drop (border_slots m + 8 * k) (md_slots m)), r with
       | None, inr l => l = List.last ls last
       | Some x, inl e => de_pos e = Some (slot_pos m (border_slots m + 8 * k + x))
       | _, _ => False
       end.
Proof.
  intros V. revert k last. induction ls as [|l ls IH]; intros k last E Hk.
  { exists (inr last). split; [done|]. rewrite drop_ge; [done|].
    rewrite (v_slots _ _ _ V), secs_length. unfold border_slots. rewrite E, app_nil_r. rewrite take_length in *. lia. }
  cbn [map free_slot_in_sectors cs_location cs_data].
  assert (md_dir m !! k = Some l) as Hl.
  { rewrite E, lookup_app_r by lia. by rewrite Hk, Nat.sub_diag. }
  destruct (dir_block t d m V k l Hl) as (b & Hb & Hsl & _). unfold block_of at 1. rewrite Hb.
  rewrite chunks_block by apply Hsl. pose proof Hl as Hl'. rewrite <- secs_dir in Hl'.
  set (q := length (border m) + k) in *.
  assert (8 * q + 8 <= length (md_slots m)) as Hlen.
  { rewrite (v_slots _ _ _ V). apply lookup_lt_Some in Hl'. lia. }
  destruct (chunks_slot m q b l 8 0 Hsl Hl' eq_refl Hlen (slot_at_scratched t d m V)) as (r & Hr & Hm).
  change ((32 * 0) mod 256) with 0 in Hr. rewrite Hr. cbn [rbind]. rewrite Nat.add_0_r in Hm.
  destruct (IH (S k) l) as (r' & Hr' & Hm').
  { rewrite (take_S_r _ _ l) by done. by rewrite <- app_assoc. }
  { rewrite (take_S_r _ _ l) by done. rewrite app_length, Hk. simpl. lia. }
  replace (border_slots m + 8 * k) with (8 * q) by (unfold border_slots, q; lia).
  replace (border_slots m + 8 * S k) with (8 * S q) in Hm' by (unfold border_slots, q; lia).
  assert (drop (8 * q) (md_slots m) = slice (8 * q) 8 (md_slots m) ++ drop (8 * S q) (md_slots m)) as ->.
  { unfold slice. replace (8 * S q) with (8 * q + 8) by lia. rewrite <- drop_drop. by rewrite take_drop. }
  rewrite first_none_app. destruct (first_none (slice (8 * q) 8 (md_slots m))) as [x|].
  - destruct r as [e|]; [|done]. exists (inl e). done.
  - destruct r; [done|]. exists r'. split; [done|]. rewrite length_slice by lia.
    destruct (first_none (drop (8 * S q) (md_slots m))) as [x|]; simpl.
    + destruct r'; [|done]. rewrite Hm'. do 2 f_equal. lia.
    + destruct r' as [|l']; [done|]. rewrite Hm'. destruct ls as [|l2 ls]; [done|].
      clear. revert l2. induction ls as [|l3 ls IH]; intros l2; [done|]. simpl. apply IH.
Qed.

(** The first free slot outside the border sector. *)
Definition free_slot (m : mdisk) : option nat := Nat.add (border_slots m) <$> first_none (drop (border_slots m) (md_slots m)).

Lemma free_slot_Some m i : free_slot m = Some i -> md_slots m !! i = Some None /\ border_slots m <= i.
Proof.
  unfold free_slot. destruct (first_none _) as [x|] eqn:E; [|done]. intros [= <-].
  apply first_none_Some in E as [E _]. rewrite lookup_drop in E. split; [done|lia].
Qed.

(** Looking for a free slot: the first one, or else the last directory sector. *)
Lemma free_slot_view t d m :
  view t d m ->
  let '(ss, r) := chain_walk d (first_dir t) in
  match free_slot m with
  | Some i => exists e, free_slot_in_sectors (first_dir t) ss r = Ok (inl e) /\ de_pos e = Some (slot_pos m i)
  | None => exists l, free_slot_in_sectors (first_dir t) ss r = Ok (inr l) /\ last (md_dir m) = Some l
  end.
Proof.
  intros V. rewrite (dir_walk t d m V).
  destruct (sectors_slot t d m (md_dir m) 0 (first_dir t) V eq_refl eq_refl) as (r & Hr & Hm).
  rewrite Nat.mul_0_r, Nat.add_0_r in Hm. fold (dir_sectors d m) in Hr. rewrite Hr. unfold free_slot.
  destruct (first_none (drop _ (md_slots m))) as [i|]; cbn [fmap option_fmap option_map].
  - destruct r as [e|]; [|done]. eauto.
  - destruct r as [|l]; [done|]. exists l. split; [done|]. rewrite Hm.
    destruct (last_index (md_dir m)) as (x & _ & Hx).
    { pose proof (view_dir_nonempty _ _ _ V). by destruct (md_dir m); [simpl in *; lia|]. }
    rewrite Hx. f_equal. clear -Hx. generalize (first_dir t). induction (md_dir m) as [|y ys IH]; intros z; [done|].
    destruct ys as [|y2 ys]; [simpl in *; congruence|]. change (last (y :: y2 :: ys)) with (last (y2 :: ys)) in Hx.
    rewrite (IH Hx z). done.
Qed.
