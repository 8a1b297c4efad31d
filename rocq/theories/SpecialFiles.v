(** Relative and GEOS files depend on no sectors but their own. *)
From Verif Require Import Base ListFacts Layout Block Bam Format Petscii GeosTypes DirEntry Header World Chain Directory Writer Rel GeosFile File
  Spec SpecCodec GeomFacts FlatProofs DevFacts CodecProofs EntryProofs SpecChain ChainProofs RelProofs SectorProofs SpecFiles Session SpecKinds View Dirs OpFile.
Ltac Zify.zify_post_hook ::= Z.div_mod_to_equations.

Section local.
  Context (t : disk_type) (d d' : dev) (Hd : dev_shape t d) (Hd' : dev_shape t d').

  Lemma sound_local start ls :
    sound_chain d start ls -> (forall l, l ∈ ls -> sector d' l = sector d l) -> sound_chain d' start ls.
  Proof.
    intros (Hn & Hh & Hp & l & e & Hl & He) Hs. split; [done|]. split; [done|]. split.
    - intros i x y Hx Hy. destruct (Hp i x y Hx Hy) as (b & Hb & H). exists b. split; [|done].
      rewrite Hs; [done|]. by eapply elem_of_list_lookup_2.
    - exists l, e. split; [done|]. destruct He as (b & Hb & H). exists b. split; [|done]. rewrite Hs; [done|].
      rewrite last_lookup in Hl. by eapply elem_of_list_lookup_2.
  Qed.

  Lemma walk_local start ss :
    chain_walk d start = (ss, Ok tt) -> (forall l, l ∈ map cs_location ss -> sector d' l = sector d l) ->
    chain_walk d' start = (ss, Ok tt).
  Proof.
    intros Hw Hs. pose proof (sound_walk t d start ss Hd Hw) as Hc.
    pose proof (sound_local _ _ Hc Hs) as Hc'. rewrite (walk_sound t d' _ _ Hd' Hc').
    rewrite (walk_sound t d _ _ Hd Hc) in Hw. injection Hw as Hw. rewrite <- Hw at 2. f_equal.
    apply map_ext_in. intros l Hl. unfold block_of. rewrite Hs; [done|]. by apply elem_of_list_In.
  Qed.

  Lemma locations_local start ls :
    chain_locations d start = Ok ls -> (forall l, l ∈ ls -> sector d' l = sector d l) -> chain_locations d' start = Ok ls.
  Proof.
    unfold chain_locations, all_or_error. destruct (chain_walk d start) as [ss r] eqn:Ew. destruct r as [[]| | |]; try done.
    cbn [fst snd rbind]. intros [= <-] Hs. by rewrite (walk_local _ _ Ew Hs).
  Qed.

  Lemma read_local start ls :
    chain_locations d start = Ok ls -> (forall l, l ∈ ls -> sector d' l = sector d l) -> read_all d' start = read_all d start.
  Proof.
    unfold chain_locations, read_all, all_or_error. destruct (chain_walk d start) as [ss r] eqn:Ew. destruct r as [[]| | |]; try done.
    cbn [fst snd rbind]. intros [= <-] Hs. by rewrite (walk_local _ _ Ew Hs).
  Qed.

  Lemma side_loop_sides ss r sides lists datas :
    side_loop ss r = Ok (sides, lists, datas) -> r = Ok tt /\ sides = map cs_location ss.
  Proof.
    revert sides lists datas. induction ss as [|s ss IH]; intros sides lists datas; cbn [side_loop].
    - destruct r as [[]| | |]; try done. cbn [rbind]. by intros [= <- <- <-].
    - destruct (_ <? _); [done|]. destruct (link_new (cs_data s)); try done. cbn [rbind].
      destruct (_ || _); [done|]. destruct (side_loop ss r) as [[[x y] z]| | |]; try done. cbn [rbind].
      intros [= <- <- <-]. destruct (IH _ _ _ eq_refl) as [? ->]. done.
  Qed.

  Lemma rel_local c e f :
    rel_new d c e = Ok f -> (forall l, l ∈ rel_occupied f -> sector d' l = sector d l) -> rel_new d' c e = Ok f.
  Proof.
    unfold rel_new. intros H Hs.
    destruct (match de_extra e with XRelative _ _ _ => _ | _ => _ end) as [[rs fs]| | |]; try discriminate. cbn [rbind] in *.
    destruct (chain_walk d fs) as [ss r] eqn:Ew. destruct (side_loop ss r) as [[[sides lists] datas]| | |] eqn:Es; try discriminate.
    destruct (side_loop_sides _ _ _ _ _ Es) as [-> Hsides]. cbn [rbind] in *.
    destruct (MAX_SIDE_SECTORS <? length sides) eqn:E1; [discriminate|]. destruct (negb _) eqn:E2 in H; [discriminate|].
    destruct (match last datas with Some _ => _ | None => _ end) as [il| | |] eqn:El in H; try discriminate. cbn [rbind] in *.
    destruct (rs =? 0) eqn:E3; [discriminate|]. destruct (negb _) eqn:E4 in H; [discriminate|]. apply Ok_inj in H as <-.
    assert (forall l, l ∈ sides -> sector d' l = sector d l) as Hs1.
    { intros l Hl. apply Hs. apply elem_of_list_In, occupied_in, in_app_iff. right. by apply elem_of_list_In. }
    assert (forall l, l ∈ datas -> sector d' l = sector d l) as Hs2.
    { intros l Hl. apply Hs. apply elem_of_list_In, occupied_in, in_app_iff. left. by apply elem_of_list_In. }
    rewrite (walk_local _ _ Ew) by (by rewrite <- Hsides). rewrite Es. cbn [rbind]. rewrite E1, E2.
    assert ((match last datas with
      | Some l => let? b := sector d' l in let? k := link_new b in
                  match k with Next _ => Err EInvalidRelativeFile | Tail size => Ok (size - 2) end
      | None => Ok 0 end) = Ok il) as ->.
    { destruct (last datas) as [l|] eqn:Ela; [|done]. rewrite Hs2; [done|]. rewrite last_lookup in Ela. by eapply elem_of_list_lookup_2. }
    cbn [rbind]. by rewrite E4.
  Qed.

  Lemma vlir_local starts ls :
    vlir_locations d starts = Ok ls -> (forall l, l ∈ ls -> sector d' l = sector d l) -> vlir_locations d' starts = Ok ls.
  Proof.
    revert ls. induction starts as [|x starts IH]; intros ls; cbn [vlir_locations]; [done|].
    destruct (chain_locations d x) as [l1| | |] eqn:E1; try done. cbn [rbind].
    destruct (vlir_locations d starts) as [l2| | |]; try done. cbn [rbind]. intros [= <-] Hs.
    rewrite (locations_local _ _ E1) by (intros; apply Hs; set_solver). cbn [rbind].
    rewrite (IH l2 eq_refl) by (intros; apply Hs; set_solver). done.
  Qed.

  Lemma geos_occupied_local f ls :
    geos_occupied d f = Ok ls -> (forall l, l ∈ ls -> sector d' l = sector d l) -> geos_occupied d' f = Ok ls.
  Proof.
    unfold geos_occupied. intros H Hs.
    destruct (chain_locations d (de_first (gf_entry f))) as [ch| | |] eqn:Ec; try discriminate. cbn [rbind] in *.
    destruct (entry_info_location (gf_entry f)) as [il| | |]; try discriminate. cbn [rbind] in *.
    destruct (match gf_vlir f with Some _ => _ | None => _ end) as [rs| | |] eqn:Er in H; try discriminate. cbn [rbind] in *.
    apply Ok_inj in H.
    assert (forall l, l ∈ ch ++ match il with Some l => [l] | None => [] end ++ rs -> sector d' l = sector d l) as Hs'.
    { intros l Hl. apply Hs. rewrite <- H. apply elem_of_list_In, occupied_in. by apply elem_of_list_In. }
    rewrite (locations_local _ _ Ec) by (intros; apply Hs'; set_solver). cbn [rbind].
    assert ((match gf_vlir f with Some starts => vlir_locations d' (somes starts) | None => Ok [] end) = Ok rs) as ->.
    { destruct (gf_vlir f); [|done]. apply vlir_local; [done|]. intros; apply Hs'; set_solver. }
    cbn [rbind]. by rewrite H.
  Qed.

  Lemma locations_head start ls : chain_locations d start = Ok ls -> start ∈ ls.
  Proof.
    unfold chain_locations, all_or_error. destruct (chain_walk d start) as [ss r] eqn:Ew. destruct r as [[]| | |]; try done.
    cbn [fst snd rbind]. intros [= <-]. destruct (sound_walk t d start ss Hd Ew) as (_ & Hh & _).
    destruct (map cs_location ss) as [|x xs]; [done|]. injection Hh as ->. apply elem_of_list_here.
  Qed.

  Lemma geos_first f ls : geos_occupied d f = Ok ls -> de_first (gf_entry f) ∈ ls.
  Proof.
    unfold geos_occupied. intros H.
    destruct (chain_locations d (de_first (gf_entry f))) as [ch| | |] eqn:Ec; try discriminate. cbn [rbind] in *.
    destruct (entry_info_location (gf_entry f)) as [il| | |]; try discriminate. cbn [rbind] in *.
    destruct (match gf_vlir f with Some _ => _ | None => _ end) as [rs| | |] eqn:Er in H; try discriminate. cbn [rbind] in *.
    apply Ok_inj in H. rewrite <- H. apply elem_of_list_In, occupied_in, in_app_iff. left. apply elem_of_list_In. by eapply locations_head.
  Qed.

  Lemma geos_new_entry c e f : geos_new d c e = Ok f -> gf_entry f = e /\ gf_bam f = c.
  Proof.
    unfold geos_new. destruct (entry_is_vlir e) as [[]| | |]; try done; cbn [rbind]; [|by intros [= <-]].
    destruct (sector d (de_first e)); try done. cbn [rbind]. by intros [= <-].
  Qed.

  Lemma geos_new_local c e f ls :
    geos_new d c e = Ok f -> geos_occupied d f = Ok ls -> (forall l, l ∈ ls -> sector d' l = sector d l) ->
    geos_new d' c e = Ok f.
  Proof.
    intros H Ho Hs. pose proof (geos_first _ _ Ho) as Hf. destruct (geos_new_entry _ _ _ H) as [He _]. rewrite He in Hf.
    unfold geos_new in *. by rewrite (Hs _ Hf).
  Qed.

  (** *** Records *)

  Lemma read_position_local p : sector d' (p_loc p) = sector d (p_loc p) -> read_position d' p = read_position d p.
  Proof. unfold read_position. by intros ->. Qed.

  Lemma rel_record_local f i :
    (forall l, l ∈ rel_occupied f -> sector d' l = sector d l) -> rel_record d' f i = rel_record d f i.
  Proof.
    intros Hs. assert (forall k l, rf_data_sectors f !! k = Some l -> sector d' l = sector d l) as Hs'.
    { intros k l Hl. apply Hs. apply elem_of_list_In, occupied_in, in_app_iff. left. apply elem_of_list_In. by eapply elem_of_list_lookup_2. }
    unfold rel_record, record_position. destruct (_ <=? i); [done|]. cbv zeta.
    destruct (rf_data_sectors f !! _) as [l|] eqn:El; [|done].
    destruct (_ <=? BLOCK_SIZE); cbn [rbind].
    - by rewrite (read_position_local (mk_position l _ _)) by (apply (Hs' _ _ El)).
    - destruct (rf_data_sectors f !! (_ + 1)) as [l'|] eqn:El'; [|done]. cbn [rbind].
      rewrite (read_position_local (mk_position l _ _)) by (apply (Hs' _ _ El)).
      by rewrite (read_position_local (mk_position l' _ _)) by (apply (Hs' _ _ El')).
  Qed.

  Lemma vlir_start starts ls l :
    vlir_locations d starts = Ok ls -> In l starts -> exists l1, chain_locations d l = Ok l1 /\ forall x, x ∈ l1 -> x ∈ ls.
  Proof.
    revert ls. induction starts as [|x starts IH]; intros ls; cbn [vlir_locations]; [done|].
    destruct (chain_locations d x) as [l1| | |] eqn:E1; try done. cbn [rbind].
    destruct (vlir_locations d starts) as [l2| | |]; try done. cbn [rbind]. intros [= <-] [->|Hl].
    - exists l1. split; [done|]. set_solver.
    - destruct (IH l2 eq_refl Hl) as (l3 & H3 & H4). exists l3. split; [done|]. set_solver.
  Qed.

  Lemma somes_in {A} (l : list (option A)) i x : l !! i = Some (Some x) -> In x (somes l).
  Proof.
    revert i. induction l as [|[y|] l IH]; intros [|i] H; try done; cbn in *.
    - injection H as ->. by left.
    - right. by eapply IH.
    - by eapply IH.
  Qed.

  Lemma geos_record_local f ls i :
    geos_occupied d f = Ok ls -> (forall l, l ∈ ls -> sector d' l = sector d l) -> geos_record d' f i = geos_record d f i.
  Proof.
    unfold geos_occupied. intros H Hs.
    destruct (chain_locations d (de_first (gf_entry f))) as [ch| | |] eqn:Ec; try discriminate. cbn [rbind] in *.
    destruct (entry_info_location (gf_entry f)) as [il| | |]; try discriminate. cbn [rbind] in *.
    destruct (match gf_vlir f with Some _ => _ | None => _ end) as [rs| | |] eqn:Er in H; try discriminate. cbn [rbind] in *.
    apply Ok_inj in H.
    assert (forall l, l ∈ ch ++ match il with Some l => [l] | None => [] end ++ rs -> sector d' l = sector d l) as Hs'.
    { intros l Hl. apply Hs. rewrite <- H. apply elem_of_list_In, occupied_in. by apply elem_of_list_In. }
    unfold geos_record, record_start. destruct (gf_vlir f) as [records|].
    - destruct (records !! i) as [[l|]|] eqn:Ei; [|done..]. cbn [rbind].
      destruct (vlir_start _ _ l Er) as (l1 & Hl1 & Hin); [by eapply somes_in|].
      eapply read_local; [done|]. intros x Hx. apply Hs'. set_solver.
    - cbn [rbind]. eapply read_local; [done|]. intros x Hx. apply Hs'. set_solver.
  Qed.

  Lemma linear_local start ls data ns :
    chain_locations d start = Ok ls -> (forall l, l ∈ ls -> sector d' l = sector d l) -> read_all d start = Ok data ->
    all_reads (run_reads d' (reader_new start) ns) = Ok (pieces data ns).
  Proof.
    intros Hl Hs Hr. rewrite <- (read_local _ _ Hl Hs) in Hr. apply (locations_local _ _ Hl) in Hs.
    unfold chain_locations, all_or_error in Hs. destruct (chain_walk d' start) as [ss r] eqn:Ew. destruct r as [[]| | |]; try done.
    pose proof (sound_walk t d' start ss Hd' Ew) as Hc. destruct (reads_sound t d' _ _ ns Hd' Hc) as [-> Ha]. rewrite Ha in Hr.
    apply Ok_inj in Hr as ->. clear. induction (pieces data ns) as [|y l IH]; [done|]. cbn [map all_reads rbind]. by rewrite IH.
  Qed.

  Lemma geos_reads_local f x ls k :
    x = FGEOSSequential f \/ x = FGEOSVLIR f -> geos_occupied d f = Ok ls -> (forall l, l ∈ ls -> sector d' l = sector d l) ->
    reads_as d x k -> reads_as d' x k.
  Proof.
    intros Hx Ho Hs. assert (file_record_count x = geos_record_count f /\ (forall i, file_record d x i = geos_record d f i)
      /\ (forall i, file_record d' x i = geos_record d f i) /\ file_reader x = geos_linear_reader f
      /\ file_writer d' x = file_writer d x) as (E1 & E2 & E2' & E3 & E4).
    { destruct Hx as [-> | ->]; cbn [file_record_count file_record file_reader file_writer]; (split; [done|]; split; [done|]; split; [|done]);
        intros i; by eapply geos_record_local. }
    destruct k as [|tidy rs|data]; cbn [reads_as]; unfold read_through; rewrite ?E1, ?E3, ?E4; [done|..]; intros (R1 & R2 & R3 & R4).
    - split; [done|]. split; [intros i; rewrite E2', <- E2; apply R2|]. split; [|by destruct Hx as [-> | ->]].
      intros ns. specialize (R3 ns). destruct (geos_linear_reader f) as [r| | |] eqn:Er; try done. exfalso. clear R4.
      unfold geos_linear_reader in Er. destruct (gf_vlir f) eqn:Ev; [done|]. apply Ok_inj in Er as <-. cbn [rbind] in R3.
      unfold geos_record_count in R1. rewrite Ev in R1. destruct rs as [|r0 [|? ?]]; try done.
      pose proof (R2 1) as R2'. rewrite E2 in R2'. unfold geos_record, record_start in R2'. rewrite Ev in R2'. cbn [rbind lookup list_lookup] in R2'.
      pose proof (R2 0) as R0. rewrite E2 in R0. unfold geos_record, record_start in R0. rewrite Ev in R0. cbn [rbind lookup list_lookup] in R0. congruence.
    - split; [done|]. split; [intros i; rewrite E2', <- E2; apply R2|]. split; [|done].
      intros ns. specialize (R3 ns). unfold geos_linear_reader in *. destruct (gf_vlir f) eqn:Ev; [done|]. cbn [rbind] in *.
      unfold geos_occupied in Ho. destruct (chain_locations d (de_first (gf_entry f))) as [ch| | |] eqn:Ec; try discriminate. cbn [rbind] in *.
      destruct (entry_info_location (gf_entry f)) as [il| | |]; try discriminate. cbn [rbind] in *. rewrite Ev in Ho. cbn [rbind] in Ho. apply Ok_inj in Ho.
      apply (linear_local _ ch); [done| |].
      + intros l Hl. apply Hs. rewrite <- Ho. apply elem_of_list_In, occupied_in, in_app_iff. left. by apply elem_of_list_In.
      + pose proof (R2 0) as R0. rewrite E2 in R0. unfold geos_record, record_start in R0. by rewrite Ev in R0.
  Qed.

End local.

Section local_file.
  Context (t : disk_type) (d d' : dev) (Hd : dev_shape t d) (Hd' : dev_shape t d').

  Lemma rel_linked_local f :
    (forall l, l ∈ rel_occupied f -> sector d' l = sector d l) -> linked d (FRelative f) <-> linked d' (FRelative f).
  Proof.
    intros Hs. assert (forall l, l ∈ rf_data_sectors f -> sector d' l = sector d l) as Hs'.
    { intros l Hl. apply Hs. apply elem_of_list_In, occupied_in, in_app_iff. left. by apply elem_of_list_In. }
    cbn [linked]. split; intros H.
    - by apply (locations_local t d d').
    - apply (locations_local t d' d); [done..|]. intros l Hl. symmetry. by apply Hs'.
  Qed.

  Lemma file_local c e x ls :
    de_scheme e <> SLinear -> file_at d c e = Ok x -> file_occupied d x = Ok ls -> (forall l, l ∈ ls -> sector d' l = sector d l) ->
    file_at d' c e = Ok x /\ file_occupied d' x = Ok ls /\ forall k, reads_as d x k -> reads_as d' x k.
  Proof.
    unfold file_at. intros He H Ho Hs. destruct (de_scheme e); [done|..].
    - destruct (rel_new d c e) as [f| | |] eqn:E; try discriminate. cbn [rbind] in H. apply Ok_inj in H as <-. cbn [file_occupied] in *.
      apply Ok_inj in Ho as <-. rewrite (rel_local t d d' Hd Hd' _ _ _ E Hs). split; [done|]. split; [done|]. pose proof (rel_linked_local f Hs) as Hlk.
      intros [|tidy rs|data]; [done|..]; cbn [reads_as]; unfold read_through; cbn [file_record_count file_record file_reader file_writer];
        intros (R1 & R2 & R3 & R4); (split; [done|]; split; [intros i; by rewrite (rel_record_local d d' _ _ Hs)|]); [|done].
      split; [done|]. split; [done|]. rewrite <- Hlk. apply R4.
    - destruct (geos_new d c e) as [f| | |] eqn:E; try discriminate. cbn [rbind] in H. apply Ok_inj in H as <-. cbn [file_occupied] in *.
      rewrite (geos_new_local t d d' Hd _ _ _ _ E Ho Hs). split; [done|]. split; [by apply (geos_occupied_local t d d')|].
      intros k. eapply (geos_reads_local t d d'); [done|done|by left|done|done].
    - destruct (geos_new d c e) as [f| | |] eqn:E; try discriminate. cbn [rbind] in H. apply Ok_inj in H as <-. cbn [file_occupied] in *.
      rewrite (geos_new_local t d d' Hd _ _ _ _ E Ho Hs). split; [done|]. split; [by apply (geos_occupied_local t d d')|].
      intros k. eapply (geos_reads_local t d d'); [done|done|by right|done|done].
  Qed.
End local_file.

(** ** Handles *)

(** Sectors with the same bytes one after the other are the same sectors. *)
Lemma raw_agree t d d' ls :
  dev_shape t d -> dev_shape t d' -> Forall (data_loc t) ls -> raw_of d' ls = raw_of d ls -> forall l, l ∈ ls -> sector d' l = sector d l.
Proof.
  intros Hd Hd' Hls. induction Hls as [|x ls Hx _ IH]; [intros _ l Hl; by apply elem_of_nil in Hl|].
  unfold raw_of. cbn [map concat]. intros H.
  destruct Hx as [Hx _]. destruct (proj2 (sector_Ok_iff t d x Hd)) as [b Hb]; [by apply (bam_sector_valid t)|].
  destruct (proj2 (sector_Ok_iff t d' x Hd')) as [b' Hb']; [by apply (bam_sector_valid t)|].
  rewrite Hb, Hb' in H. apply app_inj_1 in H as [-> H].
  2: { rewrite (sector_Ok_length t d x b Hd Hb). exact (sector_Ok_length t d' x b' Hd' Hb'). }
  intros l [->|Hl]%elem_of_cons; [congruence|]. by apply IH.
Qed.

(** A handle of a relative or GEOS file in slot [i]: its entry may be out of
    date, but it reads the file in every image that holds the file. *)
Definition special_handle (t : disk_type) (m : mdisk) (c i : nat) (f : mfile) (x : file) : Prop :=
  exists y e, mf_special f = Some y /\ de_pos e = Some (slot_pos m i) /\ length (de_name e) <= 16
    /\ de_scheme e = sp_scheme y /\ de_first e = sp_first y /\ de_extra e = sp_extra y
    /\ forall d, dev_shape t d -> contents t d f ->
         file_at d c e = Ok x /\ file_occupied d x = Ok (mf_chain f) /\ reads_as d x (sp_kind y).

Lemma special_handle_open t d m f c i x :
  dev_shape t d -> Forall (data_loc t) (mf_chain f) -> contents t d f -> mf_special f <> None -> length (mf_name f) <= 16 ->
  file_at d c (entry_at m i f) = Ok x -> special_handle t m c i f x.
Proof.
  intros Hd Hls Hc Hk Hnm Hx. destruct (mf_special f) as [y|] eqn:Ey; [|done]. exists y, (entry_at m i f).
  split; [done|]. split; [done|]. split; [done|]. cbn [entry_at de_scheme de_first de_extra]. unfold mf_scheme, mf_first, mf_extras. rewrite Ey.
  split; [done|]. split; [done|]. split; [done|]. intros d' Hd' Hc'.
  destruct (contents_opens t d m i f c y Hd Hc Ey) as (x1 & E1 & Ho & Hr). assert (x1 = x) as -> by congruence.
  destruct (contents_opens t d' m i f c y Hd' Hc' Ey) as (x2 & E2 & Ho2 & Hr2).
  assert (sp_scheme y <> SLinear) as Hs by (unfold contents in Hc; rewrite Ey in Hc; by destruct Hc).
  assert (raw_of d' (mf_chain f) = raw_of d (mf_chain f)) as Hraw.
  { unfold contents in Hc, Hc'. rewrite Ey in Hc, Hc'. destruct Hc as (_ & -> & _), Hc' as (_ & -> & _). done. }
  destruct (file_local t d d' Hd Hd' c (entry_at m i f) x (mf_chain f)) as (E3 & _ & H3); [|done|done|by eapply raw_agree|].
  - cbn [entry_at de_scheme]. unfold mf_scheme. by rewrite Ey.
  - split; [done|]. split; [|by apply H3]. assert (x2 = x) as -> by congruence. done.
Qed.

(** ** Records can be read *)

Lemma locations_read t d start ls : dev_shape t d -> chain_locations d start = Ok ls -> exists data, read_all d start = Ok data.
Proof.
  intros Hd. unfold chain_locations, read_all, all_or_error. destruct (chain_walk d start) as [ss r]. destruct r as [[]| | |]; try done.
  cbn [fst snd rbind]. by eexists.
Qed.

Lemma file_reads t d c e x ls :
  dev_shape t d -> holds_bytes d -> (forall side n u, de_extra e = XRelative side n u -> n < 256) ->
  de_scheme e <> SLinear -> file_at d c e = Ok x -> file_occupied d x = Ok ls -> (forall l, l ∈ ls -> valid_loc (d_geom d) l = true) ->
  exists k, reads_as d x k.
Proof.
  unfold file_at. intros Hd Hb Hn He H Ho Hv. 
  assert (forall f, geos_occupied d f = Ok ls -> x = FGEOSSequential f \/ x = FGEOSVLIR f -> exists k, reads_as d x k) as Hg.
  { clear H. intros f H Hx. assert (file_record_count x = geos_record_count f /\ (forall i, file_record d x i = geos_record d f i)
      /\ file_reader x = geos_linear_reader f /\ file_writer d x = geos_writer f) as (E1 & E2 & E3 & E4) by (by destruct Hx as [-> | ->]).
    unfold geos_occupied in H. destruct (chain_locations d (de_first (gf_entry f))) as [ch| | |] eqn:Ec; try discriminate. cbn [rbind] in *.
    destruct (entry_info_location (gf_entry f)) as [il| | |]; try discriminate. cbn [rbind] in *.
    destruct (gf_vlir f) as [records|] eqn:Ev.
    - destruct (vlir_locations d (somes records)) as [rl| | |] eqn:Er; try discriminate.
      assert (forall i, exists r, i < length records -> geos_record d f i = Ok r) as Hrec.
      { intros i. destruct (records !! i) as [[l|]|] eqn:Ei.
        - destruct (vlir_start t d d Hd Hd _ _ l Er) as (l1 & Hl1 & _); [by eapply somes_in|]. destruct (locations_read t d l l1 Hd Hl1) as [data Hdata].
          exists data. intros _. unfold geos_record, record_start. by rewrite Ev, Ei.
        - exists []. intros _. unfold geos_record, record_start. by rewrite Ev, Ei.
        - exists []. apply lookup_ge_None in Ei. lia. }
      exists (KRecords true (map (fun i => match geos_record d f i with Ok r => r | _ => [] end) (seq 0 (length records)))).
      cbn [reads_as]. unfold read_through. rewrite E1, E3, E4. unfold geos_record_count, geos_linear_reader, geos_writer. rewrite Ev.
      split; [by rewrite map_length, seq_length|]. split; [|by destruct Hx as [-> | ->]]. intros i. rewrite E2, list_lookup_fmap.
      destruct (decide (i < length records)) as [Hi|Hi].
      + rewrite lookup_seq_lt by done. cbn [fmap option_fmap option_map Nat.add]. destruct (Hrec i) as [r Hr]. by rewrite (Hr Hi).
      + rewrite lookup_seq_ge by lia. cbn [fmap option_fmap option_map]. unfold geos_record, record_start. rewrite Ev.
        by rewrite (lookup_ge_None_2 records i) by lia.
    - destruct (locations_read t d _ _ Hd Ec) as [data Hdata]. exists (KStream data).
      cbn [reads_as]. unfold read_through. rewrite E1, E3, E4. unfold geos_record_count, geos_linear_reader, geos_writer. rewrite Ev.
      split; [done|]. split; [intros i; rewrite E2; unfold geos_record, record_start; by rewrite Ev|]. split; [|done].
      intros ns. cbn [rbind]. by apply (linear_local t d d Hd Hd _ ch). }
  destruct (de_scheme e); [done|..].
  2,3: destruct (geos_new d c e) as [f| | |]; try discriminate; cbn [rbind] in H; apply Ok_inj in H as <-; apply (Hg f); [done|by auto].
  destruct (rel_new d c e) as [f| | |] eqn:E; try discriminate. cbn [rbind] in H. apply Ok_inj in H as <-. cbn [file_occupied] in Ho. apply Ok_inj in Ho as <-.
  destruct (rel_opens t d c e f Hd Hb E) as (side & u & Hx & _).
  set (tidy := match chain_locations d (de_first (rf_entry f)) with Ok l => bool_decide (l = rf_data_sectors f) | _ => false end).
  exists (KRecords tidy (map (fun i => match rel_record d f i with Ok r => r | _ => [] end) (seq 0 (rf_records f)))).
  cbn [reads_as]. unfold read_through. cbn [file_record_count file_record file_reader file_writer].
  assert (tidy = true <-> linked d (FRelative f)) as Htidy.
  { unfold tidy, linked. destruct (chain_locations d (de_first (rf_entry f))) as [l| | |]; try done.
    rewrite bool_decide_eq_true. split; [by intros ->|]. intros H. by apply Ok_inj in H. }
  split; [by rewrite map_length, seq_length|]. split; [|done]. intros i. rewrite list_lookup_fmap.
  pose proof (rel_record_spec t d c e f i Hd Hb E (Hn _ _ _ Hx)) as Hr. destruct (decide (i < rf_records f)) as [Hi|Hi].
  - rewrite lookup_seq_lt by done. cbn [fmap option_fmap option_map Nat.add]. destruct Hr as [->|(_ & l & Hl & Hbad)]; [done|].
    rewrite Hv in Hbad; [done|]. unfold rel_occupied. apply elem_of_list_In, occupied_in, in_app_iff. by left.
  - rewrite lookup_seq_ge by lia. cbn [fmap option_fmap option_map]. exact Hr.
Qed.
