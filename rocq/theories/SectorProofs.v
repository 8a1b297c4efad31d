(** The sectors of a file, of any kind. *)
From Verif Require Import Base ListFacts Layout Block Bam Format GeosTypes DirEntry Header World Chain Directory Writer Rel GeosFile File
  Spec SpecCodec SpecChain SpecFiles SpecValidate GeomFacts FlatProofs DevFacts ChainProofs RelProofs ValidateProofs.

(** ** Sorting and removing repetitions *)

Definition locle (x y : location) : Prop := fst x < fst y \/ (fst x = fst y /\ snd x <= snd y).

Lemma loc_le_spec x y : loc_le x y = true <-> locle x y.
Proof.
  unfold loc_le, locle. rewrite orb_true_iff, andb_true_iff, Nat.ltb_lt, Nat.eqb_eq, Nat.leb_le. done.
Qed.

Lemma loc_insert_sorted x l : StronglySorted locle l -> StronglySorted locle (loc_insert x l).
Proof.
  induction 1 as [|y l Hl IH Hy]; cbn [loc_insert]; [repeat constructor|].
  destruct (loc_le x y) eqn:E.
  - apply loc_le_spec in E. constructor; [by constructor|]. constructor; [done|].
    eapply Forall_impl; [exact Hy|]. intros z. unfold locle in *. intros. lia.
  - constructor; [done|]. rewrite Forall_forall in *. intros z. rewrite loc_insert_perm, elem_of_cons.
    intros [->|Hz]; [|by apply Hy]. assert (~ locle x y) by (rewrite <- loc_le_spec, E; done). unfold locle in *. lia.
Qed.

Lemma loc_sort_sorted l : StronglySorted locle (loc_sort l).
Proof. induction l as [|x l IH]; [constructor|]. cbn. by apply loc_insert_sorted. Qed.

Lemma loc_dedup_in l x : x ∈ loc_dedup l <-> x ∈ l.
Proof.
  induction l as [|y l IH]; [done|]. cbn [loc_dedup]. destruct l as [|z l]; [done|].
  case_decide as E.
  - subst. rewrite IH. rewrite (elem_of_cons (z :: l)). split; [by right|]. intros [->|H]; [by left|done].
  - rewrite !(elem_of_cons _ x y), IH. done.
Qed.

Lemma loc_dedup_sorted l : StronglySorted locle l -> NoDup (loc_dedup l).
Proof.
  induction 1 as [|x l Hl IH Hx]; [constructor|]. cbn [loc_dedup]. destruct l as [|y l]; [apply NoDup_singleton|].
  case_decide as E; [done|]. constructor; [|done]. rewrite loc_dedup_in. intros Hin.
  inversion Hl as [|? ? Hl' Hy]; subst. inversion Hx as [|? ? Hxy Hx']; subst.
  apply elem_of_cons in Hin as [->|Hin]; [done|]. rewrite Forall_forall in Hy. apply Hy in Hin.
  destruct x, y. unfold locle in *. cbn [fst snd] in *. apply E. f_equal; lia.
Qed.

Lemma occupied_nodup l : NoDup (loc_dedup (loc_sort l)).
Proof. apply loc_dedup_sorted, loc_sort_sorted. Qed.
Lemma occupied_in l x : In x (loc_dedup (loc_sort l)) <-> In x l.
Proof. rewrite <- !elem_of_list_In, loc_dedup_in. by rewrite loc_sort_perm. Qed.

(** ** Chains *)

Lemma locations_iff t d s ls : dev_shape t d -> chain_locations d s = Ok ls <-> sound_chain d s ls.
Proof.
  intros Hd. split; [|by eapply locations_sound]. unfold chain_locations, all_or_error.
  destruct (chain_walk d s) as [ss r] eqn:E. cbn [fst snd]. destruct r as [[]| | |]; [|done..]. cbn [rbind].
  intros [= <-]. by eapply sound_walk.
Qed.

Lemma sound_tail d s l ls : sound_chain d s (l :: ls) -> ls <> [] ->
  exists b s', s = l /\ sector d l = Ok b /\ s' = (b !!! 0, b !!! 1) /\ fst s' <> 0 /\ sound_chain d s' ls.
Proof.
  intros (Hnd & Hh & Hp & k & e & Hk & Hke) Hne. destruct ls as [|l2 ls]; [done|].
  injection Hh as ->. destruct (Hp 0 s l2 eq_refl eq_refl) as (b & Hb & H0 & H1 & H2).
  exists b, l2. split; [done|]. split; [done|]. split; [destruct l2; cbn in *; congruence|]. split; [done|].
  apply NoDup_cons in Hnd as [_ Hnd]. split; [done|]. split; [done|]. split.
  - intros i a a' Ha Ha'. by apply (Hp (S i)).
  - exists k, e. split; [|done]. by rewrite last_cons_cons in Hk.
Qed.

Lemma sound_first d s ls : sound_chain d s ls -> exists b, sector d s = Ok b /\ pair_at b 0 <> (0, 0).
Proof.
  intros Hs. pose proof Hs as (Hnd & Hh & Hp & k & e & Hk & Hke). destruct ls as [|l ls]; [done|].
  injection Hh as ->. destruct ls as [|l2 ls].
  - injection Hk as <-. destruct Hke as (b & Hb & H0 & H1 & H2). exists b. split; [done|]. change (pair_at b 0) with (b !!! 0, b !!! 1). congruence.
  - destruct (Hp 0 s l2 eq_refl eq_refl) as (b & Hb & H0 & H1 & H2). exists b. split; [done|]. change (pair_at b 0) with (b !!! 0, b !!! 1). congruence.
Qed.

(** ** VLIR indexes *)

Lemma index_records_spec ps : somes (index_records ps) = List.filter present (until_end ps).
Proof.
  induction ps as [|[t s] ps IH]; [done|]. cbn [index_records until_end].
  destruct ((t =? 0) && (s =? 0)) eqn:E0.
  - apply andb_true_iff in E0 as [->%Nat.eqb_eq ->%Nat.eqb_eq]. done.
  - rewrite bool_decide_false by (intros [= -> ->]; done). cbn [List.filter]. unfold present at 1.
    destruct ((t =? 0) && (s =? 255)) eqn:E1.
    + apply andb_true_iff in E1 as [->%Nat.eqb_eq ->%Nat.eqb_eq]. rewrite bool_decide_true by done. cbn. done.
    + rewrite bool_decide_false by (intros [= -> ->]; done). cbn. by rewrite IH.
Qed.

Lemma vlir_locations_spec t d starts ls : dev_shape t d -> vlir_locations d starts = Ok ls ->
  Forall (fun s => exists cs, sound_chain d s cs) starts
  /\ forall l, In l ls <-> exists s cs, In s starts /\ sound_chain d s cs /\ In l cs.
Proof.
  intros Hd. revert ls. induction starts as [|s starts IH]; intros ls H; cbn [vlir_locations] in H.
  - injection H as <-. split; [done|]. intros l. split; [done|]. by intros (? & ? & [] & _).
  - destruct (chain_locations d s) as [cs| | |] eqn:E; [|done..]. cbn [rbind] in H.
    destruct (vlir_locations d starts) as [rest| | |] eqn:Er; [|done..]. cbn [rbind] in H. injection H as <-.
    destruct (IH _ eq_refl) as [H1 H2]. apply (locations_iff t) in E; [|done].
    split; [constructor; eauto|]. intros l. rewrite in_app_iff, H2. split.
    + intros [H|(s' & cs' & ? & ? & ?)]; [exists s, cs|exists s', cs']; (split; [|done]); [by left|by right].
    + intros (s' & cs' & [->|H] & Hs & Hl); [left|right; eauto].
      by rewrite (sound_unique _ _ _ _ _ Hd E Hs).
Qed.

Lemma vlir_locations_ok t d starts : dev_shape t d -> Forall (fun s => exists cs, sound_chain d s cs) starts ->
  exists ls, vlir_locations d starts = Ok ls.
Proof.
  intros Hd. induction 1 as [|s starts [cs Hs] _ [ls IH]]; cbn [vlir_locations]; [by eexists|].
  apply (locations_iff t) in Hs; [|done]. rewrite Hs, IH. by eexists.
Qed.

Lemma geos_sectors t d c e f ls :
  dev_shape t d -> holds_bytes d -> de_scheme e = SGEOSSequential \/ de_scheme e = SGEOSVLIR ->
  geos_new d c e = Ok f -> geos_occupied d f = Ok ls ->
  NoDup ls /\ forall l, In l ls <-> file_sector d e l.
Proof.
  intros Hd Hb Hsch Hf Ho. unfold geos_occupied in Ho.
  assert (gf_entry f = e) as Hfe.
  { unfold geos_new in Hf. destruct (entry_is_vlir e) as [v| | |]; [|done..]. cbn [rbind] in Hf. destruct v; [|by injection Hf as <-].
    destruct (sector d (de_first e)); [|done..]. cbn [rbind] in Hf. by injection Hf as <-. }
  rewrite Hfe in Ho. destruct (chain_locations d (de_first e)) as [cs| | |] eqn:Ec; [|done..]. cbn [rbind] in Ho.
  apply (locations_iff t) in Ec; [|done].
  destruct (entry_info_location e) as [il| | |] eqn:Ei; [|done..]. cbn [rbind] in Ho.
  unfold entry_info_location in Ei. destruct (de_extra e) as [|? ? ?|info st ft y mo da ho mi] eqn:Ex; [done..|].
  injection Ei as Ei.
  assert (forall l, In l (match il with Some l => [l] | None => [] end) <-> l = info /\ info <> (0, 0)) as Hinfo.
  { intros l. rewrite <- Ei. destruct ((fst info =? 0) && (snd info =? 0)) eqn:E0.
    - apply andb_true_iff in E0 as [H1%Nat.eqb_eq H2%Nat.eqb_eq]. split; [done|]. intros [_ H]. destruct H. destruct info. cbn in *. congruence.
    - split; [intros [<-|[]]; split; [done|]; by intros ->|]. intros [-> _]. by left. }
  match type of Ho with context [match gf_vlir f with Some _ => _ | None => _ end] =>
    set (recs := match gf_vlir f with Some starts => vlir_locations d (somes starts) | None => Ok [] end) in Ho end.
  destruct recs as [rs| | |] eqn:Er; [|done..]. cbn [rbind] in Ho. injection Ho as <-.
  split; [apply occupied_nodup|]. intros l. rewrite occupied_in, !in_app_iff, Hinfo.
  assert (st = GVLIR \/ st <> GVLIR /\ gf_vlir f = None) as Hst.
  { unfold geos_new, entry_is_vlir in Hf. rewrite Ex in Hf. destruct st; [right; split; [done|]|by left|done].
    cbn [rbind] in Hf. by injection Hf as <-. }
  destruct Hst as [->|[Hst Hv]].
  - unfold geos_new, entry_is_vlir in Hf. rewrite Ex in Hf. cbn [rbind] in Hf.
    destruct (sector d (de_first e)) as [b| | |] eqn:Eb; [|done..]. cbn [rbind] in Hf. injection Hf as <-.
    unfold recs in Er. cbn [gf_vlir] in Er. destruct (vlir_locations_spec t d _ _ Hd Er) as [Hall Hin].
    assert (somes (index_records (pairs b))
      = (if present (pair_at b 0) then [pair_at b 0] else []) ++ List.filter present (index_slots b)) as Hidx.
    { rewrite index_records_spec, pairs_spec, (sector_Ok_length t d _ _ Hd Eb). change (256 / 2) with 128.
      change (seq 0 128) with (0 :: seq 1 127). rewrite map_cons. cbn [until_end].
      destruct (sound_first _ _ _ Ec) as (b' & Hb' & Hne). rewrite Eb in Hb'. injection Hb' as <-.
      rewrite bool_decide_false by done. cbn [List.filter].
      fold (index_slots b). by destruct (present (pair_at b 0)). }
    rewrite Hidx in Hall, Hin. rewrite Hin. split.
    + intros [H|[[-> H]|(s & cs' & Hs & Hcs & H)]].
      * eapply fs_chain; [destruct Hsch; congruence|done|done].
      * eapply fs_info; done.
      * apply in_app_or in Hs as [Hs|[Hs Hp]%filter_In]; [|by eapply fs_record].
        destruct (present (pair_at b 0)) eqn:Ep; [|done]. destruct Hs as [<-|[]].
        destruct cs as [|c1 cs]; [by destruct Ec as (_ & ? & _)|].
        destruct (decide (cs = [])) as [->|Hne].
        -- exfalso. pose proof Ec as (_ & Hh & _ & k & n & Hk & (b2 & Hb2 & H0 & H1 & H2)). injection Hk as <-. injection Hh as ->.
           rewrite Eb in Hb2. injection Hb2 as <-. destruct (sound_first _ _ _ Hcs) as (b3 & Hb3 & _).
           apply sector_Ok_valid in Hb3. unfold valid_loc in Hb3. change (pair_at b 0) with (b !!! 0, b !!! 1) in Hb3. rewrite H0 in Hb3.
           done.
        -- destruct (sound_tail _ _ _ _ Ec Hne) as (b2 & s' & Hc1 & Hb2 & Hs' & _ & Hs2). rewrite <- Hc1, Eb in Hb2. injection Hb2 as <-.
           change (pair_at b 0) with (b !!! 0, b !!! 1) in Hcs. rewrite <- Hs' in Hcs.
           eapply fs_chain; [destruct Hsch; congruence|done|]. right. by rewrite (sound_unique _ _ _ _ _ Hd Hs2 Hcs).
    + inversion 1 as [cs' l' H1 Hc Hl'|? ? ? ? ? ? H1|? ? ? ? ? ? ? ? _ Hx' Hi|? ? ? ? ? ? ? b' p cs' l' _ Hx' Hb' Hp Hpr Hc Hl']; subst.
      * left. by rewrite (sound_unique _ _ _ _ _ Hd Ec Hc).
      * destruct Hsch; congruence.
      * right. left. assert (l = info) as -> by congruence. done.
      * right. right. exists p, cs'. split; [|done]. rewrite Eb in Hb'. injection Hb' as <-.
        apply in_or_app. right. by apply filter_In.
  - unfold recs in Er. rewrite Hv in Er. injection Er as <-. split.
    + intros [H|[[-> H]|[]]].
      * eapply fs_chain; [destruct Hsch; congruence|done|done].
      * eapply fs_info; done.
    + inversion 1 as [cs' l' H1 Hc Hl'|? ? ? ? ? ? H1|? ? ? ? ? ? ? ? _ Hx' Hi|? ? ? ? ? ? ? b' p cs' l' _ Hx' Hb' Hp Hpr Hc Hl']; subst.
      * left. by rewrite (sound_unique _ _ _ _ _ Hd Ec Hc).
      * destruct Hsch; congruence.
      * right. left. assert (l = info) as -> by congruence. done.
      * congruence.
Qed.

(** The sectors the library enumerates for a file are the sectors it has. *)
Lemma sectors_of_spec t w e ls : dev_shape t (w_dev w) -> holds_bytes (w_dev w) -> sectors_of w e = Ok ls ->
  NoDup ls /\ forall l, In l ls <-> file_sector (w_dev w) e l.
Proof.
  intros Hd Hb. set (d := w_dev w) in *. unfold sectors_of, open_file_from_entry. fold d.
  destruct (w_get_bam w) as [c| | |]; [|done..]. cbn [rbind].
  destruct (de_scheme e) eqn:Es.
  - cbn [rbind file_occupied]. fold d. destruct (chain_locations d (de_first e)) as [cs| | |] eqn:E; [|done..].
    cbn [rbind]. intros [= <-]. split; [apply occupied_nodup|]. intros l. rewrite occupied_in.
    apply (locations_iff t) in E; [|done]. split.
    + intros H. eapply fs_chain; [by rewrite Es|done|done].
    + inversion 1 as [cs' l' _ Hc Hl|? ? ? ? ? ? H1|? ? ? ? ? ? ? ? H1|? ? ? ? ? ? ? ? ? ? ? H1]; subst;
        [|congruence|destruct H1; congruence|destruct H1; congruence].
      by rewrite (sound_unique _ _ _ _ _ Hd E Hc).
  - destruct (rel_new d c e) as [f| | |] eqn:E; [|done..]. cbn [rbind file_occupied]. intros [= <-].
    unfold rel_occupied. split; [apply occupied_nodup|]. intros l. rewrite occupied_in, in_app_iff.
    destruct (rel_opens t d c e f Hd Hb E) as (side & u & Hx & Hl & _). split.
    + intros H. eapply fs_side; [done|done|done|tauto].
    + inversion 1 as [cs' l' H1 Hc Hl'|side' len' u' sides' datas' l' _ Hx' [Hc' ->] Hin|? ? ? ? ? ? ? ? H1|? ? ? ? ? ? ? ? ? ? ? H1]; subst;
        [congruence| |destruct H1; congruence|destruct H1; congruence].
      rewrite Hx in Hx'. injection Hx' as <- <- <-. destruct Hl as [Hc ->].
      rewrite (sound_unique _ _ _ _ _ Hd Hc Hc'). tauto.
  - destruct (geos_new d c e) as [f| | |] eqn:E; [|done..]. cbn [rbind file_occupied]. fold d. intros H. eapply (geos_sectors t); eauto.
  - destruct (geos_new d c e) as [f| | |] eqn:E; [|done..]. cbn [rbind file_occupied]. fold d. intros H. eapply (geos_sectors t); eauto.
Qed.
