(** Proofs about chain traversal and reading: C05, C06, C41. *)
From Verif Require Import Base ListFacts Layout Block Chain Spec SpecChain GeomFacts FlatProofs DevFacts.
Ltac Zify.zify_post_hook ::= Z.div_mod_to_equations.

(** ** Traversal *)

(** Reached from a state of the iterator: [l] is its next location. *)
Definition reached_from (d : dev) (l : location) (ls : list location) (l' : location) : Prop :=
  reached d l ls l'.

Lemma reached_cons d l l1 ls l' :
  linked d l l1 -> head ls = Some l1 \/ ls = [] -> reached d l1 ls l' -> reached d l (l :: ls) l'.
Proof.
  intros Hl Hh [[-> ->]|(k & Hk & Hkl)].
  - right. exists l. done.
  - right. exists k. split; [|done]. rewrite last_cons, Hk. done.
Qed.

Lemma path_cons d l l1 ls :
  linked d l l1 -> head ls = Some l1 \/ ls = [] -> path d ls -> path d (l :: ls).
Proof.
  intros Hl Hh Hp [|i] a b Ha Hb.
  - simpl in Ha. injection Ha as <-. simpl in Hb. destruct Hh as [Hh|Hh]; [|by subst].
    destruct ls as [|x ls]; [done|]. simpl in Hh, Hb. injection Hh as ->. injection Hb as <-. done.
  - simpl in Ha. by eapply Hp.
Qed.

Definition walk_end (d : dev) (seen : list location) (start : location) (ls : list location)
    (r : res unit) : Prop :=
  (r = Ok tt /\ exists l e, last ls = Some l /\ ends d l e)
  \/ (r = Err EChainLoop /\ exists l, reached d start ls l /\ (In l ls \/ In l seen))
  \/ (r = Err EInvalidLocation /\ exists l, reached d start ls l /\ valid_loc (d_geom d) l = false)
  \/ (r = Err EInvalidChainLink /\ exists l b, reached d start ls l /\ ~ In l ls /\ ~ In l seen
        /\ sector d l = Ok b /\ b !!! 0 = 0 /\ b !!! 1 = 0).

Lemma collect_spec t d fuel seen l :
  dev_shape t d -> NoDup seen -> Forall (fun l => valid_loc (d_geom d) l = true) seen ->
  sector_count (d_geom d) + 1 < fuel + length seen ->
  exists ss r, chain_collect fuel d (mk_chain_iter (Some l) seen) = (ss, r)
    /\ (let ls := map cs_location ss in
        NoDup ls /\ (forall x, In x ls -> ~ In x seen)
        /\ Forall (fun l => valid_loc (d_geom d) l = true) ls
        /\ path d ls /\ (head ls = Some l \/ ls = [])
        /\ walk_end d seen l ls r)
    /\ Forall (fun s => exists b, sector d (cs_location s) = Ok b /\ cs_data s = used_part b) ss.
Proof.
  intros Hd. revert seen l. induction fuel as [|fuel IH]; intros seen l Hnd Hv Hf.
  - exfalso. assert (length seen <= sector_count (d_geom d)); [|lia].
    pose proof (allowed_geom_ok _ _ (ds_geom _ _ Hd)) as Hok.
    rewrite <- (map_length (loc_index (d_geom d))).
    transitivity (length (seq 0 (sector_count (d_geom d)))); [|by rewrite seq_length].
    apply NoDup_incl_length.
    + apply NoDup_ListNoDup. apply (proj2 (NoDup_fmap_2_strong _ _)) || apply NoDup_fmap_2_strong; [|done].
      intros a b Ha Hb E. rewrite Forall_forall in Hv.
      apply (loc_index_inj _ Hok a b); auto.
    + intros i Hi. apply in_map_iff in Hi as (a & <- & Ha). apply in_seq.
      rewrite Forall_forall in Hv. specialize (Hv a ltac:(by apply elem_of_list_In)).
      pose proof (loc_index_lt _ Hok a Hv). lia.
  - cbn [chain_collect chain_next ci_next ci_visited].
    case_decide as Hin.
    { exists [], (Err EChainLoop). split; [done|]. split; [|done]. simpl.
      split; [constructor|]. split; [done|]. split; [done|]. split; [intros ? ? ? Hx; by rewrite lookup_nil in Hx|].
      split; [by right|]. right; left. split; [done|]. exists l. split; [by left|].
      right. by apply elem_of_list_In. }
    destruct (sector_cases t d l Hd) as [(b & Hb & Hlen & Hvl)|[Hb Hvl]]; rewrite Hb.
    2:{ exists [], (Err EInvalidLocation). split; [done|]. split; [|done]. simpl.
        split; [constructor|]. split; [done|]. split; [done|].
        split; [intros ? ? ? Hx; by rewrite lookup_nil in Hx|].
        split; [by right|]. right; right; left. split; [done|]. exists l. split; [by left|done]. }
    unfold link_new. destruct (Nat.eqb_spec (b !!! 0) 0) as [H0|H0].
    + destruct (Nat.ltb_spec (b !!! 1) 1) as [H1|H1].
      * exists [], (Err EInvalidChainLink). split; [done|]. split; [|done]. simpl.
        split; [constructor|]. split; [done|]. split; [done|].
        split; [intros ? ? ? Hx; by rewrite lookup_nil in Hx|].
        split; [by right|]. right; right; right. split; [done|]. exists l, b.
        split; [by left|]. split; [tauto|]. split; [by rewrite <- elem_of_list_In|].
        split; [done|]. split; [done|lia].
      * destruct fuel as [|fuel].
        { exfalso. clear IH. simpl in Hf.
          assert (length (l :: seen) <= sector_count (d_geom d)); [|simpl in *; lia].
          assert (NoDup (l :: seen)) as Hnd' by (by constructor).
          pose proof (allowed_geom_ok _ _ (ds_geom _ _ Hd)) as Hok.
          rewrite <- (map_length (loc_index (d_geom d))).
          transitivity (length (seq 0 (sector_count (d_geom d)))); [|by rewrite seq_length].
          assert (Forall (fun l => valid_loc (d_geom d) l = true) (l :: seen)) as Hv' by (by constructor).
          apply NoDup_incl_length.
          + apply NoDup_ListNoDup. apply NoDup_fmap_2_strong; [|done].
            intros x y Hx Hy E. rewrite Forall_forall in Hv'.
            apply (loc_index_inj _ Hok x y); auto.
          + intros i Hi. apply in_map_iff in Hi as (a & <- & Ha). apply in_seq.
            rewrite Forall_forall in Hv'. specialize (Hv' a ltac:(by apply elem_of_list_In)).
            pose proof (loc_index_lt _ Hok a Hv'). lia. }
        exists [mk_cs (take (b !!! 1 + 1) b) l], (Ok tt). split; [done|]. split.
        -- simpl. split; [apply NoDup_singleton|]. split.
           { intros x [<-|[]]. by rewrite <- elem_of_list_In. }
           split; [by constructor|]. split; [intros [|i] ? ? _ Hx; by rewrite ?lookup_nil in Hx|].
           split; [by left|]. left. split; [done|]. exists l, (b !!! 1). split; [done|].
           exists b. split; [done|]. split; [done|]. split; [done|lia].
        -- constructor; [|done]. exists b. split; [done|]. unfold used_part.
           by rewrite (proj2 (Nat.eqb_eq _ _) H0).
    + destruct (IH (l :: seen) (b !!! 0, b !!! 1)) as (ss & r & Hc & (Hnd' & Hns & Hv' & Hp & Hh & He) & Hss).
      { by constructor. } { by constructor. } { simpl. lia. }
      assert (linked d l (b !!! 0, b !!! 1)) as Hlk by (exists b; done).
      rewrite Hc. exists (mk_cs (take BLOCK_SIZE b) l :: ss), r. split; [done|]. split.
      2:{ constructor; [|done]. exists b. split; [done|]. unfold used_part.
          rewrite (proj2 (Nat.eqb_neq _ _) H0). simpl. rewrite take_ge; [done|]. unfold BLOCK_SIZE. lia. }
      cbn [map cs_location]. split.
      { constructor; [|done]. rewrite elem_of_list_In. intros Hx. apply (Hns l Hx). by left. }
      split.
      { intros x [<-|Hx]; [by rewrite <- elem_of_list_In|]. intros Hs. apply (Hns x Hx). by right. }
      split; [by constructor|]. split; [by eapply path_cons|]. split; [by left|].
      destruct He as [(-> & k & e & Hk & Hke)|[(-> & k & Hk & Hin')|[(-> & k & Hk & Hkv)|(-> & k & bk & Hk & Hn1 & Hn2 & Hkb)]]].
      * left. split; [done|]. exists k, e. split; [|done]. by rewrite last_cons, Hk.
      * right; left. split; [done|]. exists k. split; [by eapply reached_cons|].
        destruct Hin' as [?|[<-|?]]; [left; by right|left; by left|by right].
      * right; right; left. split; [done|]. exists k. split; [by eapply reached_cons|done].
      * right; right; right. split; [done|]. exists k, bk. split; [by eapply reached_cons|].
        split; [|split; [|done]].
        -- intros [<-|Hx]; [|done]. apply Hn2. by left.
        -- intros Hx. apply Hn2. by right.
Qed.

Lemma valid_count t d ls :
  dev_shape t d -> NoDup ls -> Forall (fun l => valid_loc (d_geom d) l = true) ls ->
  length ls <= sector_count (d_geom d).
Proof.
  intros Hd Hnd Hv. pose proof (allowed_geom_ok _ _ (ds_geom _ _ Hd)) as Hok.
  rewrite <- (map_length (loc_index (d_geom d))).
  transitivity (length (seq 0 (sector_count (d_geom d)))); [|by rewrite seq_length].
  apply NoDup_incl_length.
  - apply NoDup_ListNoDup. apply NoDup_fmap_2_strong; [|done].
    intros x y Hx Hy E. rewrite Forall_forall in Hv.
    apply (loc_index_inj _ Hok x y); auto.
  - intros i Hi. apply in_map_iff in Hi as (a & <- & Ha). apply in_seq.
    rewrite Forall_forall in Hv. specialize (Hv a ltac:(by apply elem_of_list_In)).
    pose proof (loc_index_lt _ Hok a Hv). lia.
Qed.

(** C05 *)
Theorem chain_traversal t d start :
  dev_shape t d ->
  exists ss r, chain_walk d start = (ss, r)
    /\ let ls := map cs_location ss in
       NoDup ls /\ length ls <= sector_count (d_geom d)
       /\ Forall (on_disk t (g_tracks (d_geom d))) ls
       /\ path d ls /\ (head ls = Some start \/ ls = [])
       /\ Forall (fun s => exists b, sector d (cs_location s) = Ok b /\ cs_data s = used_part b) ss
       /\ ((r = Ok tt /\ exists l e, last ls = Some l /\ ends d l e)
           \/ (r = Err EChainLoop /\ exists l, reached d start ls l /\ In l ls)
           \/ (r = Err EInvalidLocation
               /\ exists l, reached d start ls l /\ ~ on_disk t (g_tracks (d_geom d)) l)
           \/ (r = Err EInvalidChainLink /\ exists l b, reached d start ls l /\ ~ In l ls
               /\ sector d l = Ok b /\ b !!! 0 = 0 /\ b !!! 1 = 0)).
Proof.
  intros Hd.
  destruct (collect_spec t d (chain_fuel d) [] start Hd) as
    (ss & r & Hc & (Hnd & _ & Hv & Hp & Hh & He) & Hss).
  { constructor. } { constructor. } { unfold chain_fuel. rewrite (ds_count _ _ Hd). simpl. lia. }
  exists ss, r. split; [exact Hc|]. cbn zeta. split; [done|].
  split; [by eapply valid_count|]. split.
  { eapply Forall_impl; [exact Hv|]. intros l Hl. by eapply valid_loc_on_disk; [apply Hd|]. }
  split; [done|]. split; [done|]. split; [done|].
  destruct He as [?|[(-> & k & Hk & Hin')|[(-> & k & Hk & Hkv)|(-> & k & bk & Hk & Hn1 & Hn2 & Hkb)]]].
  - by left.
  - right; left. split; [done|]. exists k. split; [done|]. simpl in Hin'. tauto.
  - right; right; left. split; [done|]. exists k. split; [done|].
    intros Ho. eapply valid_loc_on_disk in Ho; [|apply Hd]. congruence.
  - right; right; right. split; [done|]. exists k, bk. tauto.
Qed.

(** After its end or an error the iterator only yields nothing. *)
Theorem chain_fused d it :
  match chain_next d it with
  | (it', None) | (it', Some (Err _)) => ci_next it' = None
  | _ => True
  end.
Proof.
  unfold chain_next. destruct (ci_next it) as [l|] eqn:E; [|done].
  case_decide; [done|]. destruct (sector d l); try done.
  destruct (link_new a) as [[?|?]| | |]; done.
Qed.

(** ** Sound chains *)

Definition block_of (d : dev) (l : location) : list nat :=
  match sector d l with Ok b => b | _ => [] end.

Lemma collect_path t d ls fuel seen start :
  dev_shape t d -> sound_chain d start ls -> (forall x, In x ls -> ~ In x seen) ->
  length ls < fuel ->
  chain_collect fuel d (mk_chain_iter (Some start) seen)
  = (map (fun l => mk_cs (used_part (block_of d l)) l) ls, Ok tt).
Proof.
  intros Hd. revert fuel seen start. induction ls as [|l ls IH];
    intros fuel seen start (Hnd & Hh & Hp & k & e & Hk & Hke) Hs Hf; [done|].
  simpl in Hh. injection Hh as ->. destruct fuel as [|fuel]; [simpl in Hf; lia|].
  cbn [chain_collect chain_next ci_next ci_visited].
  case_decide as Hin.
  { exfalso. apply (Hs start); [by left|]. by apply elem_of_list_In. }
  destruct ls as [|l' ls].
  - simpl in Hk. injection Hk as <-. destruct Hke as (b & Hb & H0 & H1 & He).
    unfold block_of. cbn [map]. rewrite Hb. unfold link_new. rewrite (proj2 (Nat.eqb_eq _ _) H0).
    destruct (Nat.ltb_spec (b !!! 1) 1); [lia|]. simpl in Hf.
    destruct fuel as [|fuel]; [lia|]. simpl. unfold used_part. by rewrite (proj2 (Nat.eqb_eq _ _) H0).
  - destruct (Hp 0 start l' eq_refl eq_refl) as (b & Hb & H0 & H1 & H2).
    rewrite Hb. unfold link_new. rewrite (proj2 (Nat.eqb_neq _ _)) by lia.
    rewrite H0, H1. rewrite <- surjective_pairing.
    apply NoDup_cons in Hnd as [Hni Hnd].
    rewrite (IH fuel (start :: seen) l').
    + cbn [map]. f_equal. f_equal. f_equal. unfold block_of. rewrite Hb. unfold used_part.
      rewrite (proj2 (Nat.eqb_neq _ _)) by lia. rewrite take_ge; [done|].
      rewrite (sector_Ok_length _ _ _ _ Hd Hb). done.
    + split; [done|]. split; [done|]. split.
      * intros i a c Ha Hc. by apply (Hp (S i)).
      * exists k, e. split; [|done]. by rewrite last_cons_cons in Hk.
    + intros x Hx [<-|Hx']; [|eapply Hs; [by right|done]]. apply Hni. by apply elem_of_list_In.
    + simpl in *. lia.
Qed.

Lemma sound_valid t d start ls :
  dev_shape t d -> sound_chain d start ls -> Forall (fun l => valid_loc (d_geom d) l = true) ls.
Proof.
  intros Hd (Hnd & Hh & Hp & k & e & Hk & Hke). apply Forall_forall. intros l Hl.
  apply elem_of_list_lookup in Hl as [i Hi].
  destruct (ls !! S i) as [l'|] eqn:E.
  - destruct (Hp i l l' Hi E) as (b & Hb & _). by eapply sector_Ok_valid.
  - apply lookup_ge_None in E. pose proof (lookup_lt_Some _ _ _ Hi).
    rewrite last_lookup in Hk. replace (pred (length ls)) with i in Hk by lia.
    assert (l = k) as -> by congruence. destruct Hke as (b & Hb & _). by eapply sector_Ok_valid.
Qed.

Lemma sound_length t d start ls :
  dev_shape t d -> sound_chain d start ls -> length ls <= sector_count (d_geom d).
Proof. intros Hd H. eapply valid_count; [done|apply H|by eapply sound_valid]. Qed.

Lemma walk_sound t d start ls :
  dev_shape t d -> sound_chain d start ls ->
  chain_walk d start = (map (fun l => mk_cs (used_part (block_of d l)) l) ls, Ok tt).
Proof.
  intros Hd Hs. unfold chain_walk, chain_new. eapply collect_path; [done|done|intros ? _ []|].
  pose proof (sound_length _ _ _ _ Hd Hs). unfold chain_fuel. rewrite (ds_count _ _ Hd). lia.
Qed.

Lemma sound_walk t d start ss :
  dev_shape t d -> chain_walk d start = (ss, Ok tt) -> sound_chain d start (map cs_location ss).
Proof.
  intros Hd Hw. destruct (chain_traversal t d start Hd) as (ss' & r & Hw' & Hnd & _ & _ & Hp & Hh & _ & He).
  rewrite Hw in Hw'. injection Hw' as <- <-.
  destruct He as [(_ & l & e & Hl & Hle)|[(? & _)|[(? & _)|(? & _)]]]; try done.
  split; [done|]. split; [|split; [done|eauto]].
  destruct Hh as [?|Hh]; [done|]. rewrite Hh in Hl. done.
Qed.

Lemma sound_unique t d start ls ls' :
  dev_shape t d -> sound_chain d start ls -> sound_chain d start ls' -> ls = ls'.
Proof.
  intros Hd H H'. apply (walk_sound t) in H; [|done]. apply (walk_sound t) in H'; [|done].
  rewrite H in H'. injection H' as H'. apply (f_equal (map cs_location)) in H'.
  rewrite !map_map in H'. simpl in H'. by rewrite !map_id in H'.
Qed.

Lemma locations_sound t d start ls :
  dev_shape t d -> sound_chain d start ls -> chain_locations d start = Ok ls.
Proof.
  intros Hd Hs. unfold chain_locations, all_or_error. rewrite (walk_sound _ _ _ _ Hd Hs). simpl.
  rewrite map_map. simpl. by rewrite map_id.
Qed.

Lemma data_of_walk d ls :
  concat (map (fun s => drop 2 (cs_data s)) (map (fun l => mk_cs (used_part (block_of d l)) l) ls))
  = data_of d ls.
Proof.
  unfold data_of. rewrite map_map. simpl. f_equal. apply map_ext. intros l. unfold block_of.
  by destruct (sector d l).
Qed.

Theorem read_all_sound t d start ls :
  dev_shape t d -> sound_chain d start ls -> read_all d start = Ok (data_of d ls).
Proof.
  intros Hd Hs. unfold read_all, all_or_error. rewrite (walk_sound _ _ _ _ Hd Hs). simpl.
  by rewrite data_of_walk.
Qed.

(** ** Reading *)

Definition stream_of (r : chain_reader) (ss : list chain_sector) : list nat :=
  default [] (cr_block r) ++ concat (map (fun s => drop 2 (cs_data s)) ss).

Definition ended (e : res unit) : Prop := e = Ok tt \/ exists x, e = Err x.


Definition block_cost (r : chain_reader) : nat := match cr_block r with Some _ => 1 | None => 0 end.

Lemma collect_step cf d it ss e :
  chain_collect cf d it = (ss, e) -> ended e ->
  match chain_next d it with
  | (_, None) => ss = [] /\ e = Ok tt
  | (it', Some (Ok s)) => exists ss' cf', ss = s :: ss' /\ chain_collect cf' d it' = (ss', e)
  | (_, Some (Err x)) => ss = [] /\ e = Err x
  | _ => False
  end.
Proof.
  destruct cf as [|cf]; simpl.
  { intros [= <- <-] [?|[? ?]]; done. }
  destruct (chain_next d it) as [it' [[s|x| |]|]].
  - destruct (chain_collect cf d it') as [ss' e'] eqn:E. intros [= <- <-] _. eauto.
  - by intros [= <- <-].
  - intros [= <- <-] [?|[? ?]]; done.
  - intros [= <- <-] [?|[? ?]]; done.
  - by intros [= <- <-].
Qed.

Lemma reader_loop_spec fuel d r n ss e cf :
  cr_eof r = false -> chain_collect cf d (cr_chain r) = (ss, e) -> ended e ->
  2 * length ss + block_cost r + 3 <= fuel ->
  let s := stream_of r ss in
  exists r',
    (n <= length s ->
       reader_loop fuel d r n = (r', Ok (take n s)) /\ cr_eof r' = false
       /\ exists ss' cf', chain_collect cf' d (cr_chain r') = (ss', e)
            /\ stream_of r' ss' = drop n s /\ length ss' <= length ss)
    /\ (length s < n -> reader_loop fuel d r n = (r', end_read s e) /\ cr_eof r' = true).
Proof.
  revert r n ss cf. induction fuel as [|fuel IH]; intros r n ss cf Hr Hc He Hf s; [lia|].
  destruct (decide (n = 0)) as [->|Hn].
  { exists r. split; [|intros; lia]. intros _. split; [simpl; by rewrite take_0|]. split; [done|].
    exists ss, cf. rewrite drop_0. done. }
  assert (forall r', (let '(a, b) := (r', reader_loop fuel d r' n) in True)) as _ by done.
  cbn [reader_loop]. rewrite Hr. rewrite (proj2 (Nat.eqb_neq _ _) Hn). cbn [orb].
  destruct (cr_block r) as [block|] eqn:Hb.
  - cbn zeta. set (nb := Nat.min (length block) n).
    set (r1 := mk_chain_reader (cr_chain r)
                        (if length block =? nb then None else Some (drop nb block)) false).
    assert (s = block ++ concat (map (fun s => drop 2 (cs_data s)) ss)) as Hs.
    { unfold s, stream_of. by rewrite Hb. }
    assert (stream_of r1 ss = drop nb s) as Hs1.
    { unfold stream_of, r1. simpl. rewrite Hs. destruct (Nat.eqb_spec (length block) nb) as [E|E].
      - simpl. rewrite <- E. by rewrite drop_app.
      - simpl. rewrite drop_app_le by lia. done. }
    assert (length (drop nb s) = length s - nb) as Hds by (apply drop_length).
    assert (nb <= length s) as Hnbs by (rewrite Hs, app_length; lia).
    assert (take nb block = take nb s) as Htk by (rewrite Hs, take_app_le by lia; done).
    destruct (decide (n = nb)) as [Hnn|Hnn].
    + (* the buffer is full *)
      exists r1. rewrite <- Hnn, Nat.sub_diag.
      assert (fuel <> 0) by lia. destruct fuel as [|fuel]; [lia|].
      cbn [reader_loop Nat.eqb orb rbind]. split; [|intros; lia].
      intros _. rewrite app_nil_r. rewrite Hnn at 1 2. rewrite Htk. split; [done|]. split; [done|].
      exists ss, cf. rewrite Hnn. done.
    + assert (nb = length block) as Hnb by lia.
      assert (cr_block r1 = None) as Hr1.
      { unfold r1. simpl. by rewrite (proj2 (Nat.eqb_eq _ _)) by lia. }
      destruct (IH r1 (n - nb) ss cf eq_refl Hc He) as (r' & H1 & H2).
      { unfold block_cost in *. rewrite Hb in Hf. rewrite Hr1. lia. }
      rewrite Hs1, Hds in H1, H2. exists r'. split.
      * intros Hle. destruct (H1 ltac:(lia)) as (Hl & Heof & ss' & cf' & Hc' & Hd' & Hlen).
        rewrite Hl. cbn [rbind]. split.
        { f_equal. f_equal. rewrite Htk. rewrite take_take_drop. f_equal. lia. }
        split; [done|]. exists ss', cf'. split; [done|]. split; [|done].
        rewrite Hd', drop_drop. f_equal. lia.
      * intros Hlt. destruct (H2 ltac:(lia)) as (Hl & Heof). rewrite Hl. split; [|done].
        f_equal. unfold end_read. destruct He as [->|[x ->]]; [|done]. cbn [rbind].
        rewrite Htk, take_drop. done.
  - pose proof (collect_step _ _ _ _ _ Hc He) as Hst.
    assert (s = concat (map (fun s => drop 2 (cs_data s)) ss)) as Hs.
    { unfold s, stream_of. by rewrite Hb. }
    destruct (chain_next d (cr_chain r)) as [it [[sec|x| |]|]].
    + destruct Hst as (ss' & cf' & -> & Hc').
      set (r1 := mk_chain_reader it (Some (drop 2 (cs_data sec))) false).
      destruct (IH r1 n ss' cf' eq_refl Hc' He) as (r' & H1 & H2).
      { unfold block_cost in *. rewrite Hb in Hf. simpl in *. lia. }
      assert (stream_of r1 ss' = s) as Hs1 by (rewrite Hs; done).
      rewrite Hs1 in H1, H2. exists r'. split; [|done].
      intros Hle. destruct (H1 Hle) as (Hl & Heof & ss'' & cf'' & Hc'' & Hd' & Hlen).
      split; [done|]. split; [done|]. exists ss'', cf''. split; [done|]. split; [done|]. simpl. lia.
    + destruct Hst as [-> ->]. simpl in Hs. rewrite Hs. eexists. split; [simpl; lia|].
      intros _. split; done.
    + done.
    + done.
    + destruct Hst as [-> ->]. simpl in Hs. rewrite Hs. exists (mk_chain_reader it None true).
      split; [simpl; lia|]. intros _. split; [|done].
      destruct fuel as [|fuel]; [lia|]. cbn [reader_loop cr_eof]. by rewrite orb_true_r.
Qed.



Lemma run_reads_eof d r ns : cr_eof r = true -> run_reads d r ns = map (fun _ => Ok []) ns.
Proof.
  intros Hr. induction ns as [|n ns IH]; [done|]. cbn [run_reads]. unfold reader_read.
  rewrite Nat.add_comm. cbn [Nat.add reader_loop]. rewrite Hr, orb_true_r. by rewrite IH.
Qed.

Lemma run_reads_spec d r ns ss e cf :
  cr_eof r = false -> chain_collect cf d (cr_chain r) = (ss, e) -> ended e ->
  length ss <= length (d_blocks d) ->
  run_reads d r ns = reads_spec (stream_of r ss) e ns.
Proof.
  revert r ss cf. induction ns as [|n ns IH]; intros r ss cf Hr Hc He Hl; [done|].
  cbn [run_reads reads_spec]. unfold reader_read.
  destruct (reader_loop_spec (2 * length (d_blocks d) + 8) d r n ss e cf Hr Hc He) as (r' & H1 & H2).
  { unfold block_cost. destruct (cr_block r); lia. }
  destruct (Nat.leb_spec n (length (stream_of r ss))) as [Hn|Hn].
  - destruct (H1 Hn) as (E & Hr' & ss' & cf' & Hc' & Hs' & Hl'). rewrite E, <- Hs'. f_equal.
    apply (IH r' ss' cf'); try done. lia.
  - destruct (H2 Hn) as (E & Hr'). rewrite E. f_equal. by apply run_reads_eof.
Qed.

Lemma walk_end_ended t d start ss e :
  dev_shape t d -> chain_walk d start = (ss, e) -> ended e /\ length ss <= sector_count (d_geom d).
Proof.
  intros Hd Hw. destruct (chain_traversal t d start Hd) as (ss' & r & Hw' & _ & Hl & _ & _ & _ & _ & He).
  rewrite Hw in Hw'. injection Hw' as <- <-. rewrite map_length in Hl. split; [|done].
  destruct He as [[? _]|[[? _]|[[? _]|[? _]]]]; [left|right|right|right]; eauto.
Qed.

(** C06, for any chain. *)
Theorem reads_any t d start ns ss e :
  dev_shape t d -> chain_walk d start = (ss, e) ->
  run_reads d (reader_new start) ns
  = reads_spec (concat (map (fun s => drop 2 (cs_data s)) ss)) e ns.
Proof.
  intros Hd Hw. destruct (walk_end_ended _ _ _ _ _ Hd Hw) as [He Hl].
  rewrite (run_reads_spec d (reader_new start) ns ss e (chain_fuel d)); [done|done|exact Hw|done|].
  by rewrite (ds_count _ _ Hd).
Qed.

Lemma pieces_cons c n ns : pieces c (n :: ns) = take n c :: pieces (drop n c) ns.
Proof.
  unfold pieces. cbn [length]. rewrite <- cons_seq. cbn [map]. f_equal.
  rewrite <- seq_shift, map_map. apply map_ext. intros i. cbn [take].
  unfold slice. rewrite drop_drop. done.
Qed.

Lemma reads_spec_sound c ns : reads_spec c (Ok tt) ns = map Ok (pieces c ns).
Proof.
  revert c. induction ns as [|n ns IH]; intros c; [done|].
  rewrite pieces_cons. cbn [reads_spec map].
  destruct (Nat.leb_spec n (length c)) as [H|H]; [by rewrite IH|].
  cbn [end_read rbind]. rewrite take_ge by lia. f_equal.
  rewrite drop_ge by lia. rewrite <- IH. clear. induction ns as [|n ns IH]; [done|].
  cbn [map reads_spec]. destruct n; simpl; [by rewrite IH|]. done.
Qed.

(** C06 *)
Theorem reads_sound t d start ls ns :
  dev_shape t d -> sound_chain d start ls ->
  run_reads d (reader_new start) ns = map Ok (pieces (data_of d ls) ns)
  /\ read_all d start = Ok (data_of d ls).
Proof.
  intros Hd Hs. split; [|by eapply read_all_sound].
  rewrite (reads_any _ _ _ _ _ _ Hd (walk_sound _ _ _ _ Hd Hs)).
  by rewrite data_of_walk, reads_spec_sound.
Qed.

(** ** Looking for the last sector *)

Lemma tail_path t d ls fuel start b :
  dev_shape t d -> sound_chain d start ls -> length ls <= fuel -> sector d start = Ok b ->
  exists l, last ls = Some l /\ tail_loop fuel d start b = Ok (l, block_of d l).
Proof.
  intros Hd. revert fuel start b. induction ls as [|l ls IH];
    intros fuel start b (Hnd & Hh & Hp & k & e & Hk & Hke) Hf Hb; [done|].
  simpl in Hh. injection Hh as ->. destruct fuel as [|fuel]; [simpl in Hf; lia|].
  cbn [tail_loop]. destruct ls as [|l' ls].
  - simpl in Hk. injection Hk as <-. destruct Hke as (b' & Hb' & H0 & H1 & He).
    exists start. split; [done|]. assert (b' = b) as -> by congruence.
    unfold link_new. rewrite (proj2 (Nat.eqb_eq _ _) H0). destruct (Nat.ltb_spec (b !!! 1) 1); [lia|].
    cbn [rbind]. unfold block_of. by rewrite Hb.
  - destruct (Hp 0 start l' eq_refl eq_refl) as (b' & Hb' & H0 & H1 & H2).
    assert (b' = b) as -> by congruence.
    unfold link_new. rewrite (proj2 (Nat.eqb_neq _ _)) by lia. cbn [rbind].
    rewrite H0, H1, <- surjective_pairing.
    assert (sound_chain d l' (l' :: ls)) as Hs'.
    { apply NoDup_cons in Hnd as [_ Hnd]. split; [done|]. split; [done|]. split.
      - intros i a c Ha Hc. by apply (Hp (S i)).
      - exists k, e. split; [|done]. by rewrite last_cons_cons in Hk. }
    pose proof (sound_valid _ _ _ _ Hd Hs') as Hv. apply Forall_cons in Hv as [Hv _].
    destruct (sector_cases t d l' Hd) as [(bl & Hbl & _)|[_ ?]]; [|congruence].
    rewrite Hbl. cbn [rbind].
    destruct (IH fuel l' bl Hs') as (z & Hz & Ht); [simpl in *; lia|done|].
    exists z. split; [|done]. by rewrite last_cons_cons.
Qed.

Theorem find_tail_sound t d start ls fuel :
  dev_shape t d -> sound_chain d start ls -> length ls <= fuel ->
  exists l b, last ls = Some l /\ sector d l = Ok b /\ find_tail_fuel fuel d start = Ok (l, b).
Proof.
  intros Hd Hs Hf. pose proof (sound_valid _ _ _ _ Hd Hs) as Hv.
  assert (valid_loc (d_geom d) start = true) as Hvs.
  { rewrite Forall_forall in Hv. apply Hv. destruct Hs as (_ & Hh & _).
    destruct ls; [done|]. simpl in Hh. injection Hh as ->. by left. }
  unfold find_tail_fuel. destruct (sector_cases t d start Hd) as [(b & Hb & _)|[_ ?]]; [|congruence].
  rewrite Hb. cbn [rbind]. destruct (tail_path t d ls fuel start b Hd Hs Hf Hb) as (l & Hl & Ht).
  rewrite Ht. unfold block_of. rewrite Forall_forall in Hv.
  specialize (Hv l ltac:(by apply last_Some_elem_of)).
  destruct (sector_cases t d l Hd) as [(bl & Hbl & _)|[_ ?]]; [|congruence].
  rewrite Hbl. eauto.
Qed.

(** ** C41: looking for the last sector stops unless the chain is cyclic *)

Lemma tail_follows fuel d l b seen ss r :
  chain_collect fuel d (mk_chain_iter (Some l) seen) = (ss, r) -> sector d l = Ok b ->
  match r with
  | Ok _ => exists x, tail_loop fuel d l b = Ok x
  | Err EChainLoop => True
  | Err e => tail_loop fuel d l b = Err e
  | _ => True
  end.
Proof.
  revert l b seen ss r. induction fuel as [|fuel IH]; intros l b seen ss r Hc Hb.
  { simpl in Hc. injection Hc as <- <-. done. }
  cbn [chain_collect chain_next ci_next ci_visited] in Hc. cbn [tail_loop].
  case_decide; [injection Hc as <- <-; done|]. rewrite Hb in Hc.
  destruct (link_new b) as [[l'|size]|e| |] eqn:E.
  - destruct (chain_collect fuel d _) as [ss' r'] eqn:Hc'. injection Hc as <- <-. cbn [rbind].
    destruct (sector d l') as [b'|e| |] eqn:Hb'.
    + apply (IH _ _ _ _ _ Hc' Hb').
    + destruct fuel as [|fuel]; [simpl in Hc'; injection Hc' as <- <-; done|].
      cbn [chain_collect chain_next ci_next ci_visited] in Hc'.
      revert Hc'. case_decide; [by intros [= <- <-]|]. rewrite Hb'. intros [= <- <-].
      cbn [rbind]. by destruct e.
    + destruct fuel as [|fuel]; [simpl in Hc'; injection Hc' as <- <-; done|].
      cbn [chain_collect chain_next ci_next ci_visited] in Hc'.
      revert Hc'. case_decide; [by intros [= <- <-]|]. rewrite Hb'. by intros [= <- <-].
    + destruct fuel as [|fuel]; [simpl in Hc'; injection Hc' as <- <-; done|].
      cbn [chain_collect chain_next ci_next ci_visited] in Hc'.
      revert Hc'. case_decide; [by intros [= <- <-]|]. rewrite Hb'. by intros [= <- <-].
  - destruct fuel as [|fuel]; simpl in Hc; injection Hc as <- <-; [done|]. eauto.
  - injection Hc as <- <-. cbn [rbind]. by destruct e.
  - injection Hc as <- <-. done.
  - injection Hc as <- <-. done.
Qed.

Lemma tail_cycle d ls fuel l b :
  (forall x, In x ls -> exists y, In y ls /\ linked d x y) ->
  In l ls -> sector d l = Ok b -> tail_loop fuel d l b = NoFuel.
Proof.
  intros Hcl. revert l b. induction fuel as [|fuel IH]; intros l b Hl Hb; [done|].
  cbn [tail_loop]. destruct (Hcl l Hl) as (y & Hy & b' & Hb' & H0 & H1 & H2).
  assert (b' = b) as -> by congruence.
  unfold link_new. rewrite (proj2 (Nat.eqb_neq _ _)) by lia. cbn [rbind].
  rewrite H0, H1, <- surjective_pairing.
  destruct (Hcl y Hy) as (z & Hz & by' & Hby & _). rewrite Hby. cbn [rbind]. by apply IH.
Qed.

Lemma collect_more d f1 f2 it ss r :
  chain_collect f1 d it = (ss, r) -> ended r -> f1 <= f2 -> chain_collect f2 d it = (ss, r).
Proof.
  revert f2 it ss r. induction f1 as [|f1 IH]; intros f2 it ss r H1 He Hf.
  { simpl in H1. injection H1 as <- <-. destruct He as [?|[? ?]]; done. }
  destruct f2 as [|f2]; [lia|]. cbn [chain_collect] in *.
  destruct (chain_next d it) as [it' [[s|x| |]|]]; try done.
  destruct (chain_collect f1 d it') as [ss' r'] eqn:E. injection H1 as <- <-.
  by rewrite (IH f2 it' ss' r' E He) by lia.
Qed.

Lemma tail_more f1 f2 d l b x :
  tail_loop f1 d l b = Ok x -> f1 <= f2 -> tail_loop f2 d l b = Ok x.
Proof.
  revert f2 l b. induction f1 as [|f1 IH]; intros f2 l b H Hf; [done|].
  destruct f2 as [|f2]; [lia|]. cbn [tail_loop] in *.
  destruct (link_new b) as [[l'|size]|e| |]; cbn [rbind] in *; try done.
  destruct (sector d l') as [b'| | |]; cbn [rbind] in *; try done.
  apply IH; [done|lia].
Qed.

Theorem find_tail_terminates t d start :
  dev_shape t d ->
  (snd (chain_walk d start) <> Err EChainLoop ->
     (exists x, forall fuel, chain_fuel d <= fuel -> find_tail_fuel fuel d start = Ok x)
     \/ (exists e, forall fuel, chain_fuel d <= fuel -> find_tail_fuel fuel d start = Err e))
  /\ (snd (chain_walk d start) = Err EChainLoop ->
     forall fuel, find_tail_fuel fuel d start = NoFuel).
Proof.
  intros Hd. destruct (chain_traversal t d start Hd) as (ss & r & Hw & Hnd & _ & Hv & Hp & Hh & _ & He).
  rewrite Hw. cbn [snd]. split.
  - intros Hr.
    destruct (walk_end_ended _ _ _ _ _ Hd Hw) as [Hen _].
    destruct (sector_cases t d start Hd) as [(b & Hb & _)|[Hb _]].
    2:{ right. exists EInvalidLocation. intros fuel _. unfold find_tail_fuel. by rewrite Hb. }
    assert (forall fuel, chain_fuel d <= fuel ->
              match r with
              | Ok _ => exists x, tail_loop fuel d start b = Ok x
              | Err EChainLoop => True
              | Err e => tail_loop fuel d start b = Err e
              | _ => True
              end) as H.
    { intros fuel Hf. apply (tail_follows fuel d start b [] ss r); [|done].
      by eapply collect_more. }
    unfold find_tail_fuel. rewrite Hb. cbn [rbind].
    destruct Hen as [->|[e ->]].
    + left. assert (exists x, tail_loop (chain_fuel d) d start b = Ok x) as [x Hx] by (by apply H).
      exists x. intros fuel Hf. eapply tail_more; [exact Hx|done].
    + right. exists e. intros fuel Hf. specialize (H fuel Hf). by destruct e.
  - intros ->. destruct He as [[? _]|[(_ & l & Hl & Hin)|[[? _]|[? _]]]]; try done.
    intros fuel. set (ls := map cs_location ss) in *.
    assert (forall x, In x ls -> exists y, In y ls /\ linked d x y) as Hcl.
    { intros x Hx. apply elem_of_list_In, elem_of_list_lookup in Hx as [i Hi].
      destruct (ls !! S i) as [y|] eqn:Hy.
      - exists y. split; [apply elem_of_list_In; by eapply elem_of_list_lookup_2|]. by eapply Hp.
      - exists l. split; [done|]. apply lookup_ge_None in Hy. pose proof (lookup_lt_Some _ _ _ Hi).
        destruct Hl as [[Hnil _]|(k & Hk & Hkl)]; [by rewrite Hnil in Hin|].
        rewrite last_lookup in Hk. replace (pred (length ls)) with i in Hk by lia.
        assert (x = k) as -> by congruence. done. }
    assert (In start ls) as Hstart.
    { destruct Hh as [Hh|Hh]; [|by rewrite Hh in Hin]. destruct ls; [done|].
      simpl in Hh. injection Hh as ->. by left. }
    destruct (Hcl start Hstart) as (y & _ & b & Hb & _). unfold find_tail_fuel. rewrite Hb. cbn [rbind].
    by eapply tail_cycle.
Qed.

Theorem chain_fused' d it :
  match chain_next d it with
  | (it', None) | (it', Some (Err _)) => chain_next d it' = (it', None)
  | _ => True
  end.
Proof.
  pose proof (chain_fused d it) as H. destruct (chain_next d it) as [it' [[s|e| |]|]]; try done;
    unfold chain_next; by rewrite H.
Qed.
