(** Calls on damaged images: when they can panic. *)
From Verif Require Import Base ListFacts Layout Block Bam Format Petscii GeosTypes DirEntry Header World Chain Directory Writer Rel GeosFile
  File Validate Spec SpecCodec SpecChain SpecBam SpecFiles GeomFacts DevFacts CodecProofs EntryProofs BamProofs ChainProofs AllocProofs AllocAny
  View Dirs SpecValidate Opening Session SpecDisk RelProofs SectorProofs AnyDir.

Definition graceful {A} (r : res A) : Prop := match r with Ok _ | Err _ => True | _ => False end.

(** ** Opening *)

Lemma side_loop_panic ss r :
  Forall (fun s => exists b, length b = 256 /\ cs_data s = used_part b) ss -> ended r ->
  graceful (side_loop ss r) \/ Exists (fun s => length (cs_data s) < 16) ss.
Proof.
  intros Hss Hr. induction Hss as [|s ss (b & Hb & Hd) Hss IH]; cbn [side_loop].
  - left. destruct Hr as [->|[x ->]]; done.
  - destruct (Nat.ltb_spec (length (cs_data s)) (SIDE_SECTOR_SSLIST_OFFSET + MAX_SIDE_SECTORS * 2)) as [H|H]; [right; by constructor|].
    destruct (link_new (cs_data s)) as [k|e| |] eqn:Ek; cbn [rbind]; [|by left| |].
    2,3: exfalso; unfold link_new in Ek; repeat case_match; done.
    destruct (_ || _); [by left|]. destruct IH as [IH|IH]; [left|right; by constructor].
    destruct (side_loop ss r) as [[[? ?] ?]| | |]; done.
Qed.

Lemma graceful_not {A} (r : res A) : graceful r -> r <> Panic /\ r <> NoFuel. Proof. by destruct r. Qed.

Lemma sector_graceful t d l : dev_shape t d -> graceful (sector d l).
Proof. intros Hd. destruct (sector_cases t d l Hd) as [(b & -> & _)|[-> _]]; done. Qed.

Lemma link_graceful b : graceful (link_new b).
Proof. unfold link_new. by repeat case_match. Qed.

Lemma rel_new_panic t d c e :
  dev_shape t d ->
  graceful (rel_new d c e)
  \/ exists side len u, de_extra e = XRelative side len u
     /\ (len = 0 \/ Exists (fun s => length (cs_data s) < 16) (fst (chain_walk d side))).
Proof.
  intros Hd. unfold rel_new. destruct (de_extra e) as [u|side len u|]; [by left| |by left]. cbn [rbind].
  destruct (chain_walk d side) as [ss r] eqn:Ew.
  destruct (chain_traversal t d side Hd) as (ss' & r' & E & _ & _ & _ & _ & _ & Hss & _). rewrite Ew in E. injection E as <- <-.
  destruct (walk_end_ended t d side ss r Hd Ew) as [Hend _].
  destruct (side_loop_panic ss r) as [H|H]; [|done| |].
  { eapply Forall_impl; [exact Hss|]. intros s (b & Hs & Hb). exists b. split; [by eapply sector_Ok_length|done]. }
  2: { right. exists side, len, u. split; [done|]. right. by rewrite Ew. }
  destruct (side_loop ss r) as [[[sides lists] datas]| | |]; cbn [rbind]; [|by left|done..].
  destruct (MAX_SIDE_SECTORS <? _); [by left|]. destruct (negb _); [by left|].
  destruct (match last datas with Some l => _ | None => _ end) as [x| | |] eqn:Ex; cbn [rbind]; [|by left| |].
  2,3: exfalso; destruct (last datas) as [l|]; [|done]; pose proof (sector_graceful t d l Hd) as Hg; destruct (sector d l) as [b| | |]; try done;
    cbn [rbind] in Ex; pose proof (link_graceful b) as Hl; destruct (link_new b) as [[]| | |]; done.
  destruct (Nat.eqb_spec len 0) as [->|Hne]; [right; exists side, 0, u; split; [done|by left]|].
  left. by destruct (negb _).
Qed.

Lemma stored_extra t d e l j b :
  dev_shape t d -> stored d e l j b ->
  (de_scheme e = SRelative -> exists side len u, de_extra e = XRelative side len u)
  /\ (de_scheme e = SGEOSSequential \/ de_scheme e = SGEOSVLIR ->
      exists info s ft y mo da ho mi, de_extra e = XGEOS info s ft y mo da ho mi).
Proof.
  intros Hd (Hs & Hj & border & e0 & Hp & -> & _). unfold dirent_parse in Hp.
  destruct (negb _); [done|]. apply Ok_inj in Hp. subst e0. cbn [set_border de_scheme de_extra].
  destruct (entry_scheme _ _); cbn [extra_from_bytes]; split; intros H;
    try (by destruct H); try done; eauto 10.
Qed.

Theorem open_panic t d name :
  dev_shape t d -> ~ graceful (open_file (open_world t d) name) ->
  exists e side len u, In e (fst (w_iter (open_world t d))) /\ de_name e = name /\ de_scheme e = SRelative
    /\ de_extra e = XRelative side len u
    /\ (len = 0 \/ exists l b, In l (map cs_location (fst (chain_walk d side))) /\ sector d l = Ok b /\ b !!! 0 = 0 /\ b !!! 1 < 15).
Proof.
  intros Hd Hg. destruct (open_cases t d Hd) as (_ & Hdev & _). unfold open_file in Hg.
  assert (dev_shape t (w_dev (open_world t d))) as Hd' by by rewrite Hdev.
  destruct (find_cases t (open_world t d) name Hd') as [(_ & e & He)|(_ & k & Hk & _)]; [|by rewrite Hk in Hg; destruct Hg].
  rewrite He in Hg. cbn [rbind] in Hg. destruct (find_stored t _ name e Hd' He) as (Hn & Hin & l & j & b & Hst). rewrite Hdev in Hst.
  destruct (stored_extra t d e l j b Hd Hst) as [HR HG]. unfold open_file_from_entry in Hg. rewrite Hdev in Hg.
  destruct (w_get_bam (open_world t d)) as [c| | |] eqn:Ec; cbn [rbind] in Hg; [| |exfalso; unfold w_get_bam in Ec; by destruct (w_bam _)..].
  2: by destruct Hg.
  destruct (de_scheme e) eqn:Es.
  - by destruct Hg.
  - destruct (rel_new_panic t d c e Hd) as [H|(side & len & u & Hx & H)].
    { destruct (rel_new d c e); by destruct Hg. }
    exists e, side, len, u. do 4 (split; [done|]). destruct H as [H|H]; [by left|right].
    destruct (chain_traversal t d side Hd) as (ss & r & Ew & _ & _ & _ & _ & _ & Hss & _). rewrite Ew in H |- *. cbn [fst] in *.
    apply Exists_exists in H as (s & Hs & Hlen). rewrite Forall_forall in Hss. destruct (Hss s Hs) as (b' & Hb' & Hu).
    exists (cs_location s), b'. split; [by apply in_map, elem_of_list_In|]. split; [done|].
    rewrite Hu in Hlen. unfold used_part in Hlen. pose proof (sector_Ok_length t d _ _ Hd Hb').
    destruct (Nat.eqb_spec (b' !!! 0) 0) as [E0|]; [|lia]. split; [done|]. rewrite take_length in Hlen. lia.
  - destruct HG as (info & s & ft & y & mo & da & ho & mi & Hx); [by left|]. unfold geos_new, entry_is_vlir in Hg. rewrite Hx in Hg.
    exfalso. apply Hg. destruct s; cbn [rbind]; try done.
    pose proof (sector_graceful t d (de_first e) Hd) as G. by destruct (sector d (de_first e)).
  - destruct HG as (info & s & ft & y & mo & da & ho & mi & Hx); [by right|]. unfold geos_new, entry_is_vlir in Hg. rewrite Hx in Hg.
    exfalso. apply Hg. destruct s; cbn [rbind]; try done.
    pose proof (sector_graceful t d (de_first e) Hd) as G. by destruct (sector d (de_first e)).
Qed.
