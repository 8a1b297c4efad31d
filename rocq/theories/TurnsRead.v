(** A reader goes on delivering its file while the other files change. *)
From Verif Require Import Base ListFacts Layout Block Bam Chain GeosTypes Petscii DirEntry Header World Directory Rel GeosFile File Spec SpecCodec SpecChain
  SpecBam SpecFiles SpecKinds Session SpecDisk GeomFacts FlatProofs DevFacts EntryProofs HeaderProofs ChainProofs BamProofs Evolve Holds View Dirs Ops OpWrite OpFile Refine Trace SpecTurns.
Ltac Zify.zify_post_hook ::= Z.div_mod_to_equations.

Definition at_sector (ls : list location) (k : nat) : chain_iter := mk_chain_iter (ls !! k) (rev (take k ls)).

(** What the reader of the chain [ls] has still to deliver, where the sectors
    from the k-th on hold the data [from k]. *)
Definition to_read (ls : list location) (from : nat -> list nat) (r : chain_reader) (rest : list nat) : Prop :=
  (cr_eof r = true /\ rest = [])
  \/ exists k, cr_eof r = false /\ cr_chain r = at_sector ls k /\ k <= length ls
       /\ rest = default [] (cr_block r) ++ from k.

(** The chain [ls] holds them on the image [d]. *)
Definition sectors_hold (d : dev) (ls : list location) (from : nat -> list nat) : Prop :=
  NoDup ls /\ from (length ls) = [] /\ forall k l, ls !! k = Some l ->
    exists s, chain_next d (at_sector ls k) = (at_sector ls (S k), Some (Ok s)) /\ drop 2 (cs_data s) ++ from (S k) = from k
      /\ valid_loc (d_geom d) l = true.

Lemma at_fresh (ls : list location) k l : NoDup ls -> ls !! k = Some l -> l ∉ rev (take k ls).
Proof.
  intros Hn Hl. rewrite elem_of_list_In, <- in_rev, <- elem_of_list_In. intros (j & Hj)%elem_of_list_lookup.
  apply lookup_take_Some in Hj as [Hj Hlt]. pose proof (NoDup_lookup _ _ _ _ Hn Hj Hl). lia.
Qed.

Lemma plain_sectors t d ls data :
  dev_shape t d -> holds d ls data -> NoDup ls -> Forall (fun l => fst l <> 0) ls -> sectors_hold d ls (fun k => drop (254 * k) data).
Proof.
  intros Hd Hh Hn Ht. pose proof (holds_length _ _ _ Hh) as Hlen. split; [done|]. split; [apply drop_ge; lia|]. intros k l Hl. unfold chain_next, at_sector. cbn [ci_next ci_visited]. rewrite Hl.
  pose proof (at_fresh _ _ _ Hn Hl) as Hv. destruct (decide (l ∈ rev (take k ls))) as [?|_]; [done|].
  destruct (proj2 Hh k l Hl) as (b & Hb & Hi). rewrite Hb.
  pose proof (sector_Ok_length t d l b Hd Hb) as Hlb. pose proof (sector_Ok_valid _ _ _ Hb) as Hval.
  assert (slice (254 * k) 254 data ++ drop (254 * S k) data = drop (254 * k) data) as Hcat.
  { unfold slice. replace (254 * S k) with (254 * k + 254) by lia. rewrite <- (drop_drop data 254 (254 * k)). apply take_drop. }
  rewrite (take_S_r _ _ _ Hl), rev_app_distr. cbn [rev app]. unfold block_is in Hi.
  pose proof (lookup_lt_Some _ _ _ Hl) as Hk.
  unfold link_new. destruct (ls !! S k) as [l'|] eqn:E.
  - destruct Hi as (H0 & H1 & H2). pose proof (Forall_lookup_1 _ _ _ _ Ht E) as Hl'. cbn beta in Hl'.
    rewrite (proj2 (Nat.eqb_neq _ _)) by lia. eexists. rewrite H0, H1, <- surjective_pairing. split; [done|]. split; [|done].
    cbn [cs_data]. rewrite take_ge by (unfold BLOCK_SIZE; lia). by rewrite H2.
  - destruct Hi as (H0 & H1 & H2 & H3). rewrite H0. cbn [Nat.eqb]. destruct (Nat.ltb_spec (b !!! 1) 1); [lia|].
    eexists. split; [done|]. split; [|done]. cbn [cs_data]. rewrite H1.
    replace (S (length data - 254 * k) + 1) with (2 + (length data - 254 * k)) by lia.
    rewrite <- take_drop_commute. unfold slice in *. rewrite H2. rewrite <- Hcat at 2. f_equal. symmetry. apply take_ge. rewrite drop_length. lia.
Qed.

(** The chain that is found on an image. *)
Lemma chain_sectors t d start ls :
  dev_shape t d -> sound_chain d start ls -> sectors_hold d ls (fun k => data_of d (drop k ls)).
Proof.
  intros Hd (Hn & Hh & Hp & lst & e & Hlast & He). split; [done|]. split; [by rewrite drop_all|]. intros k l Hl.
  unfold chain_next, at_sector. cbn [ci_next ci_visited]. rewrite Hl.
  pose proof (at_fresh _ _ _ Hn Hl) as Hv. destruct (decide (l ∈ rev (take k ls))) as [?|_]; [done|].
  rewrite (take_S_r _ _ _ Hl), rev_app_distr. cbn [rev app].
  destruct (ls !! S k) as [l'|] eqn:E.
  - destruct (Hp k l l' Hl E) as (b & Hb & H0 & H1 & H2). pose proof (sector_Ok_length t d l b Hd Hb) as Hlb. rewrite Hb. unfold link_new.
    rewrite (proj2 (Nat.eqb_neq _ _)) by congruence. eexists. rewrite H0, H1, <- surjective_pairing. split; [done|]. split; [|by eapply sector_Ok_valid].
    cbn [cs_data]. rewrite take_ge by (unfold BLOCK_SIZE; lia). rewrite (drop_S _ _ _ Hl). unfold data_of at 2. cbn [map concat]. rewrite Hb.
    unfold sector_data, used_part. by rewrite (proj2 (Nat.eqb_neq _ _)) by congruence.
  - assert (l = lst) as ->.
    { rewrite last_lookup in Hlast. apply lookup_ge_None in E. pose proof (lookup_lt_Some _ _ _ Hl). replace (pred (length ls)) with k in Hlast by lia. congruence. }
    destruct He as (b & Hb & H0 & H1 & H2). rewrite Hb. unfold link_new. rewrite H0. cbn [Nat.eqb]. destruct (Nat.ltb_spec (b !!! 1) 1); [lia|].
    eexists. split; [done|]. split; [|by eapply sector_Ok_valid]. cbn [cs_data]. rewrite (drop_S _ _ _ Hl). unfold data_of at 2. cbn [map concat]. rewrite Hb.
    unfold sector_data, used_part. by rewrite H0.
Qed.

Section chain.
  Context (t : disk_type) (d : dev) (ls : list location) (from : nat -> list nat).
  Context (Hd : dev_shape t d) (Hh : sectors_hold d ls from).

  Lemma read_loop fuel : forall r k n,
    cr_eof r = false -> cr_chain r = at_sector ls k -> k <= length ls ->
    2 * (length ls - k) + block_cost r + 3 <= fuel ->
    let s := default [] (cr_block r) ++ from k in
    exists r', reader_loop fuel d r n = (r', Ok (take n s)) /\ to_read ls from r' (drop n s).
  Proof.
    induction fuel as [|fuel IH]; intros r k n He Hc Hk Hf s; [lia|].
    destruct (decide (n = 0)) as [->|Hz].
    { exists r. cbn [reader_loop Nat.eqb orb]. rewrite take_0, drop_0. split; [done|]. right. by exists k. }
    cbn [reader_loop]. rewrite He, (proj2 (Nat.eqb_neq _ _) Hz). cbn [orb].
    destruct (cr_block r) as [block|] eqn:Hb.
    - cbn zeta. set (nb := Nat.min (length block) n).
      set (r1 := mk_chain_reader (cr_chain r) (if length block =? nb then None else Some (drop nb block)) false).
      assert (s = block ++ from k) as Hs by done.
      assert (default [] (cr_block r1) ++ from k = drop nb s) as Hs1.
      { rewrite Hs. unfold r1. cbn [cr_block]. destruct (Nat.eqb_spec (length block) nb) as [E|E]; cbn [default].
        - rewrite <- E. by rewrite drop_app.
        - by rewrite drop_app_le by lia. }
      assert (take nb block = take nb s) as Htk by (rewrite Hs, take_app_le by lia; done).
      destruct (decide (n = nb)) as [Hnn|Hnn].
      + exists r1. rewrite <- Hnn, Nat.sub_diag. destruct fuel as [|fuel]; [lia|]. cbn [reader_loop Nat.eqb orb rbind].
        rewrite app_nil_r. assert (take n block = take n s) as -> by (rewrite Hnn; exact Htk). split; [done|]. right. exists k.
        split; [done|]. split; [done|]. split; [done|]. rewrite Hnn. by rewrite Hs1.
      + assert (nb = length block) as Hnb by lia.
        assert (cr_block r1 = None) as Hr1 by (unfold r1; cbn [cr_block]; by rewrite (proj2 (Nat.eqb_eq _ _)) by lia).
        destruct (IH r1 k (n - nb) eq_refl Hc Hk) as (r' & H1 & H2).
        { unfold block_cost in *. rewrite Hb in Hf. rewrite Hr1. lia. }
        rewrite Hs1 in H1, H2. exists r'. rewrite H1. cbn [rbind]. split.
        * f_equal. f_equal. rewrite Htk, take_take_drop. f_equal. lia.
        * rewrite drop_drop in H2. by replace (nb + (n - nb)) with n in H2 by lia.
    - destruct (ls !! k) as [l|] eqn:El.
      + destruct (proj2 (proj2 Hh) k l El) as (sec & Hx & Hdat & _). rewrite Hc, Hx.
        pose proof (lookup_lt_Some _ _ _ El) as Hlt.
        set (r1 := mk_chain_reader (at_sector ls (S k)) (Some (drop 2 (cs_data sec))) false).
        assert (default [] (cr_block r1) ++ from (S k) = s) as Hs1 by exact Hdat.
        rewrite <- Hs1. apply (IH r1 (S k) n eq_refl eq_refl); [lia|].
        unfold block_cost in *. rewrite Hb in Hf. cbn [r1 cr_block]. lia.
      + rewrite Hc. unfold chain_next, at_sector. cbn [ci_next]. rewrite El.
        apply lookup_ge_None in El. assert (k = length ls) as -> by lia.
        exists (mk_chain_reader (at_sector ls (length ls)) None true). destruct fuel as [|fuel]; [lia|].
        assert (s = []) as -> by exact (proj1 (proj2 Hh)).
        cbn [reader_loop cr_eof]. rewrite orb_true_r, take_nil, drop_nil. split; [|by left].
        unfold at_sector. by rewrite lookup_ge_None_2 by lia.
  Qed.

  Lemma read_step r rest n : to_read ls from r rest ->
    exists r', reader_read d r n = (r', Ok (take n rest)) /\ to_read ls from r' (drop n rest).
  Proof.
    intros [[He ->]|(k & He & Hc & Hk & ->)]; unfold reader_read.
    - exists r. rewrite Nat.add_comm. cbn [Nat.add reader_loop]. rewrite He, orb_true_r, take_nil, drop_nil. split; [done|by left].
    - apply (read_loop _ r k n He Hc Hk). rewrite (ds_count _ _ Hd).
      assert (length ls <= sector_count (d_geom d)); [|unfold block_cost; destruct (cr_block r); lia].
      apply (valid_count t d ls Hd (proj1 Hh)). apply Forall_forall. intros l (i & Hi)%elem_of_list_lookup.
      by destruct (proj2 (proj2 Hh) i l Hi) as (b & _ & _ & Hv).
  Qed.
End chain.

Lemma keeps_slot t a o s m s' m' i f :
  keeps t a o s m s' m' -> slot_at m i = Some f -> about a o <> Some i -> slot_at m' i = Some f.
Proof.
  intros (j & Mv & Hj) Hf Ha. pose proof (Hj i f Hf Ha) as Hne. destruct (mv_frame _ _ _ _ _ _ Mv) as (_ & _ & _ & Hs).
  by rewrite Hs.
Qed.

Lemma reading_on t ls from ts : forall a s m c b a' i f r rest,
  related t a s m c b -> slot_at m i = Some f ->
  (forall d m', view t d m' -> slot_at m' i = Some f -> sectors_hold d ls from) ->
  after t a ts = Some a' -> untouched t a i ts -> to_read ls from r rest ->
  fst (reading s r ts) = map Ok (pieces rest (steps ts)).
Proof.
  induction ts as [|x ts IH]; intros a s m c b a' i f r rest R Hf Hp Ha Hu Hr; [done|]. destruct x as [o|n].
  - cbn [reading after untouched] in *. destruct Hu as [Hab Hu].
    assert (is_format o = false /\ exists a1 r1, astep t a o = Some (a1, r1) /\ after t a1 ts = Some a') as (Hfm & a1 & r1 & E & Ha1).
    { destruct o; try done; split; try done; destruct (astep _ _ _) as [[a1 r1]|]; try done; by exists a1, r1. }
    rewrite E in Hu. destruct (step_refines t a s m c b R o a1 r1 E) as (s1 & m1 & c1 & b1 & Hc & R1 & Hk). rewrite Hc. cbn [fst].
    change (steps (Other o :: ts)) with (steps ts).
    eapply (IH a1 s1 m1 c1 b1); [exact R1| |exact Hp|exact Ha1|exact Hu|exact Hr].
    by eapply keeps_slot; [apply Hk| |].
  - cbn [reading after untouched] in *. pose proof (rl_view t a s m c b R) as V.
    destruct (read_step t (w_dev (s_world s)) ls from (v_shape _ _ _ V) (Hp _ m V Hf) r rest n Hr) as (r' & E & Hr').
    rewrite E. specialize (IH a s m c b a' i f r' (drop n rest) R Hf Hp Ha Hu Hr').
    destruct (reading s r' ts) as [xs s'] eqn:Ex. cbn [fst] in *. change (steps (Step n :: ts)) with (n :: steps ts).
    rewrite pieces_cons. cbn [map]. by rewrite IH.
Qed.

Theorem reader_undisturbed t a s h i f ts a' :
  reached t a s -> file_of a h = Some (i, f) -> after t a ts = Some a' -> untouched t a i ts ->
  exists x r, s_handles s !! h = Some x /\ file_reader x = Ok r
    /\ fst (reading s r ts) = map Ok (pieces (a_data f) (steps ts)).
Proof.
  intros (m & c & b & R)%reached_related Hh Ha Hu.
  destruct (file_of_some t a s m c b R h i f Hh) as (x & g & Hx & Hok & Hg & ->).
  pose proof (rl_view t a s m c b R) as V. pose proof (proj1 (slot_at_Some _ _ _) Hg) as Hg'.
  destruct Hok as [(g' & e & ex & H1 & H2 & H3 & H4 & H5 & H6 & H7 & H8)]. rewrite Hg in H1. injection H1 as <-.
  exists x, (reader_new (de_first e)). split; [done|]. split; [by rewrite H2|].
  apply (reading_on t (mf_chain g) (fun k => drop (254 * k) (mf_data g)) ts a s m c b a' i g _ (mf_data g) R Hg); [|done|done|].
  - intros d m' V' Hf%slot_at_Some. destruct (v_files _ _ _ V' i g Hf) as (_ & _ & Hc). apply contents_plain in Hc; [|done].
    apply (plain_sectors t); [apply V'|done|apply (view_chain_nodup _ _ _ V' i g Hf)|apply (view_chain_tracks _ _ _ V' i g Hf)].
  - right. exists 0. split; [done|].
    destruct (view_file_nonempty _ _ _ V i g Hg' H8) as (l & ls & El). split; [|split; [lia|by rewrite Nat.mul_0_r, drop_0]].
    unfold at_sector, reader_new, chain_new. cbn [cr_chain]. rewrite H4, El. done.
Qed.
