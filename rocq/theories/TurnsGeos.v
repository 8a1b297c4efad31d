(** The readers of GEOS files, while other files change. *)
From Verif Require Import Base ListFacts Layout Block Bam Chain GeosTypes Petscii DirEntry Header World Directory Rel GeosFile File Spec SpecCodec SpecChain
  SpecBam SpecFiles SpecGeos SpecKinds Session SpecDisk GeomFacts FlatProofs DevFacts EntryProofs HeaderProofs ChainProofs SectorProofs BamProofs Evolve Holds View Dirs Ops OpWrite OpFile SpecialFiles Refine Trace SpecTurns TurnsRead.
Ltac Zify.zify_post_hook ::= Z.div_mod_to_equations.

(** A special file of the table keeps its sectors for as long as it is there. *)
Lemma special_kept t d m d' m' i f y :
  view t d m -> slot_at m i = Some f -> view t d' m' -> slot_at m' i = Some f -> mf_special f = Some y ->
  forall l, l ∈ mf_chain f -> sector d' l = sector d l.
Proof.
  intros V Hf V' Hf' Hy. apply slot_at_Some in Hf, Hf'.
  destruct (v_files _ _ _ V i f Hf) as (_ & Hc & Hh), (v_files _ _ _ V' i f Hf') as (_ & _ & Hh').
  unfold contents in Hh, Hh'. rewrite Hy in Hh, Hh'. destruct Hh as (_ & Hr & _), Hh' as (_ & Hr' & _).
  apply (raw_agree t); [apply V|apply V'|done|congruence].
Qed.

Lemma occupied_parts t d f ls : dev_shape t d -> geos_occupied d f = Ok ls ->
  (exists ch, chain_locations d (de_first (gf_entry f)) = Ok ch /\ forall l, l ∈ ch -> l ∈ ls)
  /\ (forall il, entry_info_location (gf_entry f) = Ok (Some il) -> il ∈ ls)
  /\ forall records l, gf_vlir f = Some records -> In l (somes records) -> exists l1, chain_locations d l = Ok l1 /\ forall x, x ∈ l1 -> x ∈ ls.
Proof.
  unfold geos_occupied. intros Hd H.
  destruct (chain_locations d (de_first (gf_entry f))) as [ch| | |] eqn:Ec; try discriminate. cbn [rbind] in *.
  destruct (entry_info_location (gf_entry f)) as [il| | |]; try discriminate. cbn [rbind] in *.
  destruct (match gf_vlir f with Some _ => _ | None => _ end) as [rs| | |] eqn:Er in H; try discriminate. cbn [rbind] in *.
  apply Ok_inj in H.
  assert (forall l, l ∈ ch ++ match il with Some l => [l] | None => [] end ++ rs -> l ∈ ls) as Hs.
  { intros l Hl. rewrite <- H. apply elem_of_list_In, occupied_in. by apply elem_of_list_In. }
  split; [|split].
  - exists ch. split; [done|]. intros l Hl. apply Hs. set_solver.
  - intros l [= ->]. apply Hs. set_solver.
  - intros records l E Hl. rewrite E in Er. destruct (vlir_start t d d Hd Hd _ _ l Er Hl) as (l1 & Hl1 & Hin).
    exists l1. split; [done|]. intros x Hx. apply Hs. set_solver.
Qed.

(** ** The data of a sequential file *)

Lemma sectors_hold_ext d ls from from' : (forall k, from k = from' k) -> sectors_hold d ls from -> sectors_hold d ls from'.
Proof.
  intros E (H1 & H2 & H3). split; [done|]. split; [by rewrite <- E|]. intros k l Hl. destruct (H3 k l Hl) as (s & Hs & Hd & Hv).
  exists s. rewrite <- !E. done.
Qed.
Lemma data_of_agree d d' ls : (forall l, l ∈ ls -> sector d' l = sector d l) -> data_of d' ls = data_of d ls.
Proof.
  intros H. unfold data_of. f_equal. apply map_ext_in. intros l Hl. rewrite H; [done|]. by apply elem_of_list_In.
Qed.

Lemma special_held t a s m c b h i f : related t a s m c b -> held a h = Some (i, f) -> a_kind f <> KPlain ->
  exists x g y e, s_handles s !! h = Some x /\ slot_at m i = Some g /\ f = abs_file g /\ mf_special g = Some y /\ a_kind f = sp_kind y
    /\ de_scheme e <> SLinear
    /\ forall d, dev_shape t d -> contents t d g -> file_at d c e = Ok x /\ file_occupied d x = Ok (mf_chain g) /\ reads_as d x (sp_kind y).
Proof.
  intros R Hh Hk. destruct (held_some t a s m c b R h i f Hh) as (x & g & Hx & Hg & -> & [[_ Hsp]|(y & Hs & Hy & Ek & _)]).
  { unfold a_special in Hsp. by destruct (a_kind (abs_file g)). }
  destruct Hs as (y' & e & Hy' & _ & _ & Hsch & _ & _ & Hall). rewrite Hy in Hy'. injection Hy' as <-.
  exists x, g, y, e. split; [done|]. split; [done|]. split; [done|]. split; [done|]. split; [done|]. split; [|done].
  pose proof (rl_view t a s m c b R) as V. apply slot_at_Some in Hg. destruct (v_files _ _ _ V i g Hg) as (_ & _ & Hc).
  unfold contents in Hc. rewrite Hy in Hc. rewrite Hsch. apply Hc.
Qed.

Theorem stream_undisturbed t a s h i f data ts a' :
  reached t a s -> held a h = Some (i, f) -> a_kind f = KStream data -> after t a ts = Some a' -> untouched t a i ts ->
  exists x r, s_handles s !! h = Some x /\ file_reader x = Ok r
    /\ fst (reading s r ts) = map Ok (pieces data (steps ts)).
Proof.
  intros (m & c & b & R)%reached_related Hh Hk Ha Hu. pose proof (rl_view t a s m c b R) as V.
  destruct (special_held t a s m c b h i f R Hh) as (x & g & y & e & Hx & Hg & -> & Hy & Ek & Hsch & Hall); [by rewrite Hk|].
  set (d := w_dev (s_world s)) in *. pose proof (proj1 (slot_at_Some _ _ _) Hg) as Hg'.
  destruct (v_files _ _ _ V i g Hg') as (_ & _ & Hc). destruct (Hall d (v_shape _ _ _ V) Hc) as (Hat & Hocc & Hre).
  rewrite <- Ek, Hk in Hre. destruct Hre as (_ & Hrec & Hrt & _).
  assert (exists q, (x = FGEOSSequential q \/ x = FGEOSVLIR q) /\ gf_vlir q = None /\ geos_occupied d q = Ok (mf_chain g)
    /\ read_all d (de_first (gf_entry q)) = Ok data) as (q & Hq & Hv & Ho & Hdat).
  { specialize (Hrt []). specialize (Hrec 0). destruct x as [c0 e0|q|q|q].
    - unfold file_at in Hat. destruct (de_scheme e); [done|by destruct (rel_new d c e)|by destruct (geos_new d c e)|by destruct (geos_new d c e)].
    - done.
    - exists q. unfold read_through, file_reader, geos_linear_reader in Hrt. destruct (gf_vlir q) eqn:E; [done|].
      split; [by left|]. split; [done|]. split; [done|]. cbn [file_record] in Hrec. unfold geos_record, record_start in Hrec. by rewrite E in Hrec.
    - exists q. unfold read_through, file_reader, geos_linear_reader in Hrt. destruct (gf_vlir q) eqn:E; [done|].
      split; [by right|]. split; [done|]. split; [done|]. cbn [file_record] in Hrec. unfold geos_record, record_start in Hrec. by rewrite E in Hrec. }
  exists x, (reader_new (de_first (gf_entry q))). split; [done|]. split.
  { destruct Hq as [-> | ->]; cbn [file_reader]; unfold geos_linear_reader; by rewrite Hv. }
  destruct (occupied_parts t d q _ (v_shape _ _ _ V) Ho) as ((ch & Hch & Hsub) & _ & _).
  assert (sound_chain d (de_first (gf_entry q)) ch /\ data_of d ch = data) as [Hsc Hcd].
  { unfold chain_locations, all_or_error in Hch. destruct (chain_walk d _) as [ss r] eqn:Ew. destruct r as [[]| | |]; try done.
    cbn [rbind] in Hch. apply Ok_inj in Hch as <-. pose proof (sound_walk t d _ ss (v_shape _ _ _ V) Ew) as Hs. split; [exact Hs|].
    destruct (reads_sound t d _ _ [] (v_shape _ _ _ V) Hs) as [_ H]. rewrite H in Hdat. by apply Ok_inj in Hdat. }
  apply (reading_on t ch (fun k => data_of d (drop k ch)) ts a s m c b a' i g _ data R Hg); [|done|done|].
  - intros d' m' V' Hf'. assert (forall l, l ∈ ch -> sector d' l = sector d l) as Hag.
    { intros l Hl. by apply (special_kept t d m d' m' i g y V Hg V' Hf' Hy), Hsub. }
    apply (sectors_hold_ext _ _ (fun k => data_of d' (drop k ch))).
    + intros k. apply data_of_agree. intros l (j & Hj)%elem_of_list_lookup. apply Hag. rewrite lookup_drop in Hj. by eapply elem_of_list_lookup_2.
    + apply (chain_sectors t d' (de_first (gf_entry q))); [apply V'|]. by apply (sound_local d d').
  - right. exists 0. split; [done|]. split; [|split; [lia|by rewrite drop_0, Hcd]].
    unfold at_sector, reader_new, chain_new. cbn [cr_chain]. destruct Hsc as (_ & Hhd & _). destruct ch; [done|]. cbn in Hhd. by injection Hhd as ->.
Qed.

(** ** The Convert stream *)

Section convert.
  Context (t : disk_type) (d d' : dev) (Hd : dev_shape t d) (Hd' : dev_shape t d').
  Context (c : nat) (q : geos_file) (ls : list location).
  Context (Hnew : geos_new d c (gf_entry q) = Ok q) (Hocc : geos_occupied d q = Ok ls).
  Context (Hag : forall l, l ∈ ls -> sector d' l = sector d l).

  Definition inside (l : location) : Prop := exists l1, chain_locations d l = Ok l1 /\ forall x, x ∈ l1 -> x ∈ ls.
  Definition within (r : geos_reader) : Prop :=
    gr_info r ∈ ls /\ gr_start r = de_first (gf_entry q) /\ entry_is_vlir (gf_entry q) = Ok (gr_is_vlir r) /\ Forall inside (gr_chains r).

  Lemma scan_local l : inside l -> scan_chain d' l = scan_chain d l.
  Proof.
    intros (l1 & Hl1 & Hin). unfold scan_chain. unfold chain_locations, all_or_error in *.
    destruct (chain_walk d l) as [ss r] eqn:Ew. destruct r as [[]| | |]; try done. cbn [rbind] in Hl1. apply Ok_inj in Hl1 as <-.
    rewrite (walk_local t d d' Hd Hd' l ss Ew); [done|]. intros x Hx. by apply Hag, Hin.
  Qed.
  Lemma read_inside l : inside l -> read_all d' l = read_all d l.
  Proof. intros (l1 & Hl1 & Hin). apply (read_local t d d' Hd Hd' l l1 Hl1). intros x Hx. by apply Hag, Hin. Qed.

  Lemma convert_local ps : (forall l, In l (somes (index_records ps)) -> inside l) ->
    convert_index d' ps = convert_index d ps
    /\ forall chains bytes, convert_index d ps = Ok (chains, bytes) -> Forall inside chains.
  Proof.
    induction ps as [|[tr sc] ps IH]; intros H; cbn [convert_index]; [split; [done|]; intros ? ? [= <- _]; constructor|].
    cbn [index_records] in H. destruct ((tr =? 0) && (sc =? 0)); [split; [done|]; intros ? ? [= <- _]; constructor|].
    destruct ((tr =? 0) && (sc =? 255)).
    - destruct (IH H) as [-> Hi]. split; [done|]. intros chains bytes.
      destruct (convert_index d ps) as [[ch by_]| | |]; cbn [rbind]; try done. intros [= <- _]. by eapply Hi.
    - destruct IH as [-> Hi]. { intros l Hl. apply H. by right. }
      assert (inside (tr, sc)) as Hin by (apply H; by left). rewrite (scan_local _ Hin). split; [done|]. intros chains bytes.
      destruct (scan_chain d (tr, sc)) as [[n k]| | |]; cbn [rbind]; try done.
      destruct (convert_index d ps) as [[ch by_]| | |]; cbn [rbind]; try done. intros [= <- _]. constructor; [done|]. by eapply Hi.
  Qed.

  Lemma index_local r : within r -> gr_is_vlir r = true ->
    process_index d' r = process_index d r /\ forall r', process_index d r = Ok r' -> within r'.
  Proof.
    intros (Hi & Hst & Hv & Hc) Ev. unfold process_index. destruct (occupied_parts t d q ls Hd Hocc) as ((ch & Hch & Hsub) & _ & Hrec).
    rewrite Hst, (Hag _ (geos_first t d Hd q ls Hocc)).
    destruct (sector d (de_first (gf_entry q))) as [index| | |] eqn:Es; cbn [rbind]; try done.
    pose proof Hnew as Hn. unfold geos_new in Hn. rewrite Hv, Ev in Hn. cbn [rbind] in Hn. rewrite Es in Hn. cbn [rbind] in Hn. apply Ok_inj in Hn.
    assert (gf_vlir q = Some (index_records (pairs index))) as Hvl by (by rewrite <- Hn).
    destruct (convert_local (pairs (drop 2 index))) as [-> Hfa].
    { intros l Hl. apply (Hrec _ l Hvl). pose proof (sector_Ok_length t d _ _ Hd Es) as Hlen.
      destruct index as [|b0 [|b1 index]]; [done|done|]. cbn [pairs]. change (drop 2 (b0 :: b1 :: index)) with index in Hl. cbn [index_records].
      assert (b0 =? 0 = true -> b1 =? 0 = true -> False) as Hnz.
      { intros H0%Nat.eqb_eq H1%Nat.eqb_eq. subst b0 b1. unfold chain_locations, all_or_error, chain_walk, chain_fuel in Hch.
        destruct (length (d_blocks d)) eqn:E0 in Hch; cbn [chain_collect Nat.add] in Hch;
          unfold chain_next, chain_new in Hch; cbn [ci_next ci_visited] in Hch; destruct (decide (_ ∈ [])) as [H|_] in Hch; try (by apply elem_of_nil in H);
          rewrite Es in Hch; cbn in Hch; discriminate Hch. }
      destruct (b0 =? 0), (b1 =? 0); cbn [andb]; try (by destruct Hnz);
        match goal with |- context [if ?z then None else _] => destruct z | _ => idtac end; cbn [somes]; try (by right); done. }
    split; [done|]. intros r'. destruct (convert_index d (pairs (drop 2 index))) as [[chains bytes]| | |] eqn:Ec; cbn [rbind]; try done.
    intros H%Ok_inj. subst r'. split; [done|]. split; [done|]. split; [done|]. cbn [gr_chains]. by eapply Hfa.
  Qed.

  Lemma record_local r : within r -> next_record d' r = next_record d r /\ within (fst (next_record d r)).
  Proof.
    intros (Hi & Hst & Hv & Hc). unfold next_record. destruct (gr_chains r) as [|l chains] eqn:E.
    { split; [done|]. split; [done|]. split; [done|]. split; [done|]. cbn. by rewrite E. }
    apply Forall_cons in Hc as [Hl Hc]. rewrite (read_inside l Hl). split; [done|].
    destruct (read_all d l); (split; [done|]; split; [done|]; split; [done|]; done).
  Qed.

  Lemma state_local r : within r -> next_state d' r = next_state d r /\ within (fst (next_state d r)).
  Proof.
    intros W. pose proof W as (Hi & Hst & Hv & Hc). unfold next_state. destruct (gr_state r).
    - cbn [set_state gr_info]. rewrite (Hag _ Hi). split; [done|]. destruct (sector d (gr_info r)); done.
    - destruct (gr_is_vlir r) eqn:Ev.
      + destruct (index_local (set_state SVLIRIndexBlock r)) as [-> Hw]; [by rewrite <- Ev in Hv|done|]. split; [done|].
        destruct (process_index d (set_state SVLIRIndexBlock r)) eqn:E; cbn [fst]; [by apply Hw|by rewrite <- Ev in Hv..].
      + split; [done|]. cbn [fst]. split; [done|]. split; [done|]. split; [by rewrite <- Ev in Hv|]. cbn [set_chains set_state gr_chains].
        apply Forall_app. split; [done|]. constructor; [|constructor]. rewrite Hst.
        destruct (occupied_parts t d q ls Hd Hocc) as (Hch & _). exact Hch.
    - by apply record_local.
    - by apply record_local.
    - done.
  Qed.

  Lemma loop_local fuel : forall r n, within r ->
    geos_read_loop fuel d' r n = geos_read_loop fuel d r n /\ within (fst (geos_read_loop fuel d r n)).
  Proof.
    induction fuel as [|fuel IH]; intros r n W; cbn [geos_read_loop]; [done|].
    destruct (Nat.min n (length (gr_buffer r)) =? n); [done|].
    set (k := Nat.min n (length (gr_buffer r))). set (r1 := set_buffer (drop k (gr_buffer r)) r).
    assert (within r1) as W1 by exact W. destruct (gr_buffer r1) as [|y ys].
    - destruct (state_local r1 W1) as [-> W2]. destruct (next_state d r1) as [r2 [u| | |]]; cbn [fst] in *; try done.
      destruct (IH r2 (n - k) W2) as [-> W3]. destruct (gr_state r2); cbn [fst]; try done; (destruct (geos_read_loop fuel d r2 (n - k)); done).
    - destruct (IH r1 (n - k) W1) as [-> W3]. by destruct (geos_read_loop fuel d r1 (n - k)).
  Qed.

  Lemma read_convert_local r n : within r -> geos_read d' r n = geos_read d r n /\ within (fst (geos_read d r n)).
  Proof. intros W. unfold geos_read. destruct (gr_state r); try (by apply loop_local); done. Qed.
End convert.

Lemma converting_on t d q ls c ts : forall a s m b cc a' i f r,
  dev_shape t d -> geos_new d c (gf_entry q) = Ok q -> geos_occupied d q = Ok ls ->
  related t a s m cc b -> slot_at m i = Some f ->
  (forall d' m', view t d' m' -> slot_at m' i = Some f -> forall l, l ∈ ls -> sector d' l = sector d l) ->
  after t a ts = Some a' -> untouched t a i ts -> within d q ls r ->
  fst (converting s r ts) = geos_reads d r (steps ts).
Proof.
  induction ts as [|x ts IH]; intros a s m b cc a' i f r Hd Hn Ho R Hf Hp Ha Hu Hr; [done|]. destruct x as [o|n].
  - cbn [converting after untouched] in *. destruct Hu as [Hab Hu].
    assert (is_format o = false /\ exists a1 r1, astep t a o = Some (a1, r1) /\ after t a1 ts = Some a') as (Hfm & a1 & r1 & E & Ha1).
    { destruct o; try done; split; try done; destruct (astep _ _ _) as [[a1 r1]|]; try done; by exists a1, r1. }
    rewrite E in Hu. destruct (step_refines t a s m cc b R o a1 r1 E) as (s1 & m1 & c1 & b1 & Hc & R1 & Hk). rewrite Hc. cbn [fst].
    change (steps (Other o :: ts)) with (steps ts).
    eapply (IH a1 s1 m1 b1 c1); [exact Hd|exact Hn|exact Ho|exact R1| |exact Hp|exact Ha1|exact Hu|exact Hr].
    by eapply keeps_slot; [apply Hk| |].
  - cbn [converting after untouched] in *. pose proof (rl_view t a s m cc b R) as V.
    destruct (read_convert_local t d (w_dev (s_world s)) Hd (v_shape _ _ _ V) c q ls Hn Ho (Hp _ m V Hf) r n Hr) as [-> Hr'].
    change (steps (Step n :: ts)) with (n :: steps ts). cbn [geos_reads]. destruct (geos_read d r n) as [r' x]. cbn [fst] in Hr'.
    specialize (IH a s m b cc a' i f r' Hd Hn Ho R Hf Hp Ha Hu Hr').
    destruct (converting s r' ts) as [xs s'] eqn:Ex. cbn [fst] in *. by rewrite IH.
Qed.

Theorem convert_undisturbed t a s h i f x q r ts a' :
  reached t a s -> held a h = Some (i, f) -> s_handles s !! h = Some x -> x = FGEOSSequential q \/ x = FGEOSVLIR q ->
  geos_reader_new (gf_entry q) = Ok r -> after t a ts = Some a' -> untouched t a i ts ->
  fst (converting s r ts) = geos_reads (w_dev (s_world s)) r (steps ts).
Proof.
  intros (m & c & b & R)%reached_related Hh Hx Hq Hr Ha Hu. pose proof (rl_view t a s m c b R) as V.
  assert (a_kind f <> KPlain) as Hk.
  { destruct (held_some t a s m c b R h i f Hh) as (x' & g & Hx' & Hg & -> & [[Hok _]|(y & _ & _ & _ & Hsp)]).
    - rewrite Hx in Hx'. injection Hx' as <-. destruct Hok as [(g' & e & ex & _ & -> & _)]. by destruct Hq.
    - unfold a_special in Hsp. by destruct (a_kind (abs_file g)). }
  destruct (special_held t a s m c b h i f R Hh Hk) as (x' & g & y & e & Hx' & Hg & -> & Hy & Ek & Hsch & Hall).
  rewrite Hx in Hx'. injection Hx' as <-. set (d := w_dev (s_world s)) in *. pose proof (proj1 (slot_at_Some _ _ _) Hg) as Hg'.
  destruct (v_files _ _ _ V i g Hg') as (_ & _ & Hc). destruct (Hall d (v_shape _ _ _ V) Hc) as (Hat & Hocc & _).
  assert (geos_new d c e = Ok q /\ geos_occupied d q = Ok (mf_chain g)) as [Hn Ho].
  { unfold file_at in Hat. destruct Hq as [-> | ->].
    - split; [|done]. destruct (de_scheme e); try done; [by destruct (rel_new d c e)|destruct (geos_new d c e) as [q'| | |]; try done..]; cbn in Hat; by injection Hat as ->.
    - split; [|done]. destruct (de_scheme e); try done; [by destruct (rel_new d c e)|destruct (geos_new d c e) as [q'| | |]; try done..]; cbn in Hat; by injection Hat as ->. }
  destruct (geos_new_entry d c e q Hn) as [He _]. rewrite <- He in Hn.
  apply (converting_on t d q (mf_chain g) c ts a s m b c a' i g r (v_shape _ _ _ V) Hn Ho R Hg); [|done|done|].
  - intros d' m' V' Hf'. exact (special_kept t d m d' m' i g y V Hg V' Hf' Hy).
  - unfold geos_reader_new in Hr. destruct (dirent_to_bytes _ _); try done. cbn [rbind] in Hr.
    destruct (entry_is_vlir (gf_entry q)) as [v| | |] eqn:Ev; try done. cbn [rbind] in Hr.
    destruct (entry_info_location (gf_entry q)) as [[il|]| | |] eqn:Ei; try done. cbn [rbind] in Hr. apply Ok_inj in Hr. rewrite <- Hr.
    destruct (occupied_parts t d q _ (v_shape _ _ _ V) Ho) as (_ & Hil & _). split; [by apply Hil|]. split; [done|]. split; [done|]. constructor.
Qed.
