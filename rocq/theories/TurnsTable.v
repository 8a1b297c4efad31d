(** Listing the directory step by step while the disk is in use. *)
From Verif Require Import Base ListFacts Layout Block Bam Chain GeosTypes Petscii DirEntry Header World Directory Rel GeosFile File DirIter Spec SpecCodec SpecChain
  SpecBam SpecFiles SpecKinds Session SpecDisk GeomFacts FlatProofs DevFacts EntryProofs HeaderProofs ChainProofs BamProofs Evolve Holds View Dirs Ops OpWrite OpFile Refine Trace SpecTurns TurnsRead TurnsList.
Ltac Zify.zify_post_hook ::= Z.div_mod_to_equations.

Lemma at_sector_app ls ls' k : k < length ls -> at_sector (ls ++ ls') k = at_sector ls k.
Proof. intros H. unfold at_sector. by rewrite lookup_app_l, take_app_le by lia. Qed.

Lemma listing_moves t a o s m s' m' it S : keeps t a o s m s' m' -> listing_at m it S ->
  listing_at m' it S /\ forall j name, owed m' it j name = owed m it j name.
Proof.
  intros (i & Mv & _) [Le Lb Lf Lc Lt Ls]. destruct (mv_frame _ _ _ _ _ _ Mv) as (Hh & (dirs & Hd) & _ & _). split.
  - split; [done|by rewrite Hh|by rewrite Hh| | |done].
    + destruct Lc as [(k & Hk & Hc)|Hc]; [left|by right]. exists k. rewrite Hd, app_length, at_sector_app by done. split; [lia|done].
    + unfold border. rewrite Hh. exact Lt.
  - intros j name. unfold owed, ahead, border_slots, border. by rewrite Hh.
Qed.

Lemma more_room t d m it S : view t d m -> listing_at m it S -> more m it < length (d_blocks d) + 3.
Proof.
  intros V L. unfold more. pose proof (la_tail _ _ _ L) as Lt. rewrite (ds_count _ _ (v_shape _ _ _ V)).
  assert (length (md_dir m) <= sector_count (d_geom d)) as H.
  { apply (valid_count t d); [apply V|apply (view_dir_nodup _ _ _ V)|]. apply Forall_forall. intros l (k & Hk)%elem_of_list_lookup.
    destruct (v_links _ _ _ V k l Hk) as (b & Hb & _). unfold sector in Hb. by destruct (valid_loc (d_geom d) l). }
  destruct (di_chain it) as [ci|]; [destruct (ci_next ci)|]; destruct (di_tail it) as [[?|?| |]|]; cbn; try done; lia.
Qed.

Definition listed (S : dirent -> Prop) (x : option (res dirent)) : Prop :=
  match x with None => True | Some (Ok e) => S e | _ => False end.

Lemma moments_first {A} s (ts : list (turn A)) : In s (moments s ts).
Proof. induction ts as [|[o|x] ts IH]; [by left|by left|done]. Qed.

Lemma turns_list t ts : forall a s m c b a' it S,
  related t a s m c b -> listing_at m it S -> after t a ts = Some a' ->
  (forall s1 es e, In s1 (moments s ts) -> w_directory (s_world s1) = Ok es -> In e es -> S e) ->
  Forall (listed S) (fst (iterating s it ts))
  /\ forall i f, slot_at m i = Some f -> untouched t a i ts ->
       exists v, length (List.filter (names (mf_name f)) (fst (iterating s it ts))) + v = owed m it i (mf_name f)
         /\ (last (fst (iterating s it ts)) = Some None -> v = 0).
Proof.
  induction ts as [|x ts IH]; intros a s m c b a' it S R L Ha HS.
  { split; [constructor|]. intros i f _ _. by exists (owed m it i (mf_name f)). }
  destruct x as [o|u]; cbn [iterating after untouched moments] in *.
  - assert (is_format o = false /\ exists a1 r1, astep t a o = Some (a1, r1) /\ after t a1 ts = Some a') as (Hfm & a1 & r1 & E & Ha1).
    { destruct o; try done; split; try done; destruct (astep _ _ _) as [[a1 r1]|]; try done; by exists a1, r1. }
    destruct (step_refines t a s m c b R o a1 r1 E) as (s1 & m1 & c1 & b1 & Hc & R1 & Hk). rewrite Hc in *. cbn [fst] in *.
    specialize (Hk Hfm). destruct (listing_moves _ _ _ _ _ _ _ _ _ Hk L) as [L1 Ho].
    destruct (IH a1 s1 m1 c1 b1 a' it S R1 L1 Ha1) as [H1 H2].
    { intros s2 es e Hs2. apply HS. by right. }
    split; [done|]. intros i f Hf [Hab Hu]. rewrite E in Hu. rewrite <- Ho. apply H2; [|done]. by eapply keeps_slot.
  - pose proof (rl_view t a s m c b R) as V.
    unfold dir_next. rewrite (la_error _ _ _ L).
    destruct (loop_turn t _ m V (rl_names _ _ _ _ _ _ R) (length (d_blocks (w_dev (s_world s))) + 3) it S L) as (it' & x & -> & L' & Hx);
      [|by eapply more_room|].
    { intros e He. eapply HS; [apply moments_first|apply (dir_entries t a s m c b R)|done]. }
    destruct (IH a s m c b a' it' S R L' Ha HS) as [H1 H2]. destruct (iterating s it' ts) as [xs s'] eqn:Ex. cbn [fst] in *. split.
    + constructor; [|done]. by destruct x as [[e|e| |]|]; [apply Hx|..].
    + intros i f Hf Hu. destruct (H2 i f Hf Hu) as (v & Hv & Hl). exists v. cbn [List.filter]. split.
      * destruct x as [[e|e| |]|]; try done; cbn [names].
        -- destruct Hx as [_ Hx]. rewrite (Hx i f Hf), <- Hv. destruct (bool_decide (de_name e = mf_name f)); cbn [length]; lia.
        -- destruct (Hx i f Hf) as [-> E]. lia.
      * destruct xs as [|y xs]; [|by rewrite last_cons_cons]. cbn. intros [= ->]. cbn in Hv. destruct (Hx i f Hf) as [_ E]. lia.
Qed.

(** At the beginning everything is owed once. *)
Lemma listing_starts t a s m c b (S : dirent -> Prop) : related t a s m c b -> (forall e, In e (m_entries m) -> S e) ->
  exists it, dir_iter_new (s_world s) = Ok it /\ listing_at m it S
    /\ forall i f, slot_at m i = Some f -> owed m it i (mf_name f) = 1.
Proof.
  intros R HS. pose proof (rl_wok _ _ _ _ _ _ R) as W. pose proof (rl_view t a s m c b R) as V.
  unfold dir_iter_new, w_disk_format, w_get_header. rewrite (wo_fmt _ _ _ _ _ _ W), (wo_header _ _ _ _ _ _ W).
  eexists. split; [reflexivity|]. set (it := mk_dir_iter _ _ _ _ _ _ _ _).
  pose proof (view_dir_nonempty _ _ _ V) as Hlen.
  assert (di_chain it = Some (at_sector (md_dir m) 0)) as Hc.
  { cbn [it di_chain]. rewrite m_first_dir. unfold at_sector, chain_new. pose proof (v_head _ _ _ V) as H. destruct (md_dir m); [done|]. cbn in H. by injection H as ->. }
  assert (tail_entries it = concat (map (slot_entry m) (seq 0 (border_slots m)))
    /\ match di_tail it with None => True | Some (Ok s) => border m = [cs_location s] | _ => False end) as [Ht Lt].
  { unfold tail_entries. cbn [it di_tail]. destruct (h_geos (md_header m)) as [gh|] eqn:Eg.
    - assert (border m = [gh_border gh]) as Eb by (unfold border; by rewrite Eg).
      assert (md_secs m !! 0 = Some (gh_border gh)) as H0 by (unfold md_secs; by rewrite Eb).
      destruct (sec_block t _ m V 0 _ H0) as (bb & Hb & Hsl). rewrite Hb. cbn [rbind cs_location cs_data]. split; [|done].
      unfold entries_in. rewrite chunks_block by apply Hsl.
      pose proof (sector_entries_view m 0 bb (gh_border gh) 8 0 Hsl H0 eq_refl (slot_at_scratched t _ m V)) as Hse.
      change ((32 * 0) mod 256) with 0 in Hse. rewrite Eb in Hse. cbn [length Nat.ltb Nat.leb] in Hse. rewrite Hse.
      unfold border_slots. by rewrite Eb.
    - split; [|done]. unfold border_slots, border. by rewrite Eg. }
  split.
  - split; [done|done|done|left; exists 0; done|done|]. assert (pend it = []) as -> by done. cbn [app]. rewrite Ht.
    apply Forall_forall. intros e He%elem_of_list_In. apply HS. eapply slots_listed; [|exact He]. rewrite secs_length. unfold border_slots. lia.
  - intros i f Hf. unfold owed. rewrite Ht, (named_slots m i f _ _ (rl_names _ _ _ _ _ _ R) Hf).
    assert (named (mf_name f) (pend it) = 0) as -> by done. unfold ahead. rewrite Hc. unfold at_sector. cbn [ci_next ci_visited].
    destruct (lookup_lt_is_Some_2 (md_dir m) 0 Hlen) as [l0 ->]. rewrite take_0. cbn [rev length Nat.add]. rewrite Nat.mul_0_r, Nat.add_0_r.
    destruct (Nat.leb_spec 0 i); [|lia]. destruct (Nat.ltb_spec i (border_slots m)), (Nat.leb_spec (border_slots m) i); cbn [andb]; lia.
Qed.

Lemma line_kept t (ts : list (turn unit)) : forall a s m c b a' i f,
  related t a s m c b -> slot_at m i = Some f -> after t a ts = Some a' -> untouched t a i ts ->
  forall s1 es e, In s1 (moments s ts) -> w_directory (s_world s1) = Ok es -> In e es ->
    de_name e = mf_name f -> entry_line e = (mf_name f, mf_attr f, length (mf_chain f)).
Proof.
  induction ts as [|x ts IH]; intros a s m c b a' i f R Hf Ha Hu.
  all: assert (forall es e, w_directory (s_world s) = Ok es -> In e es -> de_name e = mf_name f ->
      entry_line e = (mf_name f, mf_attr f, length (mf_chain f))) as Hnow.
  1, 3: intros es e Hes He Hne; rewrite (dir_entries t a s m c b R) in Hes; apply Ok_inj in Hes as <-;
      apply (in_entries t (w_dev (s_world s)) m e (rl_view t a s m c b R)) in He as (j & g & Hg & ->);
      cbn [de_name entry_at] in Hne; assert (j = i) as -> by (by eapply (rl_names _ _ _ _ _ _ R));
      rewrite Hf in Hg; injection Hg as <-; unfold entry_line; cbn; by rewrite (rl_sizes _ _ _ _ _ _ R i f Hf).
  - cbn [moments]. intros s1 es e [<-|[]]. apply Hnow.
  - destruct x as [o|u]; cbn [after untouched moments] in *.
    + assert (is_format o = false /\ exists a1 r1, astep t a o = Some (a1, r1) /\ after t a1 ts = Some a') as (Hfm & a1 & r1 & E & Ha1).
      { destruct o; try done; split; try done; destruct (astep _ _ _) as [[a1 r1]|]; try done; by exists a1, r1. }
      destruct (step_refines t a s m c b R o a1 r1 E) as (s1 & m1 & c1 & b1 & Hc & R1 & Hk). rewrite Hc in *. cbn [fst] in *.
      destruct Hu as [Hab Hu]. rewrite E in Hu. intros s2 es e [<-|Hin]; [apply Hnow|].
      eapply (IH a1 s1 m1 c1 b1); [exact R1| |exact Ha1|exact Hu|exact Hin]. by eapply keeps_slot; [apply Hk|..].
    + intros s2 es e Hin. eapply IH; [exact R|exact Hf|exact Ha|exact Hu|exact Hin].
Qed.

Theorem iterator_undisturbed t a s ts a' :
  reached t a s -> after t a ts = Some a' ->
  exists it, dir_iter_new (s_world s) = Ok it
    /\ Forall (fun x => match x with
                        | None => True
                        | Some (Ok e) => exists s1 es, In s1 (moments s ts) /\ w_directory (s_world s1) = Ok es /\ In e es
                        | _ => False
                        end) (fst (iterating s it ts))
    /\ forall i f, as_slots a !! i = Some (Some f) -> untouched t a i ts ->
         (forall e, In (Some (Ok e)) (fst (iterating s it ts)) -> de_name e = a_name f -> entry_line e = (a_name f, a_attr f, a_blocks f))
         /\ length (List.filter (names (a_name f)) (fst (iterating s it ts))) <= 1
         /\ (last (fst (iterating s it ts)) = Some None -> length (List.filter (names (a_name f)) (fst (iterating s it ts))) = 1).
Proof.
  intros (m & c & b & R)%reached_related Ha.
  set (S1 := fun e => exists s1 es, In s1 (moments s ts) /\ w_directory (s_world s1) = Ok es /\ In e es).
  destruct (listing_starts t a s m c b S1 R) as (it & Hit & L & Ho).
  { intros e He. exists s, (m_entries m). split; [apply moments_first|]. split; [by apply (dir_entries t a s m c b R)|done]. }
  exists it. split; [done|].
  destruct (turns_list t ts a s m c b a' it S1 R L Ha) as [H1 H2].
  { intros s1 es e. by exists s1, es. }
  split; [exact H1|]. intros i f Hi Hu. rewrite (rl_slots _ _ _ _ _ _ R) in Hi.
  apply abs_lookup_inv in Hi as (g & Hg & ->). cbn [a_name a_attr a_blocks abs_file].
  destruct (H2 i g Hg Hu) as (v & Hv & Hl). rewrite (Ho i g Hg) in Hv. split; [|split; [lia|]].
  - rewrite Forall_forall in H1. intros e He Hne. apply elem_of_list_In in He. apply H1 in He as (s1 & es & Hs1 & Hes & He).
    by eapply line_kept.
  - intros H%Hl. lia.
Qed.
