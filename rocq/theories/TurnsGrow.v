(** A reader of a file that is being written. *)
From Verif Require Import Base ListFacts Layout Block Bam Chain GeosTypes Petscii DirEntry Header World Directory Rel GeosFile File Spec SpecCodec SpecChain
  SpecBam SpecFiles SpecKinds Session SpecDisk GeomFacts FlatProofs DevFacts EntryProofs HeaderProofs ChainProofs BamProofs Evolve Holds View Dirs Ops OpWrite OpFile Refine Trace SpecTurns TurnsRead TurnsList.
Ltac Zify.zify_post_hook ::= Z.div_mod_to_equations.

(** A short answer is the last. *)
Lemma short_ends fuel d : forall r n r' x, reader_loop fuel d r n = (r', Ok x) -> length x < n -> cr_eof r' = true.
Proof.
  induction fuel as [|fuel IH]; intros r n r' x; cbn [reader_loop]; [done|].
  destruct (Nat.eqb_spec n 0) as [->|Hn]; [intros _ ?; lia|]. cbn [orb].
  destruct (cr_eof r) eqn:He; [intros [= <- <-] _; done|].
  destruct (cr_block r) as [block|].
  - set (nb := Nat.min (length block) n). destruct (reader_loop fuel d _ (n - nb)) as [r1 [y| | |]] eqn:E; cbn [rbind]; try done.
    intros [= <- <-] Hl. eapply IH; [exact E|]. rewrite app_length, take_length in Hl. lia.
  - destruct (chain_next d (cr_chain r)) as [it [[s| | |]|]]; try done; intros E Hl; eapply IH; [exact E|done|exact E|done].
Qed.

Lemma ended_reads d r n : cr_eof r = true -> reader_read d r n = (r, Ok []).
Proof. intros He. unfold reader_read. rewrite Nat.add_comm. cbn [Nat.add reader_loop]. by rewrite He, orb_true_r. Qed.

(** The reader has its last piece, [rest]. *)
Definition over (r : chain_reader) (rest : list nat) : Prop :=
  (cr_eof r = true /\ rest = []) \/ (cr_eof r = false /\ ci_next (cr_chain r) = None /\ rest = default [] (cr_block r)).

Lemma over_read d r rest n : over r rest -> exists r', reader_read d r n = (r', Ok (take n rest)) /\ over r' (drop n rest).
Proof.
  intros [[He ->]|(He & Hc & ->)].
  { exists r. rewrite (ended_reads d r n He), take_nil, drop_nil. split; [done|by left]. }
  unfold reader_read. replace (2 * length (d_blocks d) + 8) with (S (S (S (S (2 * length (d_blocks d) + 4))))) by lia.
  generalize (2 * length (d_blocks d) + 4). intros k.
  destruct (Nat.eq_dec n 0) as [->|Hn].
  { exists r. cbn [reader_loop Nat.eqb orb]. rewrite take_0, drop_0. split; [done|by right]. }
  assert (forall k r n, cr_eof r = false -> n <> 0 -> ci_next (cr_chain r) = None -> cr_block r = None ->
    exists r', reader_loop (S (S k)) d r n = (r', Ok []) /\ over r' []) as Hend.
  { clear. intros k r n He Hn Hc Hb. cbn [reader_loop]. rewrite He, (proj2 (Nat.eqb_neq _ _) Hn), Hb. cbn [orb].
    unfold chain_next. rewrite Hc. eexists. split; [done|by left]. }
  destruct (cr_block r) as [b|] eqn:Eb.
  2: { cbn [default]. rewrite take_nil, drop_nil. by apply Hend. }
  cbn [default]. remember (S (S (S k))) as fuel eqn:Ef. cbn [reader_loop]. rewrite He, (proj2 (Nat.eqb_neq _ _) Hn), Eb. cbn [orb].
  change (id b) with b. set (nb := Nat.min (length b) n).
  destruct (Nat.le_gt_cases n (length b)) as [Hle|Hgt].
  - assert (nb = n) as -> by lia. rewrite Nat.sub_diag, Ef. cbn [reader_loop Nat.eqb orb rbind]. rewrite app_nil_r.
    eexists. split; [done|]. right. split; [done|]. split; [done|]. cbn [cr_block]. destruct (Nat.eqb_spec (length b) n); [|done].
    by rewrite drop_ge by lia.
  - assert (nb = length b) as -> by lia. rewrite Nat.eqb_refl, Ef.
    destruct (Hend (S k) (mk_chain_reader (cr_chain r) None false) (n - length b)) as (r' & -> & Ho); [done|lia|done|done|].
    exists r'. cbn [rbind]. rewrite app_nil_r, take_ge, (take_ge b), drop_ge by lia. done.
Qed.

(** A reader of the file that has delivered [p] bytes: at least [low] will be
    delivered in all. *)
Definition part_read (ls : list location) (data : list nat) (low : nat) (r : chain_reader) (p : nat) : Prop :=
  p <= length data /\ exists b, take (length b) (drop p data) = b
    /\ ((over r b /\ low <= p + length b)
        \/ exists k, cr_eof r = false /\ cr_chain r = at_sector ls k /\ k < length ls /\ b = default [] (cr_block r) /\ p + length b = 254 * k).

Lemma part_grows ls ls' data x low r p : part_read ls data low r p -> part_read (ls ++ ls') (data ++ x) low r p.
Proof.
  intros (Hp & b & Hb & H). split; [rewrite app_length; lia|]. exists b. split.
  { rewrite drop_app_le, take_app_le; [done| |lia]. rewrite <- Hb at 1. rewrite take_length. lia. }
  destruct H as [H|(k & H1 & H2 & H3 & H4 & H5)]; [by left|]. right. exists k. split; [done|].
  split; [|rewrite app_length; split; [lia|done]]. rewrite H2. unfold at_sector. by rewrite lookup_app_l, take_app_le by lia.
Qed.

Lemma part_step t d ls data low r p n :
  dev_shape t d -> holds d ls data -> NoDup ls -> Forall (fun l => fst l <> 0) ls -> low <= length data -> part_read ls data low r p ->
  exists r' x, reader_read d r n = (r', Ok x) /\ length x <= n /\ take (length x) (drop p data) = x
    /\ (length x < n -> low <= p + length x /\ cr_eof r' = true) /\ part_read ls data low r' (p + length x).
Proof.
  intros Hd Hh Hn Ht Hlow (Hp & b & Hb & H). pose proof (holds_length _ _ _ Hh) as [Hlen _].
  assert (length b <= length data - p) as Hlb by (rewrite <- Hb, take_length, drop_length; lia).
  destruct H as [[Ho Hl]|(k & He & Hc & Hk & Eb & Hpk)].
  - destruct (over_read d r b n Ho) as (r' & E & Ho'). exists r', (take n b). split; [done|]. split; [rewrite take_length; lia|].
    split; [|split; [|split]].
    + rewrite take_length, <- take_take. by rewrite Hb.
    + intros Hs. split; [rewrite take_length in Hs |- *; lia|]. by apply (short_ends _ _ _ _ _ _ E).
    + rewrite take_length. lia.
    + exists (drop n b). split; [|left; split; [done|rewrite take_length, drop_length; lia]].
      rewrite take_length, drop_length, <- drop_drop. destruct (Nat.le_gt_cases n (length b)).
      * rewrite Nat.min_l by lia. rewrite take_drop_commute. replace (n + (length b - n)) with (length b) by lia. by rewrite Hb.
      * rewrite (drop_ge b) by lia. by replace (length b - n) with 0 by lia.
  - set (from := fun k => drop (254 * k) data).
    assert (to_read ls from r (drop p data)) as Hr.
    { right. exists k. split; [done|]. split; [done|]. split; [lia|]. rewrite <- Eb. unfold from. rewrite <- Hpk, <- drop_drop.
      rewrite <- (take_drop (length b) (drop p data)) at 1. by rewrite Hb. }
    destruct (read_step t d ls from Hd (plain_sectors t d ls data Hd Hh Hn Ht) r _ n Hr) as (r' & E & Hr').
    exists r', (take n (drop p data)). set (x := take n (drop p data)) in *.
    assert (length x = Nat.min n (length data - p)) as Hx by (unfold x; by rewrite take_length, drop_length).
    split; [done|]. split; [lia|]. split; [rewrite Hx, <- take_take; unfold x; f_equal; apply take_ge; rewrite drop_length; lia|].
    split; [intros Hs; split; [lia|by apply (short_ends _ _ _ _ _ _ E)]|]. split; [lia|].
    rewrite drop_drop in Hr'. assert (drop (p + n) data = drop (p + length x) data) as Heq.
    { destruct (Nat.le_gt_cases n (length data - p)); [f_equal; lia|]. rewrite !drop_ge by lia. done. }
    rewrite Heq in Hr'. destruct Hr' as [[He' Hz]|(k' & He' & Hc' & Hk' & Hz)].
    + exists []. split; [done|]. left. split; [by left|]. apply (f_equal length) in Hz. rewrite drop_length in Hz. cbn in Hz |- *. lia.
    + set (b' := default [] (cr_block r')) in *. exists b'. split; [by rewrite Hz, take_app|].
      pose proof (f_equal length Hz) as Hz'. unfold from in Hz'. rewrite app_length, !drop_length in Hz'.
      destruct (decide (k' = length ls)) as [->|Hne].
      * left. split; [|lia]. right. split; [done|]. rewrite Hc'. unfold at_sector. cbn [ci_next]. rewrite lookup_ge_None_2 by lia. done.
      * right. exists k'. split; [done|]. split; [done|]. split; [lia|]. split; [done|]. lia.
Qed.

(** The reads among the turns. *)
Definition delivered (low p : nat) (data : list nat) (ns : list nat) (xs : list (list nat)) : Prop :=
  Forall2 (fun n x => length x <= n) ns xs
  /\ (exists y, data = take p data ++ concat xs ++ y)
  /\ forall j n x, ns !! j = Some n -> xs !! j = Some x -> length x < n ->
       low <= p + length (concat xs) /\ forall j' x', j < j' -> xs !! j' = Some x' -> x' = [].

Lemma ended_nothing ts : forall s r, cr_eof r = true -> fst (reading s r ts) = map (fun _ => Ok []) (steps ts).
Proof.
  induction ts as [|[o|n] ts IH]; intros s r He; [done|by apply IH|]. cbn [reading]. rewrite (ended_reads _ _ _ He).
  specialize (IH s r He). destruct (reading s r ts) as [xs s']. cbn [fst] in *. rewrite IH. done.
Qed.

Lemma growing_on t ts : forall a s m c b a' i f r p low,
  related t a s m c b -> slot_at m i = Some f -> mf_special f = None -> low <= length (mf_data f) ->
  after t a ts = Some a' -> survives t a i ts -> part_read (mf_chain f) (mf_data f) low r p ->
  exists g xs, as_slots a' !! i = Some (Some g) /\ (exists y, a_data g = mf_data f ++ y)
    /\ fst (reading s r ts) = map Ok xs /\ delivered low p (a_data g) (steps ts) xs.
Proof.
  induction ts as [|x ts IH]; intros a s m c b a' i f r p low R Hf Hpl Hlow Ha Hu Hr.
  { injection Ha as <-. exists (abs_file f), []. split; [rewrite (rl_slots _ _ _ _ _ _ R); by apply abs_lookup|].
    split; [exists []; by rewrite app_nil_r|]. split; [done|]. split; [constructor|]. split; [|by intros [|j]].
    exists (drop p (a_data (abs_file f))). cbn [concat app]. by rewrite take_drop. }
  destruct x as [o|n].
  - cbn [reading after survives] in *. destruct Hu as [Hab Hu].
    assert (is_format o = false /\ exists a1 r1, astep t a o = Some (a1, r1) /\ after t a1 ts = Some a') as (Hfm & a1 & r1 & E & Ha1).
    { destruct o; try done; split; try done; destruct (astep _ _ _) as [[a1 r1]|]; try done; by exists a1, r1. }
    rewrite E in Hu. destruct (step_grows t a s m c b R o a1 r1 E) as (s1 & m1 & c1 & b1 & Hc & R1 & Hk). rewrite Hc. cbn [fst].
    change (steps (Other o :: ts)) with (steps ts).
    destruct (proj2 (Hk Hfm) i f Hf) as [[Hx [h ->]]|(f' & Hf' & [ls Hls] & [y Hy] & Hsp)]; [done|].
    destruct (IH a1 s1 m1 c1 b1 a' i f' r p low R1 Hf') as (g & xs & Hg & [z Hz] & Hxs); [by rewrite Hsp|rewrite Hy, app_length; lia|done|done| |].
    { rewrite Hls, Hy. by apply part_grows. }
    exists g, xs. split; [done|]. split; [|done]. exists (y ++ z). by rewrite Hz, Hy, <- app_assoc.
  - cbn [reading after survives] in *. pose proof (rl_view t a s m c b R) as V. pose proof (proj1 (slot_at_Some _ _ _) Hf) as Hf'.
    destruct (v_files _ _ _ V i f Hf') as (_ & _ & Hc). apply contents_plain in Hc; [|done].
    destruct (part_step t (w_dev (s_world s)) (mf_chain f) (mf_data f) low r p n (v_shape _ _ _ V) Hc
      (view_chain_nodup _ _ _ V i f Hf') (view_chain_tracks _ _ _ V i f Hf') Hlow Hr) as (r' & x & E & Hx & Hxd & Hshort & Hr').
    rewrite E. destruct (IH a s m c b a' i f r' (p + length x) low R Hf Hpl Hlow Ha Hu Hr') as (g & xs & Hg & [z Hz] & Hxs & Hall & (y & Hy) & Hsh).
    pose proof (ended_nothing ts s r') as Hend.
    destruct (reading s r' ts) as [xs' s'] eqn:Ex. cbn [fst] in *. change (steps (Step n :: ts)) with (n :: steps ts).
    exists g, (x :: xs). split; [done|]. split; [by exists z|]. split; [by rewrite Hxs|].
    assert (p + length x <= length (mf_data f)) as Hp by apply Hr'.
    assert (take (p + length x) (a_data g) = take p (a_data g) ++ x) as Htk.
    { rewrite Hz, !take_app_le by lia. rewrite <- Hxd at 2. rewrite take_take_drop. done. }
    split; [by apply List.Forall2_cons|]. split.
    + exists y. cbn [concat]. rewrite Hy at 1. by rewrite Htk, <- !app_assoc.
    + intros j n' x' Hn' Hx'. cbn [concat]. rewrite app_length. destruct j as [|j].
      * injection Hn' as <-. injection Hx' as <-. intros Hs. destruct (Hshort Hs) as [Hl He]. split; [lia|].
        intros [|j'] x' Hj Hx'; [lia|]. change (xs !! j' = Some x') in Hx'. specialize (Hend He). rewrite Hxs in Hend.
        assert (map Ok xs !! j' = Some (Ok x')) as H1 by (rewrite (list_lookup_fmap Ok); by rewrite Hx'). rewrite Hend in H1.
        rewrite (list_lookup_fmap (fun _ => Ok [])) in H1. destruct (steps ts !! j'); [|done]. by injection H1 as <-.
      * intros Hs. destruct (Hsh j n' x' Hn' Hx' Hs) as [H1 H2]. split; [lia|].
        intros [|j'] z' Hj Hz'; [lia|]. apply (H2 j' z'); [lia|exact Hz'].
Qed.

Theorem reader_growing t a s h i f ts a' :
  reached t a s -> file_of a h = Some (i, f) -> after t a ts = Some a' -> survives t a i ts ->
  exists x r g xs, s_handles s !! h = Some x /\ file_reader x = Ok r /\ as_slots a' !! i = Some (Some g)
    /\ fst (reading s r ts) = map Ok xs
    /\ Forall2 (fun n x => length x <= n) (steps ts) xs
    /\ (exists y, a_data g = concat xs ++ y)
    /\ forall j n x, steps ts !! j = Some n -> xs !! j = Some x -> length x < n ->
         (exists y, concat xs = a_data f ++ y) /\ forall j' x', j < j' -> xs !! j' = Some x' -> x' = [].
Proof.
  intros (m & c & b & R)%reached_related Hh Ha Hu.
  destruct (file_of_some t a s m c b R h i f Hh) as (x & g & Hx & Hok & Hg & ->).
  pose proof (rl_view t a s m c b R) as V. pose proof (proj1 (slot_at_Some _ _ _) Hg) as Hg'.
  destruct Hok as [(g' & e & ex & H1 & H2 & H3 & H4 & H5 & H6 & H7 & H8)]. rewrite Hg in H1. injection H1 as <-.
  exists x, (reader_new (de_first e)).
  destruct (growing_on t ts a s m c b a' i g (reader_new (de_first e)) 0 (length (mf_data g)) R Hg H8 (Nat.le_refl _) Ha Hu)
    as (g' & xs & K1 & [z K2] & K3 & K4 & [y K5] & K6).
  { split; [lia|]. exists []. split; [done|]. right. exists 0. split; [done|].
    destruct (view_file_nonempty _ _ _ V i g Hg' H8) as (l & ls & El). rewrite El. split; [|split; [cbn; lia|done]].
    unfold at_sector, reader_new, chain_new. cbn [cr_chain]. rewrite H4, El. done. }
  exists g', xs. split; [done|]. split; [by rewrite H2|]. split; [done|]. split; [done|]. split; [done|].
  rewrite take_0 in K5. split; [by exists y|]. intros j n u Hn Hu' Hs. destruct (K6 j n u Hn Hu' Hs) as [L1 L2]. split; [|done].
  exists (drop (length (mf_data g)) (concat xs)). cbn [abs_file a_data].
  rewrite <- (take_drop (length (mf_data g)) (concat xs)) at 1. f_equal.
  pose proof (f_equal (take (length (mf_data g))) K5) as L3. cbn [app] in L3. rewrite K2 in L3 at 1.
  rewrite take_app, take_app_le in L3 by lia. done.
Qed.

(** ** However the image changes, the reader comes to an end *)

Section ends.
  Context (t : disk_type) (g : geometry).

  Definition reader_sane (r : chain_reader) : Prop := cr_eof r = true \/ sane_chain g (cr_chain r).
  Definition budget (r : chain_reader) : nat :=
    if cr_eof r then 0 else length (default [] (cr_block r)) + 254 * (room g (cr_chain r) / 8).

  Lemma loop_reads d fuel : forall r n, dev_shape t d -> d_geom d = g -> reader_sane r ->
    2 * loads g (cr_chain r) + block_cost r + 2 <= fuel ->
    match reader_loop fuel d r n with
    | (r', Ok x) => reader_sane r' /\ length x <= n /\ length x + budget r' <= budget r
    | (r', Err _) => cr_eof r' = true
    | _ => False
    end.
  Proof.
    induction fuel as [|fuel IH]; intros r n Hd Hg Hs Hf; [lia|]. cbn [reader_loop].
    destruct (n =? 0) eqn:En; [cbn [orb length]; split; [done|lia]|]. apply Nat.eqb_neq in En.
    destruct (cr_eof r) eqn:He; [cbn [orb length]; split; [by left|lia]|]. cbn [orb].
    destruct Hs as [Hs|Hs]; [congruence|]. destruct (cr_block r) as [b|] eqn:Eb.
    - cbv zeta. set (nb := Nat.min (length b) n). set (r1 := mk_chain_reader _ _ _).
      specialize (IH r1 (n - nb) Hd Hg (or_intror Hs)).
      assert (budget r = length b + 254 * (room g (cr_chain r) / 8)) as B1 by (unfold budget; by rewrite He, Eb).
      assert (budget r1 + nb <= budget r) as B2.
      { rewrite B1. unfold budget, r1. cbn [cr_eof cr_block cr_chain]. destruct (Nat.eqb_spec (length b) nb); cbn [default length]; [lia|].
        change (id (drop nb b)) with (drop nb b). rewrite drop_length. lia. }
      destruct (Nat.eqb_spec (length b) nb) as [E|E].
      + assert (2 * loads g (cr_chain r1) + block_cost r1 + 2 <= fuel) as Hf1.
        { unfold block_cost in *. rewrite Eb in Hf. cbn [r1 cr_chain cr_block]. lia. }
        specialize (IH Hf1). destruct (reader_loop fuel d r1 (n - nb)) as [r2 [x|x| |]]; try done. cbn [rbind].
        rewrite app_length, take_length. destruct IH as (I1 & I2 & I3). split; [done|]. lia.
      + assert (n - nb = 0) as -> by lia. destruct fuel as [|fuel]; [lia|]. cbn [reader_loop Nat.eqb orb rbind].
        rewrite app_nil_r, take_length. split; [by right|]. lia.
    - pose proof (chain_any t g d (cr_chain r) Hd Hg Hs) as Hc. destruct (chain_next d (cr_chain r)) as [ci [[sec|e| |]|]]; try done.
      + destruct Hc as (C1 & C2 & C3 & C4).
        specialize (IH (mk_chain_reader ci (Some (drop 2 (cs_data sec))) false) n Hd Hg (or_intror C1)).
        unfold block_cost in *. rewrite Eb in Hf. cbn [cr_chain cr_block] in IH. specialize (IH ltac:(lia)).
        destruct (reader_loop fuel d _ n) as [r2 [x|x| |]]; try done. destruct IH as (I1 & I2 & I3). split; [done|]. split; [done|].
        unfold budget in I3 at 2. unfold budget at 2. rewrite He, Eb. cbn [cr_eof cr_block cr_chain default length] in *.
        change (id (drop 2 (cs_data sec))) with (drop 2 (cs_data sec)) in I3. rewrite drop_length in I3.
        assert (room g ci / 8 + 1 <= room g (cr_chain r) / 8); [|lia]. clear -C2.
        generalize dependent (room g ci). generalize (room g (cr_chain r)). intros a b H. lia.
      + destruct fuel as [|fuel]; [lia|]. cbn [reader_loop cr_eof]. rewrite orb_true_r. cbn [length]. split; [by left|]. unfold budget. cbn. lia.
  Qed.

  Lemma reads_any ds : forall r, Forall (fun x => dev_shape t (fst x) /\ d_geom (fst x) = g) ds -> reader_sane r ->
    Forall2 (fun d x => (exists bs, x = Ok bs /\ length bs <= snd d) \/ exists e, x = Err e) ds (readings ds r)
    /\ length (concat (map bytes_of (readings ds r))) <= budget r
    /\ forall i j d x y, i < j -> ds !! i = Some d -> readings ds r !! i = Some x -> comes_short (snd d) x = true ->
         readings ds r !! j = Some y -> y = Ok [].
  Proof.
    assert (forall ds r j y, cr_eof r = true -> readings ds r !! j = Some y -> y = Ok []) as Hend.
    { clear. induction ds as [|[d n] ds IH]; intros r j y He; [done|]. cbn [readings]. rewrite (ended_reads d r n He).
      destruct j as [|j]; cbn; [by intros [= <-]|]. by apply IH. }
    induction ds as [|[d n] ds IH]; intros r Hds Hs; cbn [readings].
    { split; [constructor|]. split; [cbn; lia|]. by intros [|i]. }
    apply Forall_cons in Hds as [[Hd Hg] Hds]. cbn [fst] in Hd, Hg.
    assert (match reader_read d r n with
            | (r', Ok x) => reader_sane r' /\ length x <= n /\ length x + budget r' <= budget r
            | (r', Err _) => cr_eof r' = true
            | _ => False
            end) as H.
    { destruct (cr_eof r) eqn:He; [rewrite (ended_reads d r n He); cbn [length]; split; [done|lia]|].
      apply loop_reads; [done|done|done|]. rewrite (ds_count _ _ Hd), Hg.
      unfold loads, block_cost. destruct (ci_next (cr_chain r)), (cr_block r); lia. }
    pose proof (fun r' x E => short_ends (2 * length (d_blocks d) + 8) d r n r' x E) as Hshort. fold (reader_read d r n) in Hshort.
    destruct (reader_read d r n) as [r' [x|e| |]]; try done.
    - destruct H as (H1 & H2 & H3). destruct (IH r' Hds H1) as (I1 & I2 & I3). split; [apply List.Forall2_cons; [left; by exists x|done]|].
      split; [cbn [map concat bytes_of]; rewrite app_length; lia|].
      intros [|i] [|j] d0 x0 y Hij; try lia; cbn; [intros [= <-] [= <-] Hsh; apply Hend|intros; eapply (I3 i j); [lia|done..]].
      apply (Hshort r' x); [done|]. cbn [snd comes_short] in Hsh. by apply Nat.ltb_lt.
    - destruct (IH r' Hds (or_introl H)) as (I1 & I2 & I3). split; [apply List.Forall2_cons; [right; by exists e|done]|].
      assert (budget r' = 0) as B by (unfold budget; by rewrite H).
      split; [cbn [map concat bytes_of app]; lia|].
      intros [|i] [|j] d0 x0 y Hij; try lia; cbn; [intros _ _ _; by apply Hend|intros; eapply (I3 i j); [lia|done..]].
  Qed.
End ends.

Theorem reader_ends t g start ds :
  Forall (fun x => dev_shape t (fst x) /\ d_geom (fst x) = g) ds ->
  Forall2 (fun d x => (exists bs, x = Ok bs /\ length bs <= snd d) \/ exists e, x = Err e) ds (readings ds (reader_new start))
  /\ length (concat (map bytes_of (readings ds (reader_new start)))) <= 254 * sector_count g
  /\ forall i j d x y, i < j -> ds !! i = Some d -> readings ds (reader_new start) !! i = Some x -> comes_short (snd d) x = true ->
       readings ds (reader_new start) !! j = Some y -> y = Ok [].
Proof.
  intros Hds. destruct (reads_any t g ds (reader_new start) Hds) as (H1 & H2 & H3).
  { right. right. split; constructor. }
  split; [done|]. split; [|done]. etransitivity; [exact H2|]. unfold budget, reader_new, room, chain_new. cbn [cr_eof cr_block cr_chain default length ci_next ci_visited].
  rewrite Nat.sub_0_r. generalize (sector_count g). intros k. lia.
Qed.
