(** C11, C12, C13: the allocation strategy. *)
From Verif Require Import Base ListFacts Layout Block Bam Format Spec SpecCodec SpecBam GeomFacts FlatProofs
  BitFacts HeaderProofs.
Ltac Zify.zify_post_hook ::= Z.div_mod_to_equations.

(** ** The formats *)

Definition fmt_of (t : disk_type) (f : disk_format) : Prop := exists g, f = set_geos g (native_format t).

Lemma fmt_dir t f : fmt_of t f -> directory_track f = dir_track t.
Proof. intros [g ->]. by destruct t. Qed.
Lemma fmt_first t f : fmt_of t f -> first_track f = 1.
Proof. intros [g ->]. by destruct t. Qed.
Lemma fmt_last t f : fmt_of t f -> last_track f = spec_tracks t.
Proof. intros [g ->]. by destruct t. Qed.
Lemma fmt_tracks t f : fmt_of t f -> tracks f = tracks (native_format t).
Proof. intros [g ->]. by destruct t. Qed.
Lemma fmt_sectors t f tr : fmt_of t f -> 1 <= tr <= spec_tracks t -> sectors_in_track f tr = spec_sectors t tr.
Proof.
  intros Hf Htr. unfold sectors_in_track. rewrite (fmt_tracks t f Hf). apply format_tracks.
  rewrite (fmt_last t (native_format t)) by (exists (geos (native_format t)); by destruct t). done.
Qed.

Lemma spec_sectors_bounds t tr : 1 <= tr <= spec_tracks t -> 0 < spec_sectors t tr <= 40.
Proof.
  intros H. destruct t; simpl in *; unfold zone; repeat (case_match); lia.
Qed.

(** ** Availability *)

Section framed.
Context (t : disk_type) (b : bam) (Hb : bam_frame t b).

Lemma con_fmt : fmt_of t (b_format b).
Proof. apply Hb. Qed.

Lemma entry_at_ok tr : 1 <= tr <= spec_tracks t -> bam_entry_at b tr = Ok (track_entry b tr).
Proof.
  intros Htr. unfold bam_entry_at, check_validity. rewrite (bf_valid _ _ Hb). cbn [rbind].
  destruct tr as [|i]; [lia|]. unfold track_entry. replace (S i - 1) with i by lia.
  pose proof (bf_length _ _ Hb).
  destruct (b_entries b !! i) eqn:E.
  - by rewrite (list_lookup_total_correct _ _ _ E).
  - apply lookup_ge_None in E. lia.
Qed.

(** ** The first free track *)

Definition ring (d : nat) : list nat :=
  (if (d <=? dir_track t) && (1 <=? dir_track t - d) then [dir_track t - d] else [])
  ++ (if dir_track t + d <=? spec_tracks t then [dir_track t + d] else []).

Definition rings (ds : list nat) : list nat := concat (map ring ds).

Definition first_avail (trs : list nat) : option nat :=
  List.find (fun tr => has_availability (track_entry b tr)) trs.

Lemma find_app {A} (p : A -> bool) l k :
  List.find p (l ++ k) = match List.find p l with Some x => Some x | None => List.find p k end.
Proof. induction l as [|x l IH]; simpl; [done|]. by destruct (p x). Qed.

Lemma first_free_track_loop_spec ds :
  Forall (fun d => 1 <= d /\ dir_track t + d < 256) ds ->
  first_free_track_loop (b_format b) b ds =
  match first_avail (rings ds) with
  | Some tr => Ok (tr, track_entry b tr)
  | None => Err EDiskFull
  end.
Proof.
  induction 1 as [|d ds [Hd Hd256] Hds IH]; [done|].
  cbn [first_free_track_loop]. rewrite !(fmt_dir t), (fmt_first t), (fmt_last t) by apply con_fmt.
  unfold rings. cbn [map concat]. fold (rings ds). unfold first_avail.
  rewrite find_app. unfold ring at 1. rewrite find_app.
  assert (dir_track t <= spec_tracks t) as Hds' by (destruct t; simpl; lia).
  set (lo := dir_track t - d). set (hi := dir_track t + d).
  assert ((if d <=? dir_track t
     then if 1 <=? lo then let? e := bam_entry_at b lo in Ok (if has_availability e then Some (lo, e) else None)
          else Ok None else Ok None)
    = Ok (match List.find (fun tr => has_availability (track_entry b tr))
            (if (d <=? dir_track t) && (1 <=? lo) then [lo] else []) with
          | Some tr => Some (tr, track_entry b tr) | None => None end)) as ->.
  { destruct (Nat.leb_spec d (dir_track t)); [|done]. destruct (Nat.leb_spec 1 lo); [|done].
    rewrite entry_at_ok by lia. cbn [rbind andb List.find].
    by destruct (has_availability (track_entry b lo)). }
  cbn [rbind].
  destruct (List.find _ (if (d <=? dir_track t) && (1 <=? lo) then [lo] else [])) as [tr|]; [done|].
  unfold u8_add. fold hi. destruct (Nat.ltb_spec hi 256); [|lia]. cbn [rbind].
  destruct (Nat.leb_spec hi (spec_tracks t)).
  - rewrite entry_at_ok by (unfold hi in *; destruct t; simpl in *; lia). cbn [rbind List.find].
    destruct (has_availability (track_entry b hi)); [done|]. exact IH.
  - cbn [rbind List.find]. exact IH.
Qed.

Lemma rings_in tr n :
  In tr (rings (seq 1 n)) ->
  1 <= tr <= spec_tracks t /\ tr <> dir_track t.
Proof.
  clear b Hb. unfold rings. rewrite in_concat. intros (r & Hr & Hin). apply in_map_iff in Hr as (d & <- & Hd).
  apply in_seq in Hd. unfold ring in Hin. apply in_app_or in Hin.
  assert (dir_track t <= spec_tracks t) as Hds' by (destruct t; simpl; lia).
  destruct Hin as [Hin|Hin].
  - destruct (Nat.leb_spec d (dir_track t)); [|done]. destruct (Nat.leb_spec 1 (dir_track t - d)); [|done].
    destruct Hin as [<-|[]]. lia.
  - destruct (Nat.leb_spec (dir_track t + d) (spec_tracks t)); [|done]. destruct Hin as [<-|[]]. lia.
Qed.

Lemma rings_all tr n :
  1 <= tr <= spec_tracks t -> tr <> dir_track t ->
  (dir_track t - tr) + (tr - dir_track t) <= n -> In tr (rings (seq 1 n)).
Proof.
  clear b Hb. intros Htr Hne Hn. set (d := (dir_track t - tr) + (tr - dir_track t)) in *.
  unfold rings. apply in_concat. exists (ring d). split.
  - apply in_map, in_seq. lia.
  - unfold ring. apply in_or_app. destruct (Nat.ltb_spec tr (dir_track t)).
    + left. rewrite (proj2 (Nat.leb_le d (dir_track t))) by lia.
      rewrite (proj2 (Nat.leb_le 1 (dir_track t - d))) by lia. left. lia.
    + right. rewrite (proj2 (Nat.leb_le (dir_track t + d) (spec_tracks t))) by lia. left. lia.
Qed.

Lemma first_free_track_spec :
  first_free_track (b_format b) b =
  match first_avail (rings (seq 1 (Nat.max (dir_track t - 1) (spec_tracks t + 1 - dir_track t)))) with
  | Some tr => Ok (tr, track_entry b tr)
  | None => Err EDiskFull
  end.
Proof.
  unfold first_free_track. rewrite !(fmt_dir t), (fmt_first t), (fmt_last t) by apply con_fmt.
  unfold u8_sub, u8_add.
  rewrite (proj2 (Nat.leb_le 1 (dir_track t))) by (destruct t; simpl; lia). cbn [rbind].
  rewrite (proj2 (Nat.ltb_lt (spec_tracks t + 1) 256)) by (destruct t; simpl; lia). cbn [rbind].
  rewrite (proj2 (Nat.leb_le (dir_track t) (spec_tracks t + 1))) by (destruct t; simpl; lia). cbn [rbind].
  unfold range_incl.
  replace (S (Nat.max (dir_track t - 1) (spec_tracks t + 1 - dir_track t)) - 1)
    with (Nat.max (dir_track t - 1) (spec_tracks t + 1 - dir_track t)) by lia.
  apply first_free_track_loop_spec. apply Forall_forall. intros d Hd.
  apply elem_of_list_In, in_seq in Hd. destruct t; simpl in *; lia.
Qed.

Lemma first_free_sector_spec n m s :
  match first_free_sector s n m with
  | Some r => s <= r < s + n /\ N.testbit m (N.of_nat (r - s)) = true
              /\ forall i, i < r - s -> N.testbit m (N.of_nat i) = false
  | None => forall i, i < n -> N.testbit m (N.of_nat i) = false
  end.
Proof.
  revert m s. induction n as [|n IH]; intros m s; cbn [first_free_sector]; [intros; lia|].
  destruct (N.testbit m 0) eqn:E.
  - split; [lia|]. rewrite Nat.sub_diag. split; [done|intros; lia].
  - specialize (IH (N.shiftr m 1) (S s)).
    assert (forall i, N.testbit (N.shiftr m 1) (N.of_nat i) = N.testbit m (N.of_nat (S i))) as Hs.
    { intros i. rewrite N.shiftr_spec'. f_equal. lia. }
    destruct (first_free_sector (S s) n (N.shiftr m 1)) as [r|].
    + destruct IH as (H1 & H2 & H3). split; [lia|]. rewrite Hs in H2.
      replace (S (r - S s)) with (r - s) in H2 by lia. split; [done|].
      intros [|i] Hi; [done|]. rewrite <- Hs. apply H3. lia.
    + intros [|i] Hi; [done|]. rewrite <- Hs. apply IH. lia.
Qed.

(** ** The tracks visited when looking for the next free track *)

Fixpoint visit (fuel : nat) (advance : nat -> nat -> bool -> res (nat * nat * bool))
    (track passes : nat) (reset : bool) : option (list (nat * bool)) :=
  match fuel with
  | 0 => None
  | S fuel =>
      if passes =? 0 then Some []
      else match advance track passes reset with
           | Err EDiskFull => Some [(track, reset)]
           | Ok (track', passes', reset') =>
               match visit fuel advance track' passes' reset' with
               | Some p => Some ((track, reset) :: p)
               | None => None
               end
           | _ => None
           end
  end.

Lemma track_loop_visit fuel adv track passes reset p :
  visit fuel adv track passes reset = Some p ->
  (forall x, In x p -> 1 <= fst x <= spec_tracks t) ->
  track_loop fuel adv b track passes reset =
  match List.find (fun x => has_availability (track_entry b (fst x))) p with
  | Some x => Ok (fst x, track_entry b (fst x), snd x)
  | None => Err EDiskFull
  end.
Proof.
  revert track passes reset p. induction fuel as [|fuel IH]; intros track passes reset p; [done|].
  cbn [visit track_loop]. destruct (passes =? 0); [intros [= <-]; done|].
  destruct (adv track passes reset) as [[[tr' ps'] rs']|[]| |] eqn:Ea; try done.
  - destruct (visit fuel adv tr' ps' rs') as [q|] eqn:Ev; [|done]. intros [= <-] Hin.
    rewrite entry_at_ok by (apply (Hin (track, reset)); by left). cbn [rbind List.find fst snd].
    destruct (has_availability (track_entry b track)); [done|]. cbn [rbind].
    apply IH; [exact Ev|]. intros x Hx. apply Hin. by right.
  - intros [= <-] Hin. rewrite entry_at_ok by (apply (Hin (track, reset)); by left).
    cbn [rbind List.find fst snd]. by destruct (has_availability (track_entry b track)).
Qed.

End framed.

Section with_bam.
Context (t : disk_type) (b : bam) (Hb : bam_consistent t b).

Lemma con_frame : bam_frame t b.
Proof. split; apply (bc_shape _ _ Hb). Qed.

Lemma avail_free tr :
  1 <= tr <= spec_tracks t ->
  has_availability (track_entry b tr) = true <-> exists s, s < spec_sectors t tr /\ is_free b (tr, s).
Proof.
  intros Htr. unfold has_availability. rewrite Nat.ltb_lt, (bc_counts _ _ Hb tr Htr).
  rewrite <- popcount_free_bits. unfold popcount. rewrite bits_from_pos. split.
  - intros (s & _ & Hs). exists s. split; [|exact Hs]. by apply (bc_bits _ _ Hb tr s Htr).
  - intros (s & Hs & Hf). exists s. split; [|exact Hf].
    pose proof (spec_sectors_bounds t tr Htr). lia.
Qed.

Lemma avail_false tr :
  1 <= tr <= spec_tracks t -> has_availability (track_entry b tr) = false ->
  forall s, ~ is_free b (tr, s).
Proof.
  intros Htr Ha s Hs. assert (has_availability (track_entry b tr) = true); [|congruence].
  apply avail_free; [done|]. exists s. split; [|done]. by apply (bc_bits _ _ Hb tr s).
Qed.

(** C11, with the order of preference. *)
Lemma first_free_block_cbm :
  geos (b_format b) = false ->
  match bam_next_free_block b None with
  | Ok l => bam_sector t l /\ fst l <> dir_track t /\ is_free b l
            /\ (forall s, s < snd l -> ~ is_free b (fst l, s))
  | Err e => e = EDiskFull /\ forall l, bam_sector t l -> fst l <> dir_track t -> ~ is_free b l
  | _ => False
  end.
Proof.
  intros Hg. unfold bam_next_free_block, check_validity. rewrite (bs_valid _ _ (bc_shape _ _ Hb)).
  cbn [rbind fmt_next_free_block]. unfold first_free_block. rewrite Hg, (first_free_track_spec t b con_frame).
  set (n := Nat.max _ _). destruct (first_avail b (rings t (seq 1 n))) as [tr|] eqn:E.
  - apply List.find_some in E as [Hin Ha]. apply rings_in in Hin as [Htr Hne]. cbn [rbind].
    rewrite (fmt_sectors t) by (done || apply con_frame).
    pose proof (first_free_sector_spec (spec_sectors t tr) (e_map (track_entry b tr)) 0) as Hs.
    destruct (first_free_sector 0 _ _) as [s|].
    + destruct Hs as (H1 & H2 & H3). rewrite Nat.sub_0_r in *. split; [split; simpl; lia|].
      split; [done|]. split; [exact H2|]. intros i Hi Hf. unfold is_free in Hf. simpl in Hf.
      rewrite H3 in Hf; done.
    + apply avail_free in Ha as (s & Hs' & Hf); [|done]. unfold is_free in Hf. simpl in Hf.
      by rewrite Hs in Hf.
  - cbn [rbind]. split; [done|]. intros [tr s] [Htr Hs] Hne Hf. simpl in *.
    pose proof (List.find_none _ _ E tr) as Hn. cbn beta in Hn.
    apply (avail_false tr Htr) in Hf; [done|]. apply Hn. apply rings_all; try done.
    unfold n. destruct t; simpl in *; lia.
Qed.

End with_bam.

(** The area in which the sector following one on track [prev] is looked for. *)
Definition in_area (t : disk_type) (prev tr : nat) : bool :=
  if prev =? dir_track t then tr =? dir_track t
  else negb (tr =? dir_track t)
       && (negb (match t with D71 => tr =? 53 | _ => false end) || (tr =? prev)).

Definition tracks_mask (l : list nat) : N := fold_left (fun m tr => N.setbit m (N.of_nat tr)) l 0%N.

Definition visit_from (f : disk_format) (prev : nat) : option (list (nat * bool)) :=
  visit track_fuel (if geos f then geos_advance f else cbm_advance f) prev
    (if geos f then (if prev =? first_track f then 1 else 2) else 3) false.

Definition visit_ok (t : disk_type) (f : disk_format) (prev : nat) : bool :=
  match visit_from f prev with
  | Some p =>
      forallb (fun x => (1 <=? fst x) && (fst x <=? spec_tracks t)
                        && in_area t prev (fst x) && (snd x || negb (geos f) || (prev <=? fst x))) p
      && (tracks_mask (map fst p)
          =? tracks_mask (List.filter (in_area t prev) (seq 1 (spec_tracks t))))%N
  | None => false
  end.

Definition visits_ok : bool :=
  forallb (fun t => forallb (fun g => forallb (visit_ok t (set_geos g (native_format t)))
                                  (seq 1 (spec_tracks t))) [false; true]) [D64; D71; D81].

Lemma visits_checked : visits_ok = true.
Proof. vm_compute. reflexivity. Qed.

Lemma visit_checked t f prev : fmt_of t f -> 1 <= prev <= spec_tracks t -> visit_ok t f prev = true.
Proof.
  intros [g ->] Hp. pose proof visits_checked as H. unfold visits_ok in H.
  rewrite forallb_forall in H. specialize (H t ltac:(destruct t; simpl; tauto)).
  rewrite forallb_forall in H. specialize (H g ltac:(destruct g; simpl; tauto)).
  rewrite forallb_forall in H. apply H. apply in_seq. lia.
Qed.

Lemma tracks_mask_bit l i m :
  N.testbit (fold_left (fun m tr => N.setbit m (N.of_nat tr)) l m) (N.of_nat i) = true
  <-> N.testbit m (N.of_nat i) = true \/ In i l.
Proof.
  revert m. induction l as [|x l IH]; intros m; simpl; [tauto|].
  rewrite IH. destruct (decide (x = i)) as [->|Hne].
  - rewrite N.setbit_eq. tauto.
  - rewrite N.setbit_neq by lia. tauto.
Qed.

Lemma in_tracks_mask l i : N.testbit (tracks_mask l) (N.of_nat i) = true <-> In i l.
Proof. unfold tracks_mask. rewrite tracks_mask_bit. rewrite N.bits_0. intuition congruence. Qed.

Lemma in_area_spec t prev tr :
  in_area t prev tr = true <->
  (prev = dir_track t -> tr = dir_track t)
  /\ (prev <> dir_track t -> tr <> dir_track t /\ (reserved t tr -> tr = prev)).
Proof.
  unfold in_area, reserved. destruct (Nat.eqb_spec prev (dir_track t)).
  - rewrite Nat.eqb_eq. intuition.
  - rewrite andb_true_iff, orb_true_iff, !negb_true_iff, Nat.eqb_neq, Nat.eqb_eq.
    destruct t; try (intuition congruence). rewrite Nat.eqb_neq. destruct (decide (tr = 53)); intuition.
Qed.

Lemma visit_spec t f prev :
  fmt_of t f -> 1 <= prev <= spec_tracks t ->
  exists p, visit_from f prev = Some p
    /\ (forall x, In x p -> 1 <= fst x <= spec_tracks t /\ in_area t prev (fst x) = true
                  /\ (snd x = false -> geos f = true -> prev <= fst x))
    /\ (forall tr, 1 <= tr <= spec_tracks t -> in_area t prev tr = true -> exists r, In (tr, r) p).
Proof.
  intros Hf Hp. pose proof (visit_checked t f prev Hf Hp) as H. unfold visit_ok in H.
  destruct (visit_from f prev) as [p|]; [|done]. exists p. split; [done|].
  apply andb_true_iff in H as [H1 H2]. split.
  - intros x Hx. rewrite forallb_forall in H1. specialize (H1 x Hx).
    rewrite !andb_true_iff, !orb_true_iff, !Nat.leb_le, negb_true_iff in H1.
    destruct H1 as ((H1 & H3) & H4). split; [lia|]. split; [done|]. intros Hs Hg.
    destruct H4 as [[H4|H4]|H4]; congruence || done.
  - intros tr Htr Ha. apply N.eqb_eq in H2.
    assert (In tr (map fst p)) as Hin.
    { apply in_tracks_mask. rewrite H2. apply in_tracks_mask. apply filter_In. split; [|done].
      apply in_seq. lia. }
    apply in_map_iff in Hin as ([tr' r] & Heq & Hin). simpl in Heq. subst tr'. by exists r.
Qed.

Lemma wrap_sector_spec f n fuel s :
  0 < n -> s < fuel -> exists r, wrap_sector fuel f n s = Ok r /\ r < n.
Proof.
  intros Hn. revert s. induction fuel as [|fuel IH]; intros s Hs; [lia|].
  cbn [wrap_sector]. destruct (Nat.leb_spec n s); [|by exists s].
  apply IH. destruct ((0 <? s - n) && negb (geos f)); lia.
Qed.

Lemma scan_sector_spec n start m fuel k j cur :
  0 < n <= 64 -> start < n -> k + j = n -> 0 < k -> k <= fuel ->
  cur = (start + j) mod n ->
  (forall i, i < j -> N.testbit m (N.of_nat ((start + i) mod n)) = false) ->
  (exists s, s < n /\ N.testbit m (N.of_nat s) = true) ->
  exists r, scan_sector fuel n start m cur = Ok r /\ r < n /\ N.testbit m (N.of_nat r) = true.
Proof.
  intros Hn Hst. revert j cur fuel. induction k as [|k IH]; intros j cur fuel Hkj Hk Hfuel Hcur Hprev Hex; [lia|].
  destruct fuel as [|fuel]; [lia|]. cbn [scan_sector].
  assert (cur < n) as Hcn by (rewrite Hcur; apply Nat.mod_upper_bound; lia).
  destruct (Nat.leb_spec 64 cur); [lia|].
  destruct (N.testbit m (N.of_nat cur)) eqn:Eb; [by exists cur|].
  assert ((if n <=? cur + 1 then 0 else cur + 1) = (start + S j) mod n) as ->.
  { replace (start + S j) with (start + j + 1) by lia.
    rewrite <- Nat.add_mod_idemp_l, <- Hcur by lia.
    destruct (Nat.leb_spec n (cur + 1)).
    - replace (cur + 1) with n by lia. rewrite Nat.mod_same; lia.
    - rewrite Nat.mod_small; lia. }
  assert (forall i, i < S j -> N.testbit m (N.of_nat ((start + i) mod n)) = false) as Hprev'.
  { intros i Hi. destruct (decide (i = j)) as [->|]; [by rewrite <- Hcur|]. apply Hprev. lia. }
  destruct (Nat.eqb_spec ((start + S j) mod n) start) as [He|He].
  - exfalso. destruct Hex as (s & Hs & Hbit).
    destruct (decide (S j = n)) as [Hjn|Hjn].
    + set (i := (s + n - start) mod n).
      assert (i < n) by (apply Nat.mod_upper_bound; lia).
      assert ((start + i) mod n = s) as Hi.
      { unfold i. rewrite Nat.add_mod_idemp_r by lia. replace (start + (s + n - start)) with (s + 1 * n) by lia.
        rewrite Nat.mod_add by lia. apply Nat.mod_small. lia. }
      specialize (Hprev' i ltac:(lia)). rewrite Hi in Hprev'. congruence.
    + assert (S j < n) by lia. destruct (Nat.ltb_spec (start + S j) n).
      * rewrite Nat.mod_small in He by lia. lia.
      * replace (start + S j) with (start + S j - n + 1 * n) in He by lia.
        rewrite Nat.mod_add, Nat.mod_small in He by lia. lia.
  - destruct (decide (k = 0)) as [->|Hk0].
    + replace (S j) with n in He by lia. replace (start + n) with (start + 1 * n) in He by lia.
      rewrite Nat.mod_add, Nat.mod_small in He by lia. lia.
    + apply (IH (S j)); try done; lia.
Qed.

(** C12 and C13. *)
Lemma next_after t b p :
  bam_consistent t b -> bam_sector t p ->
  match bam_next_free_block b (Some p) with
  | Ok l => bam_sector t l /\ is_free b l /\ in_area t (fst p) (fst l) = true
  | Err e => e = EDiskFull
             /\ forall l, bam_sector t l -> in_area t (fst p) (fst l) = true -> ~ is_free b l
  | _ => False
  end.
Proof.
  intros Hb [Hp1 Hp2]. unfold bam_next_free_block, check_validity. rewrite (bs_valid _ _ (bc_shape _ _ Hb)).
  cbn [rbind fmt_next_free_block]. unfold next_free_block_from_previous.
  pose proof (con_fmt t b (con_frame t b Hb)) as Hf.
  destruct (visit_spec t (b_format b) (fst p) Hf Hp1) as (path & Hv & Hin & Hall).
  assert (next_free_track (b_format b) b (fst p) =
    match List.find (fun x => has_availability (track_entry b (fst x))) path with
    | Some x => Ok (fst x, track_entry b (fst x), snd x)
    | None => Err EDiskFull
    end) as ->.
  { unfold visit_from in Hv. unfold next_free_track, next_free_track_geos, next_free_track_cbm.
    destruct (geos (b_format b)); apply (track_loop_visit t b (con_frame t b Hb)); try done;
      intros x Hx; by apply Hin. }
  destruct (List.find _ path) as [[tr reset]|] eqn:E.
  - apply List.find_some in E as [Hx Ha]. destruct (Hin _ Hx) as (Htr & Har & Hge). cbn [fst snd rbind] in *.
    rewrite (fmt_sectors t _ tr Hf Htr).
    pose proof (spec_sectors_bounds t tr Htr) as Hn.
    pose proof (spec_sectors_bounds t (fst p) Hp1) as Hn'.
    assert (exists s0, skewed_sector (b_format b) p tr reset = Ok s0 /\ s0 < 256) as (s0 & -> & Hs0).
    { unfold skewed_sector. destruct reset; [exists 0; split; [done|lia]|].
      set (il := if tr =? directory_track (b_format b) then directory_interleave (b_format b)
                 else interleave (b_format b)).
      assert (1 <= il <= 10) as Hil.
      { unfold il. destruct Hf as [g ->]. clear. destruct t, g; simpl; destruct (tr =? _); lia. }
      assert (spec_tracks t <= 80) by (clear; destruct t; simpl; lia).
      unfold u8_add, u8_sub.
      destruct (negb (geos (b_format b)) || (tr =? fst p)) eqn:Ec.
      - rewrite (proj2 (Nat.ltb_lt (snd p + il) 256)) by lia. cbn [rbind].
        destruct (geos (b_format b) && (25 <=? tr)).
        + rewrite (proj2 (Nat.leb_le 1 (snd p + il))) by lia. eexists. split; [done|]. lia.
        + eexists. split; [done|]. lia.
      - apply orb_false_iff in Ec as [Hg _]. apply negb_false_iff in Hg.
        specialize (Hge eq_refl Hg). cbn [fst] in Hge.
        rewrite (proj2 (Nat.leb_le (fst p) tr)) by lia. cbn [rbind].
        rewrite (proj2 (Nat.ltb_lt (tr - fst p + (tr - fst p)) 256)) by lia. cbn [rbind].
        rewrite (proj2 (Nat.ltb_lt (tr - fst p + (tr - fst p) + 4) 256)) by lia. cbn [rbind].
        rewrite (proj2 (Nat.ltb_lt (tr - fst p + (tr - fst p) + 4 + il) 256)) by lia.
        eexists. split; [done|]. lia. }
    cbn [rbind].
    destruct (wrap_sector_spec (b_format b) (spec_sectors t tr) 256 s0 ltac:(lia) ltac:(lia)) as (s1 & -> & Hs1).
    cbn [rbind].
    apply (avail_free t b Hb tr Htr) in Ha.
    destruct (scan_sector_spec (spec_sectors t tr) s1 (e_map (track_entry b tr)) 256 (spec_sectors t tr) 0 s1)
      as (r & -> & Hr & Hbit); try lia.
    { rewrite Nat.add_0_r, Nat.mod_small; lia. }
    { exact Ha. }
    cbn [rbind]. split; [split; simpl; lia|]. split; [exact Hbit|exact Har].
  - cbn [rbind]. split; [done|]. intros [tr s] [Htr Hs] Har Hfr. simpl in *.
    destruct (Hall tr Htr Har) as [r Hr]. pose proof (List.find_none _ _ E _ Hr) as Hn. cbn in Hn.
    by apply (avail_false t b Hb tr Htr Hn s).
Qed.

(** ** The order of preference for new files *)

Lemma find_split {A} (p : A -> bool) l x :
  List.find p l = Some x ->
  exists l1 l2, l = l1 ++ x :: l2 /\ forall y, In y l1 -> p y = false.
Proof.
  induction l as [|y l IH]; [done|]. cbn [List.find]. destruct (p y) eqn:E.
  - intros [= ->]. by exists [], l.
  - intros (l1 & l2 & -> & H)%IH. exists (y :: l1), l2. split; [done|].
    intros z [<-|Hz]; [done|by apply H].
Qed.

Lemma rings_sorted t k n : 1 <= k -> StronglySorted (tried_before t) (rings t (seq k n)).
Proof.
  revert k. induction n as [|n IH]; intros k Hk; [constructor|].
  unfold rings. cbn [seq map concat]. fold (rings t (seq (S k) n)).
  assert (Forall (fun y => k < (dir_track t - y) + (y - dir_track t)) (rings t (seq (S k) n))) as Hrest.
  { apply Forall_forall. intros y Hy%elem_of_list_In. unfold rings in Hy. apply in_concat in Hy as (r & Hr & Hy).
    apply in_map_iff in Hr as (d & <- & Hd%in_seq). unfold ring in Hy. apply in_app_or in Hy.
    destruct Hy as [Hy|Hy].
    - destruct (Nat.leb_spec d (dir_track t)); [|done]. destruct (Nat.leb_spec 1 (dir_track t - d)); [|done].
      destruct Hy as [<-|[]]. lia.
    - destruct (Nat.leb_spec (dir_track t + d) (spec_tracks t)); [|done]. destruct Hy as [<-|[]]. lia. }
  specialize (IH (S k) ltac:(lia)). unfold ring.
  assert (forall x, (dir_track t - x) + (x - dir_track t) <= k ->
     Forall (tried_before t x) (rings t (seq (S k) n))) as Hlt.
  { intros x Hx. eapply Forall_impl; [exact Hrest|]. intros y Hy. cbn beta in Hy. unfold tried_before. lia. }
  assert (StronglySorted (tried_before t)
    ((if dir_track t + k <=? spec_tracks t then [dir_track t + k] else []) ++ rings t (seq (S k) n))) as H2.
  { destruct (Nat.leb_spec (dir_track t + k) (spec_tracks t)); [|done].
    constructor; [done|]. apply Hlt. lia. }
  rewrite <- app_assoc.
  destruct (Nat.leb_spec k (dir_track t)); [|done]. destruct (Nat.leb_spec 1 (dir_track t - k)); [|done].
  cbn [andb app]. constructor; [done|].
  destruct (Nat.leb_spec (dir_track t + k) (spec_tracks t)); [|apply Hlt; lia].
  cbn [app]. constructor; [|apply Hlt; lia].
  unfold tried_before. lia.
Qed.

Lemma tried_asym t a b : tried_before t a b -> tried_before t b a -> False.
Proof. unfold tried_before. lia. Qed.

Lemma strongly_sorted_split {A} (R : A -> A -> Prop) l1 x l2 :
  StronglySorted R (l1 ++ x :: l2) -> Forall (R x) l2.
Proof.
  induction l1 as [|y l1 IH]; cbn [app]; intros H; inversion H; subst; [done|]. by apply IH.
Qed.

Lemma first_free_block_order t b l :
  bam_consistent t b -> geos (b_format b) = false ->
  bam_next_free_block b None = Ok l ->
  forall l', bam_sector t l' -> fst l' <> dir_track t -> is_free b l' ->
  l' = l \/ tried_before t (fst l) (fst l') \/ (fst l' = fst l /\ snd l < snd l').
Proof.
  intros Hb Hg Hl l' [Htr' Hs'] Hne Hf'.
  pose proof (first_free_block_cbm t b Hb Hg) as Hsp. rewrite Hl in Hsp.
  destruct Hsp as (_ & _ & _ & Hlow).
  unfold bam_next_free_block, check_validity in Hl. rewrite (bs_valid _ _ (bc_shape _ _ Hb)) in Hl.
  cbn [rbind fmt_next_free_block] in Hl. unfold first_free_block in Hl.
  rewrite Hg, (first_free_track_spec t b (con_frame t b Hb)) in Hl.
  set (n := Nat.max _ _) in Hl. destruct (first_avail b (rings t (seq 1 n))) as [tr|] eqn:E; [|done].
  cbn [rbind] in Hl. destruct (first_free_sector _ _ _); [|done].
  assert (fst l = tr) as Htr by (by apply Ok_inj in Hl; subst).
  apply find_split in E as (l1 & l2 & Heq & Hno).
  pose proof (rings_sorted t 1 n ltac:(lia)) as Hso. rewrite Heq in Hso. apply strongly_sorted_split in Hso.
  assert (In (fst l') (l1 ++ tr :: l2)) as Hin.
  { rewrite <- Heq. apply rings_all; try done. unfold n. destruct t; simpl in *; lia. }
  apply in_app_or in Hin. destruct Hin as [Hin|[Hin|Hin]].
  - apply Hno in Hin. destruct l' as [tr' s']. by apply (avail_false t b Hb tr' Htr' Hin) in Hf'.
  - destruct (Nat.lt_trichotomy (snd l') (snd l)) as [Hlt|[Heq'|Hgt]].
    + destruct l' as [tr' s']. cbn [fst snd] in *. exfalso. apply (Hlow s' Hlt). by rewrite Htr, Hin.
    + left. destruct l, l'. cbn [fst snd] in *. congruence.
    + right. right. split; congruence.
  - right. left. rewrite Htr. rewrite Forall_forall in Hso. apply Hso. by apply elem_of_list_In.
Qed.

(** ** Statements *)

Lemma alloc_new_cbm t b :
  bam_consistent t b -> geos (b_format b) = false ->
  (exists l, bam_next_free_block b None = Ok l
     /\ bam_sector t l /\ fst l <> dir_track t /\ is_free b l)
  \/ (bam_next_free_block b None = Err EDiskFull
      /\ forall l, bam_sector t l -> fst l <> dir_track t -> ~ is_free b l).
Proof.
  intros Hb Hg. pose proof (first_free_block_cbm t b Hb Hg) as H.
  destruct (bam_next_free_block b None) as [l|e| |]; try done.
  - left. exists l. tauto.
  - right. destruct H as [-> H]. done.
Qed.

Lemma alloc_after t b p :
  bam_consistent t b -> bam_sector t p ->
  let area l := bam_sector t l
    /\ (fst p = dir_track t -> fst l = dir_track t)
    /\ (fst p <> dir_track t -> fst l <> dir_track t /\ (reserved t (fst l) -> fst l = fst p)) in
  (exists l, bam_next_free_block b (Some p) = Ok l /\ area l /\ is_free b l)
  \/ (bam_next_free_block b (Some p) = Err EDiskFull /\ forall l, area l -> ~ is_free b l).
Proof.
  intros Hb Hp area. pose proof (next_after t b p Hb Hp) as H.
  destruct (bam_next_free_block b (Some p)) as [l|e| |]; try done.
  - left. exists l. destruct H as (H1 & H2 & H3). rewrite in_area_spec in H3. unfold area. tauto.
  - right. destruct H as [-> H]. split; [done|]. intros l (Hl & Har). apply H; [done|].
    by apply in_area_spec.
Qed.

Lemma alloc_new_geos t b :
  bam_consistent t b -> geos (b_format b) = true ->
  let area l := bam_sector t l /\ fst l <> dir_track t /\ ~ reserved t (fst l) in
  (exists l, bam_next_free_block b None = Ok l /\ area l /\ is_free b l)
  \/ (bam_next_free_block b None = Err EDiskFull /\ forall l, area l -> ~ is_free b l).
Proof.
  intros Hb Hg area.
  assert (bam_next_free_block b None = bam_next_free_block b (Some (1, 0))) as ->.
  { unfold bam_next_free_block, check_validity. rewrite (bs_valid _ _ (bc_shape _ _ Hb)).
    cbn [rbind fmt_next_free_block]. unfold first_free_block. rewrite Hg, (fmt_first t); [done|].
    exact (con_fmt t b (con_frame t b Hb)). }
  destruct (alloc_after t b (1, 0) Hb) as [(l & H1 & (H2 & H3 & H4) & H5)|[H1 H2]].
  - split; simpl; [destruct t; simpl; lia|]. destruct t; simpl; unfold zone; simpl; lia.
  - left. exists l. split; [done|]. split; [|done]. split; [done|].
    destruct H4 as [H6 H7]; [destruct t; simpl; lia|]. split; [done|].
    intros Hr. specialize (H7 Hr). destruct Hr as [-> Hr]. simpl in *. lia.
  - right. split; [done|]. intros l (Hl1 & Hl2 & Hl3). apply H2. split; [done|]. split.
    + intros Hc. simpl in Hc. destruct t; simpl in Hc; lia.
    + intros _. split; [done|]. intros Hr. done.
Qed.
