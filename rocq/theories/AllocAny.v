(** Looking for a block with any allocation map, consistent or not. *)
From Verif Require Import Base ListFacts Layout Block Bam Format Spec SpecCodec SpecBam GeomFacts FlatProofs
  BitFacts HeaderProofs AllocProofs.
Ltac Zify.zify_post_hook ::= Z.div_mod_to_equations.

Lemma scan_any n start m fuel k j cur :
  0 < n <= 64 -> start < n -> k + j = n -> 0 < k -> k <= fuel -> cur = (start + j) mod n ->
  (exists r, scan_sector fuel n start m cur = Ok r /\ r < n /\ N.testbit m (N.of_nat r) = true)
  \/ scan_sector fuel n start m cur = Err EInvalidBAM.
Proof.
  intros Hn Hst. revert j cur fuel. induction k as [|k IH]; intros j cur fuel Hkj Hk Hfuel Hcur; [lia|].
  destruct fuel as [|fuel]; [lia|]. cbn [scan_sector].
  assert (cur < n) as Hcn by (rewrite Hcur; apply Nat.mod_upper_bound; lia).
  destruct (Nat.leb_spec 64 cur); [lia|].
  destruct (N.testbit m (N.of_nat cur)) eqn:Eb; [left; by exists cur|].
  assert ((if n <=? cur + 1 then 0 else cur + 1) = (start + S j) mod n) as ->.
  { replace (start + S j) with (start + j + 1) by lia.
    rewrite <- Nat.add_mod_idemp_l, <- Hcur by lia.
    destruct (Nat.leb_spec n (cur + 1)).
    - replace (cur + 1) with n by lia. rewrite Nat.mod_same; lia.
    - rewrite Nat.mod_small; lia. }
  destruct (Nat.eqb_spec ((start + S j) mod n) start) as [He|He]; [by right|].
  destruct (decide (k = 0)) as [->|Hk0].
  - exfalso. apply He. replace (S j) with n by lia. replace (start + n) with (start + 1 * n) by lia.
    rewrite Nat.mod_add by lia. by apply Nat.mod_small.
  - apply (IH (S j)); lia.
Qed.

Lemma skew_any t f p tr reset :
  fmt_of t f -> bam_sector t p -> 1 <= tr <= spec_tracks t -> (reset = false -> geos f = true -> fst p <= tr) ->
  exists s0, skewed_sector f p tr reset = Ok s0 /\ s0 < 256.
Proof.
  intros Hf [Hp1 Hp2] Htr Hge. pose proof (spec_sectors_bounds t tr Htr) as Hn. pose proof (spec_sectors_bounds t (fst p) Hp1) as Hn'.
  unfold skewed_sector. destruct reset; [exists 0; split; [done|lia]|].
  set (il := if tr =? directory_track f then directory_interleave f else interleave f).
  assert (1 <= il <= 10) as Hil.
  { unfold il. destruct Hf as [g ->]. clear. destruct t, g; simpl; destruct (tr =? _); lia. }
  assert (spec_tracks t <= 80) by (clear; destruct t; simpl; lia).
  unfold u8_add, u8_sub.
  destruct (negb (geos f) || (tr =? fst p)) eqn:Ec.
  - rewrite (proj2 (Nat.ltb_lt (snd p + il) 256)) by lia. cbn [rbind].
    destruct (geos f && (25 <=? tr)).
    + rewrite (proj2 (Nat.leb_le 1 (snd p + il))) by lia. eexists. split; [done|]. lia.
    + eexists. split; [done|]. lia.
  - apply orb_false_iff in Ec as [Hg _]. apply negb_false_iff in Hg.
    specialize (Hge eq_refl Hg).
    rewrite (proj2 (Nat.leb_le (fst p) tr)) by lia. cbn [rbind].
    rewrite (proj2 (Nat.ltb_lt (tr - fst p + (tr - fst p)) 256)) by lia. cbn [rbind].
    rewrite (proj2 (Nat.ltb_lt (tr - fst p + (tr - fst p) + 4) 256)) by lia. cbn [rbind].
    rewrite (proj2 (Nat.ltb_lt (tr - fst p + (tr - fst p) + 4 + il) 256)) by lia.
    eexists. split; [done|]. lia.
Qed.


Lemma next_any t b p :
  bam_frame t b -> bam_sector t p ->
  search_answer t b (fun tr => in_area t (fst p) tr = true) (bam_next_free_block b (Some p)).
Proof.
  intros Hb Hp. pose proof Hp as [Hp1 Hp2]. unfold bam_next_free_block, check_validity. rewrite (bf_valid _ _ Hb).
  cbn [rbind fmt_next_free_block]. unfold next_free_block_from_previous.
  pose proof (con_fmt t b Hb) as Hf.
  destruct (visit_spec t (b_format b) (fst p) Hf Hp1) as (path & Hv & Hin & Hall).
  assert (next_free_track (b_format b) b (fst p) =
    match List.find (fun x => has_availability (track_entry b (fst x))) path with
    | Some x => Ok (fst x, track_entry b (fst x), snd x)
    | None => Err EDiskFull
    end) as ->.
  { unfold visit_from in Hv. unfold next_free_track, next_free_track_geos, next_free_track_cbm.
    destruct (geos (b_format b)); apply (track_loop_visit t b Hb); try done;
      intros x Hx; by apply Hin. }
  destruct (List.find _ path) as [[tr reset]|] eqn:E; [|by left].
  apply List.find_some in E as [Hx _]. destruct (Hin _ Hx) as (Htr & Har & Hge). cbn [fst snd rbind] in *.
  rewrite (fmt_sectors t _ tr Hf Htr).
  pose proof (spec_sectors_bounds t tr Htr) as Hn.
  destruct (skew_any t (b_format b) p tr reset Hf Hp Htr Hge) as (s0 & -> & Hs0). cbn [rbind].
  destruct (wrap_sector_spec (b_format b) (spec_sectors t tr) 256 s0 ltac:(lia) ltac:(lia)) as (s1 & -> & Hs1).
  cbn [rbind].
  destruct (scan_any (spec_sectors t tr) s1 (e_map (track_entry b tr)) 256 (spec_sectors t tr) 0 s1)
    as [(r & -> & Hr & Hbit)| ->]; try lia.
  { rewrite Nat.add_0_r, Nat.mod_small; lia. }
  - cbn [rbind]. split; [split; simpl; lia|]. by split.
  - by right.
Qed.

Lemma new_any t b :
  bam_frame t b ->
  search_answer t b (fun tr => tr <> dir_track t) (bam_next_free_block b None).
Proof.
  intros Hb. pose proof (con_fmt t b Hb) as Hf. unfold bam_next_free_block, check_validity. rewrite (bf_valid _ _ Hb).
  cbn [rbind fmt_next_free_block]. unfold first_free_block. destruct (geos (b_format b)) eqn:Hg.
  - rewrite (fmt_first t _ Hf). assert (bam_sector t (1, 0)) as Hp by (split; destruct t; cbn; lia).
    pose proof (next_any t b (1, 0) Hb Hp) as H.
    unfold bam_next_free_block, check_validity in H. rewrite (bf_valid _ _ Hb) in H. cbn [rbind fmt_next_free_block] in H.
    destruct (next_free_block_from_previous (b_format b) b (1, 0)) as [l| | |]; cbn in *; [|done..].
    destruct H as (H1 & H2 & H3). split; [done|]. split; [|done]. apply in_area_spec in H2 as [_ H2].
    apply H2. destruct t; cbn; lia.
  - rewrite (first_free_track_spec t b Hb).
    set (n := Nat.max _ _). destruct (first_avail b (rings t (seq 1 n))) as [tr|] eqn:E; [|by left].
    apply List.find_some in E as [Hin _]. apply rings_in in Hin as [Htr Hne]. cbn [rbind].
    rewrite (fmt_sectors t) by done.
    pose proof (first_free_sector_spec (spec_sectors t tr) (e_map (track_entry b tr)) 0) as Hs.
    destruct (first_free_sector 0 _ _) as [s|]; [|by left].
    destruct Hs as (H1 & H2 & H3). rewrite Nat.sub_0_r in *. split; [split; simpl; lia|]. by split.
Qed.

(** Marking a sector. *)
Lemma entry_any t b tr : bam_frame t b -> 1 <= tr <= spec_tracks t -> bam_entry_at b tr = Ok (track_entry b tr).
Proof. intros Hb. by apply (entry_at_ok t b Hb). Qed.
Lemma update_any t b l (f : bam_entry -> nat -> res bam_entry) :
  bam_frame t b -> (forall e, exists e', f e (snd l) = Ok e') -> 1 <= fst l <= spec_tracks t ->
  exists e' b', f (track_entry b (fst l)) (snd l) = Ok e'
    /\ bam_update b l f = Ok b' /\ bam_frame t b' /\ b_format b' = b_format b
    /\ track_entry b' (fst l) = e' /\ forall tr, 1 <= tr -> tr <> fst l -> track_entry b' tr = track_entry b tr.
Proof.
  intros Hb Hf Hl. destruct (Hf (track_entry b (fst l))) as [e' He]. unfold bam_update, check_validity. rewrite (bf_valid _ _ Hb). cbn [rbind].
  rewrite (entry_any t b (fst l) Hb Hl). cbn [rbind]. rewrite He. cbn [rbind]. do 2 eexists. split; [done|]. split; [done|].
  split; [split; cbn; [apply Hb|done|rewrite insert_length; apply Hb]|]. split; [done|].
  pose proof (bf_length _ _ Hb). split.
  - unfold track_entry. cbn [b_entries]. rewrite list_lookup_total_insert; [done|lia].
  - intros tr H1 Hne. unfold track_entry. cbn [b_entries]. rewrite list_lookup_total_insert_ne; [done|lia].
Qed.
Lemma allocate_any t b l : bam_frame t b -> 1 <= fst l <= spec_tracks t -> snd l < 64 ->
  exists b', bam_allocate b l = Ok b' /\ bam_frame t b' /\ b_format b' = b_format b.
Proof.
  intros Hb Hl Hs. destruct (update_any t b l entry_allocate Hb) as (e' & b' & _ & H1 & H2 & H3 & _); [|done|by exists b'].
  intros e. unfold entry_allocate. rewrite (proj2 (Nat.ltb_lt _ _) Hs). by eexists.
Qed.
Lemma free_any t b l : bam_frame t b -> 1 <= fst l <= spec_tracks t -> snd l < 64 ->
  exists b', bam_free b l = Ok b' /\ bam_frame t b' /\ b_format b' = b_format b
    /\ forall l', 1 <= fst l' <= spec_tracks t -> is_free b' l' <-> is_free b l' \/ l' = l.
Proof.
  intros Hb Hl Hs. destruct (update_any t b l entry_release Hb) as (e' & b' & He & H1 & H2 & H3 & H4 & H5); [|done|].
  { intros e. unfold entry_release. rewrite (proj2 (Nat.ltb_lt _ _) Hs). by eexists. }
  exists b'. do 3 (split; [done|]). intros [tr s] Hl'. cbn [fst] in Hl'. unfold is_free. cbn [fst snd]. destruct (decide (tr = fst l)) as [->|Hne].
  - rewrite H4. unfold entry_release in He. rewrite (proj2 (Nat.ltb_lt _ _) Hs) in He. apply Ok_inj in He. subst e'. cbn [e_map update_free_sectors].
    rewrite N.lor_spec, orb_true_iff. destruct l as [ltr ls]. cbn [fst snd] in *.
    rewrite N.shiftl_1_l, N.pow2_bits_eqb, N.eqb_eq. split; intros [H|H]; [by left|right; f_equal; lia|by left|right; congruence].
  - rewrite H5 by (try done; lia). split; [by left|]. intros [H|H]; [done|]. by subst.
Qed.

(** The area stated in words: on the directory track after a sector of the
    directory track, off it otherwise, and on the reserved track only after a
    sector of that track. *)
Lemma next_any_area t b p :
  bam_frame t b -> bam_sector t p ->
  search_answer t b (fun tr => (tr = dir_track t <-> fst p = dir_track t) /\ (reserved t tr -> tr = fst p)) (bam_next_free_block b (Some p)).
Proof.
  intros Hb Hp. pose proof (next_any t b p Hb Hp) as H. destruct (bam_next_free_block b (Some p)) as [l| | |]; try done.
  destruct H as (H1 & [H2 H3]%in_area_spec & H4). split; [done|]. split; [|done]. destruct (decide (fst p = dir_track t)) as [E|E].
  - rewrite (H2 E). split; [tauto|]. intros [-> ?]. done.
  - destruct (H3 E). tauto.
Qed.
