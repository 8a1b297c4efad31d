(** Facts about the layout tables, and the index of a sector in the image. *)
From Verif Require Import Base ListFacts Layout Block Spec.

(** Everything the proofs need to know about a geometry. *)
Record geom_ok (g : geometry) : Prop := {
  go_pos : 1 <= g_tracks g;
  go_zero : sector_offset (g_layouts g !!! 1) = 0;
  go_next : forall t, 1 <= t < g_tracks g ->
    sector_offset (g_layouts g !!! S t)
    = sector_offset (g_layouts g !!! t) + sectors (g_layouts g !!! t);
  go_byte : forall t, 1 <= t <= g_tracks g ->
    byte_offset (g_layouts g !!! t) = (256 * N.of_nat (sector_offset (g_layouts g !!! t)))%N;
  go_sectors : forall t, 1 <= t <= g_tracks g -> 0 < sectors (g_layouts g !!! t) <= 40;
  go_tracks : g_tracks g <= 80;
  go_count : sector_count g <= 3200;
  go_esize : error_table_size g = N.of_nat (sector_count g)
}.

Definition geom_okb (g : geometry) : bool :=
  (1 <=? g_tracks g)
  && (sector_offset (g_layouts g !!! 1) =? 0)
  && forallb (fun t => sector_offset (g_layouts g !!! S t)
                       =? sector_offset (g_layouts g !!! t) + sectors (g_layouts g !!! t))
       (seq 1 (g_tracks g - 1))
  && forallb (fun t => (byte_offset (g_layouts g !!! t)
                        =? 256 * N.of_nat (sector_offset (g_layouts g !!! t)))%N)
       (seq 1 (g_tracks g))
  && forallb (fun t => (0 <? sectors (g_layouts g !!! t)) && (sectors (g_layouts g !!! t) <=? 40))
       (seq 1 (g_tracks g))
  && (g_tracks g <=? 80)
  && (sector_count g <=? 3200)
  && (error_table_size g =? N.of_nat (sector_count g))%N.

Lemma geom_okb_sound g : geom_okb g = true -> geom_ok g.
Proof.
  unfold geom_okb. rewrite !andb_true_iff, !forallb_forall, !Nat.leb_le, !Nat.eqb_eq, N.eqb_eq.
  intros [[[[[[[H1 H2] H3] H4] H5] H6] H7] H8]. split; try done.
  - intros t Ht. specialize (H3 t). rewrite in_seq, Nat.eqb_eq in H3. apply H3. lia.
  - intros t Ht. specialize (H4 t). rewrite in_seq, N.eqb_eq in H4. apply H4. lia.
  - intros t Ht. specialize (H5 t). rewrite in_seq, andb_true_iff, Nat.ltb_lt, Nat.leb_le in H5.
    apply H5. lia.
Qed.

Lemma allowed_geom_ok t g : In g (allowed_geometries t) -> geom_ok g.
Proof.
  intros H. apply geom_okb_sound. revert g H. apply forallb_forall.
  destruct t; vm_compute; reflexivity.
Qed.

Lemma allowed_sectors t g tr :
  In g (allowed_geometries t) -> 1 <= tr <= g_tracks g ->
  sectors (g_layouts g !!! tr) = spec_sectors t tr.
Proof.
  intros Hg Htr.
  assert (forallb (fun g => forallb (fun tr => sectors (g_layouts g !!! tr) =? spec_sectors t tr)
                    (seq 1 (g_tracks g))) (allowed_geometries t) = true) as H
    by (destruct t; vm_compute; reflexivity).
  rewrite forallb_forall in H. specialize (H g Hg).
  rewrite forallb_forall in H. apply Nat.eqb_eq, H, in_seq. lia.
Qed.

Lemma allowed_images t :
  map (fun g => (g_tracks g, g_errors g, geometry_size g)) (allowed_geometries t) = spec_images t.
Proof. destruct t; vm_compute; reflexivity. Qed.

Lemma valid_loc_spec g l :
  valid_loc g l = true <-> 1 <= fst l <= g_tracks g /\ snd l < sectors (g_layouts g !!! fst l).
Proof. unfold valid_loc. rewrite !andb_true_iff, !Nat.leb_le, Nat.ltb_lt. tauto. Qed.

Lemma valid_loc_on_disk t g l :
  In g (allowed_geometries t) -> valid_loc g l = true <-> on_disk t (g_tracks g) l.
Proof.
  intros Hg. rewrite valid_loc_spec. unfold on_disk. split; intros [Ht Hs]; split; try done.
  - by rewrite <- (allowed_sectors t g).
  - by rewrite (allowed_sectors t g).
Qed.

Section geom.
  Variable g : geometry.
  Hypothesis Hg : geom_ok g.

  Lemma sector_offset_mono a b :
    1 <= a -> a <= b -> b <= g_tracks g ->
    (a = b \/ sector_offset (g_layouts g !!! a) + sectors (g_layouts g !!! a)
              <= sector_offset (g_layouts g !!! b)).
  Proof.
    intros Ha Hab Hb. induction Hab as [|b Hab IH]; [by left|]. right.
    rewrite (go_next g Hg b) by lia.
    destruct IH as [->|IH]; lia.
  Qed.

  Lemma loc_index_lt l : valid_loc g l = true -> loc_index g l < sector_count g.
  Proof.
    rewrite valid_loc_spec. intros [Ht Hs]. unfold loc_index, sector_count.
    destruct (sector_offset_mono (fst l) (g_tracks g)) as [E|?]; [..|rewrite E in *|]; lia.
  Qed.

  Lemma loc_index_lex a b :
    valid_loc g a = true -> valid_loc g b = true ->
    loc_lt a b -> loc_index g a < loc_index g b.
  Proof.
    rewrite !valid_loc_spec. intros [Hta Hsa] [Htb Hsb] [H|[H1 H2]]; unfold loc_index.
    - destruct (sector_offset_mono (fst a) (fst b)) as [?|?]; lia.
    - rewrite H1. lia.
  Qed.

  Lemma loc_index_inj a b :
    valid_loc g a = true -> valid_loc g b = true ->
    loc_index g a = loc_index g b -> a = b.
  Proof.
    intros Ha Hb Heq.
    destruct a as [t s], b as [t' s'].
    destruct (Nat.lt_trichotomy t t') as [H|[H|H]];
      [| |].
    - assert (loc_index g (t, s) < loc_index g (t', s')); [|lia].
      apply loc_index_lex; try done. by left.
    - subst. unfold loc_index in Heq. simpl in Heq. f_equal. lia.
    - assert (loc_index g (t', s') < loc_index g (t, s)); [|lia].
      apply loc_index_lex; try done. by left.
  Qed.

  Lemma loc_index_surj_aux n : 1 <= n -> n <= g_tracks g ->
    forall i, i < sector_offset (g_layouts g !!! n) + sectors (g_layouts g !!! n) ->
    exists l, valid_loc g l = true /\ loc_index g l = i.
  Proof.
    intros Hn. induction Hn as [|n Hn IH]; intros Hle i Hi.
    - rewrite (go_zero g Hg) in Hi. exists (1, i). rewrite valid_loc_spec. simpl.
      unfold loc_index. simpl. rewrite (go_zero g Hg). split; [split; lia|lia].
    - destruct (decide (i < sector_offset (g_layouts g !!! S n))) as [H|H].
      + apply IH; [lia|]. rewrite (go_next g Hg) in H by lia. lia.
      + exists (S n, i - sector_offset (g_layouts g !!! S n)).
        rewrite valid_loc_spec. unfold loc_index. cbn [fst snd]. split; [split; lia|lia].
  Qed.

  Lemma loc_index_surj i :
    i < sector_count g -> exists l, valid_loc g l = true /\ loc_index g l = i.
  Proof. pose proof (go_pos g Hg). apply loc_index_surj_aux; lia. Qed.

  Lemma size_without_errors : size_without_error_table g = (256 * N.of_nat (sector_count g))%N.
  Proof.
    unfold size_without_error_table. pose proof (go_pos g Hg).
    rewrite (go_byte g Hg) by lia. unfold sector_count. lia.
  Qed.
End geom.
