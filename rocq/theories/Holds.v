(** Chains of sectors holding given data, and how sector writes change them. *)
From Verif Require Import Base ListFacts Layout Block Chain Spec SpecChain GeomFacts FlatProofs DevFacts ChainProofs.
Ltac Zify.zify_post_hook ::= Z.div_mod_to_equations.

(** Block [b] is the [i]-th of the chain [ls] with contents [data]. *)
Definition block_is (ls : list location) (data : list nat) (i : nat) (b : list nat) : Prop :=
  match ls !! S i with
  | Some l => b !!! 0 = fst l /\ b !!! 1 = snd l /\ drop 2 b = slice (254 * i) 254 data
  | None => b !!! 0 = 0 /\ b !!! 1 = S (length data - 254 * i)
            /\ slice 2 (length data - 254 * i) b = drop (254 * i) data
            /\ 254 * i <= length data <= 254 * i + 254
  end.

(** The sectors [ls] hold [data]. *)
Definition holds (d : dev) (ls : list location) (data : list nat) : Prop :=
  ls <> [] /\ forall i l, ls !! i = Some l -> exists b, sector d l = Ok b /\ block_is ls data i b.

(** Each sector links to the next one; the last has link bytes [e]. *)
Definition links (d : dev) (ls : list location) (e : location) : Prop :=
  forall i l, ls !! i = Some l ->
    exists b, sector d l = Ok b /\ b !!! 0 = fst (default e (ls !! S i))
              /\ b !!! 1 = snd (default e (ls !! S i)).

(** ** Frames *)

Lemma holds_ext d d' ls data :
  holds d ls data -> (forall l, l ∈ ls -> sector d' l = sector d l) -> holds d' ls data.
Proof.
  intros [Hne H] Hs. split; [done|]. intros i l Hl. destruct (H i l Hl) as (b & Hb & Hi).
  exists b. split; [|done]. rewrite Hs; [done|]. by eapply elem_of_list_lookup_2.
Qed.

Lemma links_ext d d' ls e :
  links d ls e -> (forall l, l ∈ ls -> sector d' l = sector d l) -> links d' ls e.
Proof.
  intros H Hs i l Hl. destruct (H i l Hl) as (b & Hb & Hi).
  exists b. split; [|done]. rewrite Hs; [done|]. by eapply elem_of_list_lookup_2.
Qed.

(** ** Length of the contents *)

Lemma last_index {A} (ls : list A) : ls <> [] -> exists l, ls !! (length ls - 1) = Some l /\ last ls = Some l.
Proof.
  intros Hne. destruct (last ls) as [l|] eqn:E; [|by apply last_None in E].
  exists l. split; [|done]. rewrite last_lookup in E. by rewrite <- E, Nat.sub_1_r.
Qed.

Lemma lookup_past {A} (ls : list A) : 1 <= length ls -> ls !! S (length ls - 1) = None.
Proof. intros H. apply lookup_ge_None_2. lia. Qed.

Lemma holds_length d ls data :
  holds d ls data -> 254 * (length ls - 1) <= length data <= 254 * length ls /\ 1 <= length ls.
Proof.
  intros [Hne H]. destruct (last_index ls Hne) as (l & Hl & _).
  destruct (H _ _ Hl) as (b & _ & Hb). unfold block_is in Hb.
  assert (1 <= length ls) by (destruct ls; [done|simpl; lia]).
  rewrite lookup_past in Hb by done. lia.
Qed.

Lemma holds_tail t d ls data :
  dev_shape t d -> holds d ls data ->
  exists l b, last ls = Some l /\ ls !! (length ls - 1) = Some l /\ sector d l = Ok b /\ length b = 256
    /\ b !!! 0 = 0 /\ b !!! 1 = S (length data - 254 * (length ls - 1))
    /\ slice 2 (length data - 254 * (length ls - 1)) b = drop (254 * (length ls - 1)) data.
Proof.
  intros Hd Hh. pose proof (holds_length _ _ _ Hh) as [_ Hl1]. destruct Hh as [Hne H].
  destruct (last_index ls Hne) as (l & Hl & Hla). destruct (H _ _ Hl) as (b & Hs & Hb).
  unfold block_is in Hb. rewrite lookup_past in Hb by done. destruct Hb as (H0 & H1 & H2 & _).
  exists l, b. split; [done|]. split; [done|]. split; [done|]. split; [by eapply sector_Ok_length|]. done.
Qed.

(** ** Relation to sound chains *)

Lemma holds_links d ls data :
  holds d ls data -> links d ls (0, S (length data - 254 * (length ls - 1))).
Proof.
  intros Hh i l Hl. destruct Hh as [Hne H]. destruct (H i l Hl) as (b & Hs & Hb). exists b. split; [done|].
  unfold block_is in Hb. destruct (ls !! S i) as [l'|] eqn:E; simpl; [tauto|].
  assert (i = length ls - 1) as ->; [|tauto].
  apply lookup_lt_Some in Hl. apply lookup_ge_None in E. lia.
Qed.

Lemma links_sound d ls e start :
  NoDup ls -> Forall (fun l => fst l <> 0) ls -> links d ls (0, e) -> e <> 0 -> head ls = Some start ->
  sound_chain d start ls.
Proof.
  intros Hnd Ht H He Hs. split; [done|]. split; [done|]. split.
  - intros i l l' Hl Hl'. destruct (H i l Hl) as (b & Hb & H0 & H1). rewrite Hl' in H0, H1. simpl in *.
    exists b. split; [done|]. split; [done|]. split; [done|].
    rewrite Forall_forall in Ht. apply Ht. by eapply elem_of_list_lookup_2.
  - destruct (last_index ls) as (l & Hl & Hla); [by intros ->|].
    exists l, e. split; [done|]. destruct (H _ _ Hl) as (b & Hb & H0 & H1).
    rewrite lookup_past in H0, H1 by (apply lookup_lt_Some in Hl; lia). simpl in *.
    exists b. done.
Qed.

Lemma holds_sound d ls data start :
  NoDup ls -> Forall (fun l => fst l <> 0) ls -> holds d ls data -> head ls = Some start ->
  sound_chain d start ls.
Proof. intros. eapply links_sound; [done|done|by apply holds_links|done|done]. Qed.

Lemma concat_slices {A} (data : list A) n :
  concat (map (fun i => slice (254 * i) 254 data) (seq 0 n)) = take (254 * n) data.
Proof.
  induction n as [|n IH]; [by rewrite Nat.mul_0_r|].
  rewrite seq_S, map_app, concat_app, IH. cbn [map concat plus]. rewrite app_nil_r.
  replace (254 * S n) with (254 * n + 254) by lia. unfold slice. by rewrite take_take_drop.
Qed.

Lemma map_lookup_seq {A B} (f : A -> B) (g : nat -> B) (ls : list A) :
  (forall i l, ls !! i = Some l -> f l = g i) -> map f ls = map g (seq 0 (length ls)).
Proof.
  intros H. apply list_eq. intros i. rewrite !list_lookup_fmap.
  destruct (ls !! i) as [l|] eqn:E; simpl.
  - rewrite lookup_seq_lt by (by eapply lookup_lt_Some). simpl. f_equal. by apply H.
  - apply lookup_ge_None in E. rewrite lookup_seq_ge by lia. done.
Qed.

Lemma holds_data t d ls data :
  dev_shape t d -> Forall (fun l => fst l <> 0) ls -> holds d ls data -> data_of d ls = data.
Proof.
  intros Hd Ht Hh. pose proof (holds_length _ _ _ Hh) as [Hlen Hl1]. destruct Hh as [Hne H].
  unfold data_of. rewrite (map_lookup_seq _ (fun i => slice (254 * i) 254 data)).
  { rewrite concat_slices. apply take_ge. lia. }
  intros i l Hl. destruct (H i l Hl) as (b & Hs & Hb). rewrite Hs.
  pose proof (sector_Ok_length _ _ _ _ Hd Hs) as Hlb. unfold sector_data, used_part, block_is in *.
  destruct (ls !! S i) as [l'|] eqn:E.
  - destruct Hb as (H0 & H1 & H2). rewrite Forall_forall in Ht.
    specialize (Ht l' ltac:(by eapply elem_of_list_lookup_2)).
    destruct (Nat.eqb_spec (b !!! 0) 0); [lia|done].
  - destruct Hb as (H0 & H1 & H2 & H3). rewrite H0. simpl. rewrite H1.
    unfold slice in *. rewrite (take_ge (drop (254 * i) data)) by (rewrite drop_length; lia).
    rewrite <- H2, skipn_firstn_comm. f_equal. lia.
Qed.

Lemma holds_read t d ls data start :
  dev_shape t d -> NoDup ls -> Forall (fun l => fst l <> 0) ls -> holds d ls data -> head ls = Some start ->
  read_all d start = Ok data.
Proof.
  intros Hd Hnd Ht Hh Hs. rewrite (read_all_sound t d start ls Hd); [|by eapply holds_sound].
  f_equal. by eapply holds_data.
Qed.

(** ** Writes *)

(** Rewriting the last block. *)
Lemma holds_tail_write t d ls data data' l b :
  dev_shape t d -> NoDup ls -> holds d ls data -> last ls = Some l ->
  take (254 * (length ls - 1)) data' = take (254 * (length ls - 1)) data ->
  b !!! 0 = 0 -> b !!! 1 = S (length data' - 254 * (length ls - 1)) ->
  slice 2 (length data' - 254 * (length ls - 1)) b = drop (254 * (length ls - 1)) data' ->
  254 * (length ls - 1) <= length data' <= 254 * length ls ->
  holds (upd d l b) ls data'.
Proof.
  intros Hd Hnd Hh Hla Htk H0 H1 H2 Hlen. pose proof (holds_length _ _ _ Hh) as [_ Hl1].
  destruct Hh as [Hne H]. split; [done|].
  destruct (last_index ls Hne) as (l' & Hl' & Hla'). rewrite Hla in Hla'. injection Hla' as <-.
  destruct (H _ _ Hl') as (b0 & Hs0 & _). pose proof (sector_Ok_valid _ _ _ Hs0) as Hv.
  intros i k Hk. destruct (decide (i = length ls - 1)) as [->|Hi].
  - rewrite Hl' in Hk. injection Hk as <-. exists b. split; [by eapply sector_upd_same|].
    unfold block_is. rewrite lookup_past by done. repeat split; try done; lia.
  - pose proof (lookup_lt_Some _ _ _ Hk).
    assert (l <> k) as Hlk.
    { intros <-. apply Hi. by eapply NoDup_lookup. }
    destruct (H i k Hk) as (b1 & Hs1 & Hb1). exists b1. split; [by rewrite (sector_upd_other t)|].
    unfold block_is in *. destruct (lookup_lt_is_Some_2 ls (S i)) as [k' Hk']; [lia|]. rewrite Hk' in *.
    destruct Hb1 as (? & ? & Hb1). split; [done|]. split; [done|]. rewrite Hb1. unfold slice.
    assert (forall x : list nat, take 254 (drop (254 * i) x)
      = take 254 (drop (254 * i) (take (254 * (length ls - 1)) x))) as Hx.
    { intros x. rewrite skipn_firstn_comm, take_take. f_equal. lia. }
    by rewrite (Hx data), (Hx data'), Htk.
Qed.

(** Extending the chain, whose last block is full, by the sector [n]. *)
Lemma holds_extend t d ls data l n b bn data' :
  dev_shape t d -> NoDup (ls ++ [n]) -> holds d ls data -> last ls = Some l ->
  length data = 254 * length ls ->
  sector d l = Ok b ->
  sector d n = Ok bn -> bn !!! 0 = 0 -> bn !!! 1 = S (length data') ->
  slice 2 (length data') bn = data' -> length data' <= 254 ->
  holds (upd d l (write_loc n b)) (ls ++ [n]) (data ++ data').
Proof.
  intros Hd Hnd Hh Hla Hfull Hsl Hsn H0 H1 H2 Hlen. pose proof (holds_length _ _ _ Hh) as [_ Hl1].
  destruct Hh as [Hne H]. split; [by destruct ls|].
  destruct (last_index ls Hne) as (l' & Hl' & Hla'). rewrite Hla in Hla'. injection Hla' as <-.
  pose proof (sector_Ok_valid _ _ _ Hsl) as Hv. pose proof (sector_Ok_length _ _ _ _ Hd Hsl) as Hlb.
  assert ((ls ++ [n]) !! (length ls - 1) = Some l) as Hl2 by (rewrite lookup_app_l by lia; done).
  intros i k Hk. destruct (decide (i = length ls - 1)) as [->|Hi].
  - rewrite Hl2 in Hk. injection Hk as <-. exists (write_loc n b). split; [by eapply sector_upd_same|].
    unfold block_is. replace (S (length ls - 1)) with (length ls) by lia.
    rewrite lookup_app_r, Nat.sub_diag by lia. cbn [lookup list_lookup].
    destruct (H _ _ Hl') as (b0 & Hs0 & Hb0). rewrite Hsl in Hs0. apply Ok_inj in Hs0 as <-.
    unfold block_is in Hb0. rewrite lookup_past in Hb0 by done. destruct Hb0 as (_ & _ & Hb0 & _).
    unfold write_loc. split; [by rewrite lookup_total_splice by (simpl; lia)|].
    split; [by rewrite lookup_total_splice by (simpl; lia)|].
    rewrite (drop_splice_after 0) by (simpl; lia).
    unfold slice in *. rewrite take_ge in Hb0 by (rewrite drop_length; lia).
    rewrite Hb0, drop_app_le by lia. rewrite take_app_alt; [done|]. rewrite drop_length. lia.
  - pose proof (lookup_lt_Some _ _ _ Hk) as Hki. rewrite app_length in Hki. simpl in Hki.
    assert (l <> k) as Hlk.
    { intros <-. apply Hi. by eapply NoDup_lookup. }
    destruct (decide (i = length ls)) as [->|Hi2].
    + rewrite lookup_app_r, Nat.sub_diag in Hk by lia. injection Hk as <-.
      exists bn. split; [by rewrite (sector_upd_other t)|]. unfold block_is.
      rewrite lookup_ge_None_2 by (rewrite app_length; simpl; lia). rewrite app_length.
      replace (length data + length data' - 254 * length ls) with (length data') by lia.
      rewrite drop_app_alt by done. repeat split; try done; lia.
    + rewrite lookup_app_l in Hk by lia. destruct (H i k Hk) as (b1 & Hs1 & Hb1).
      exists b1. split; [by rewrite (sector_upd_other t)|].
      unfold block_is in *. rewrite lookup_app_l by lia.
      destruct (lookup_lt_is_Some_2 ls (S i)) as [k' Hk']; [lia|]. rewrite Hk' in *.
      destruct Hb1 as (? & ? & Hb1). split; [done|]. split; [done|]. rewrite Hb1. unfold slice.
      rewrite drop_app_le by lia. rewrite take_app_le; [done|]. rewrite drop_length. lia.
Qed.

(** Changing a sector of a list without changing its link bytes. *)
Lemma links_write t d ls e l b b0 :
  dev_shape t d -> links d ls e -> sector d l = Ok b0 ->
  b !!! 0 = b0 !!! 0 -> b !!! 1 = b0 !!! 1 ->
  links (upd d l b) ls e.
Proof.
  intros Hd H Hs H0 H1 i k Hk. destruct (H i k Hk) as (b1 & Hs1 & Hb1).
  pose proof (sector_Ok_valid _ _ _ Hs) as Hv. rewrite (sector_upd t) by done. case_decide as E.
  - subst k. rewrite Hs in Hs1. apply Ok_inj in Hs1 as <-. exists b. rewrite H0, H1. done.
  - eauto.
Qed.

(** Extending a list of linked sectors. *)
Lemma links_extend t d ls e l n b bn :
  dev_shape t d -> NoDup (ls ++ [n]) -> links d ls e -> last ls = Some l ->
  sector d l = Ok b -> sector d n = Ok bn -> bn !!! 0 = fst e -> bn !!! 1 = snd e ->
  links (upd d l (write_loc n b)) (ls ++ [n]) e.
Proof.
  intros Hd Hnd H Hla Hsl Hsn H0 H1.
  assert (ls <> []) as Hne by (by intros ->).
  assert (1 <= length ls) by (destruct ls; [done|simpl; lia]).
  destruct (last_index ls Hne) as (l' & Hl' & Hla'). rewrite Hla in Hla'. injection Hla' as <-.
  pose proof (sector_Ok_valid _ _ _ Hsl) as Hv. pose proof (sector_Ok_length _ _ _ _ Hd Hsl) as Hlb.
  assert ((ls ++ [n]) !! (length ls - 1) = Some l) as Hl2 by (rewrite lookup_app_l by lia; done).
  intros i k Hk. destruct (decide (i = length ls - 1)) as [->|Hi].
  - rewrite Hl2 in Hk. injection Hk as <-. exists (write_loc n b). split; [by eapply sector_upd_same|].
    replace (S (length ls - 1)) with (length ls) by lia.
    rewrite lookup_app_r, Nat.sub_diag by lia. cbn [lookup list_lookup default].
    unfold write_loc. split; by rewrite lookup_total_splice by (simpl; lia).
  - pose proof (lookup_lt_Some _ _ _ Hk) as Hki. rewrite app_length in Hki. simpl in Hki.
    assert (l <> k) as Hlk.
    { intros <-. apply Hi. by eapply NoDup_lookup. }
    destruct (decide (i = length ls)) as [->|Hi2].
    + rewrite lookup_app_r, Nat.sub_diag in Hk by lia. injection Hk as <-.
      exists bn. split; [by rewrite (sector_upd_other t)|].
      rewrite lookup_ge_None_2 by (rewrite app_length; simpl; lia). done.
    + rewrite lookup_app_l in Hk by lia. destruct (H i k Hk) as (b1 & Hs1 & Hb1).
      exists b1. split; [by rewrite (sector_upd_other t)|]. by rewrite lookup_app_l by lia.
Qed.
