(** Facts about the sector device. *)
From Verif Require Import Base ListFacts Layout Block Spec GeomFacts FlatProofs.

(** The device after a sector has been overwritten. *)
Definition upd (d : dev) (l : location) (b : list nat) : dev :=
  mk_dev (d_writable d) (d_geom d) (<[loc_index (d_geom d) l := b]> (d_blocks d))
    (d_etable d) (d_log d ++ [(l, b)]).

Lemma sector_Ok_valid d l b : sector d l = Ok b -> valid_loc (d_geom d) l = true.
Proof. unfold sector. by destruct (valid_loc _ _). Qed.

Lemma sector_Ok_length t d l b : dev_shape t d -> sector d l = Ok b -> length b = 256.
Proof.
  intros Hd Hs. pose proof (sector_Ok_valid _ _ _ Hs) as Hv.
  destruct (sector_valid t d l Hd Hv) as (b' & _ & Hs' & Hl). rewrite Hs in Hs'.
  apply Ok_inj in Hs'. by subst.
Qed.

Lemma sector_Ok_iff t d l : dev_shape t d -> (exists b, sector d l = Ok b) <-> valid_loc (d_geom d) l = true.
Proof.
  intros Hd. split.
  - intros [b Hb]. by eapply sector_Ok_valid.
  - intros Hv. destruct (sector_valid t d l Hd Hv) as (b & _ & Hs & _). eauto.
Qed.

Lemma sector_invalid d l : valid_loc (d_geom d) l = false -> sector d l = Err EInvalidLocation.
Proof. unfold sector. by intros ->. Qed.

Lemma sector_cases t d l :
  dev_shape t d ->
  (exists b, sector d l = Ok b /\ length b = 256 /\ valid_loc (d_geom d) l = true)
  \/ (sector d l = Err EInvalidLocation /\ valid_loc (d_geom d) l = false).
Proof.
  intros Hd. destruct (valid_loc (d_geom d) l) eqn:Hv.
  - left. destruct (sector_valid t d l Hd Hv) as (b & _ & Hs & Hl). eauto.
  - right. split; [by apply sector_invalid|done].
Qed.

Lemma sector_mut_upd d l f b :
  d_writable d = true -> sector d l = Ok b -> sector_mut l f d = (upd d l (f b), Ok tt).
Proof. intros Hw Hs. unfold sector_mut, upd. by rewrite Hw, Hs. Qed.

Lemma sector_mut_ro d l f : d_writable d = false -> sector_mut l f d = (d, Err EReadOnly).
Proof. intros Hw. unfold sector_mut. by rewrite Hw. Qed.

Lemma sector_mut_invalid t d l f :
  dev_shape t d -> d_writable d = true -> valid_loc (d_geom d) l = false ->
  sector_mut l f d = (d, Err EInvalidLocation).
Proof. intros Hd Hw Hv. unfold sector_mut. by rewrite Hw, (sector_invalid _ _ Hv). Qed.

Lemma upd_geom d l b : d_geom (upd d l b) = d_geom d. Proof. done. Qed.
Lemma upd_writable d l b : d_writable (upd d l b) = d_writable d. Proof. done. Qed.

Lemma upd_shape t d l b : dev_shape t d -> length b = 256 -> dev_shape t (upd d l b).
Proof.
  intros [Hg Hc Hb He] Hl. split; simpl; try done.
  - by rewrite insert_length.
  - by apply Forall_insert.
Qed.

Lemma sector_upd_same t d l b :
  dev_shape t d -> valid_loc (d_geom d) l = true -> sector (upd d l b) l = Ok b.
Proof.
  intros [Hg Hc _ _] Hv. unfold sector. simpl. rewrite Hv.
  pose proof (allowed_geom_ok _ _ Hg) as Hok. pose proof (loc_index_lt _ Hok l Hv).
  by rewrite list_lookup_insert by lia.
Qed.

Lemma sector_upd_other t d l l' b :
  dev_shape t d -> l <> l' -> valid_loc (d_geom d) l = true ->
  sector (upd d l b) l' = sector d l'.
Proof.
  intros [Hg _ _ _] Hne Hv. unfold sector. simpl. destruct (valid_loc (d_geom d) l') eqn:Hv'; [|done].
  rewrite list_lookup_insert_ne; [done|]. intros E.
  apply loc_index_inj in E; try done. by eapply allowed_geom_ok.
Qed.

Lemma sector_upd t d l l' b :
  dev_shape t d -> valid_loc (d_geom d) l = true ->
  sector (upd d l b) l' = if decide (l = l') then Ok b else sector d l'.
Proof.
  intros Hd Hv. case_decide as E; [subst; by eapply sector_upd_same|].
  by eapply sector_upd_other.
Qed.

(** Two devices with the same contents: all the code reads of a device, apart
    from the ghost log. *)
Definition same_dev (d d' : dev) : Prop :=
  d_writable d = d_writable d' /\ d_geom d = d_geom d'
  /\ d_blocks d = d_blocks d' /\ d_etable d = d_etable d'.

Lemma dev_ext t d d' :
  dev_shape t d -> dev_shape t d' -> d_writable d = d_writable d' -> d_geom d = d_geom d' ->
  d_etable d = d_etable d' -> (forall l, sector d l = sector d' l) -> same_dev d d'.
Proof.
  intros [Hg Hc Hb He] [Hg' Hc' Hb' He'] Hw Hge Het Hs.
  split; [done|]. split; [done|]. split; [|done].
  apply list_eq. intros i. destruct (decide (i < sector_count (d_geom d))) as [Hi|Hi].
  - pose proof (allowed_geom_ok _ _ Hg) as Hok.
    destruct (loc_index_surj _ Hok i Hi) as (l & Hv & Hl).
    specialize (Hs l). unfold sector in Hs. rewrite <- Hge, Hv, Hl in Hs.
    destruct (lookup_lt_is_Some_2 (d_blocks d) i) as [b E]; [lia|].
    destruct (lookup_lt_is_Some_2 (d_blocks d') i) as [b' E'];
      [change (location*list nat)%type with (location * list nat)%type in *; rewrite Hge in *; lia|].
    rewrite E, E' in Hs. apply Ok_inj in Hs. congruence.
  - rewrite !lookup_ge_None_2; [done|rewrite Hge in *; lia|lia].
Qed.
