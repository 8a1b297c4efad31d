(** Counting the blocks of a sound image. *)
From Verif Require Import Base ListFacts Layout Block Bam Format Spec SpecBam GeomFacts FlatProofs DevFacts
  BamProofs AllocProofs BamState ChainProofs Evolve Holds View Dirs Ops.
Ltac Zify.zify_post_hook ::= Z.div_mod_to_equations.

(** Blocks for file data, and sectors for the directory, of an empty disk. *)
Definition data_capacity (t : disk_type) : nat := match t with D64 => 664 | D71 => 1328 | D81 => 3160 end.
Definition dir_capacity (t : disk_type) : nat := match t with D81 => 37 | _ => 18 end.

Lemma count_outside {A} `{EqDecision A} (L U : list A) :
  NoDup L -> NoDup U -> (forall x, x ∈ U -> x ∈ L) ->
  length (List.filter (fun x => negb (bool_decide (x ∈ U))) L) + length U = length L.
Proof.
  intros HL HU Hsub. rewrite <- app_length. apply Permutation_length. apply NoDup_Permutation; [|done|].
  - apply NoDup_app. split; [by apply NoDup_ListNoDup, List.NoDup_filter, NoDup_ListNoDup|]. split; [|done].
    intros x Hx Hxu. apply elem_of_list_In, filter_In in Hx as [_ Hx].
    rewrite negb_true_iff, bool_decide_eq_false in Hx. done.
  - intros x. rewrite elem_of_app, elem_of_list_In, filter_In, negb_true_iff, bool_decide_eq_false, <- elem_of_list_In.
    split; [intros [[? _]|?]; auto|]. intros Hx. destruct (decide (x ∈ U)); [by right|by left].
Qed.

(** All sectors of data and directory blocks. *)
Definition reservedb (t : disk_type) (track : nat) : bool :=
  match t with D71 => track =? 53 | _ => false end.
Lemma reservedb_spec t track : reservedb t track = true <-> reserved t track.
Proof.
  unfold reservedb, reserved. destruct t; rewrite ?Nat.eqb_eq; split; try done; try (by intros [? _]); tauto.
Qed.

Definition data_area (t : disk_type) : list location :=
  List.filter (fun l : location => negb (fst l =? dir_track t) && negb (reservedb t (fst l))) (all_sectors t (spec_tracks t)).
Definition dir_area (t : disk_type) : list location :=
  List.filter (fun l : location => (fst l =? dir_track t) && (sys_sectors t <=? snd l)) (all_sectors t (spec_tracks t)).

Lemma in_sectors t l : l ∈ all_sectors t (spec_tracks t) <-> bam_sector t l.
Proof. rewrite elem_of_list_In. apply in_all_sectors. Qed.

Lemma sectors_nodup t n : NoDup (all_sectors t n).
Proof.
  unfold all_sectors. induction (seq_NoDup n 1) as [|x xs Hx Hnd IH]; [constructor|].
  cbn [map concat]. apply NoDup_app. split; [|split].
  - apply NoDup_ListNoDup, FinFun.Injective_map_NoDup; [by intros ? ? [=]|apply seq_NoDup].
  - intros l Hl Hl'. apply elem_of_list_In in Hl, Hl'. apply in_map_iff in Hl as (s & <- & _).
    apply in_concat in Hl' as (y & Hy & Hin). apply in_map_iff in Hy as (x' & <- & Hx').
    apply in_map_iff in Hin as (s' & [= -> _] & _). done.
  - done.
Qed.

Lemma in_data_area t l : l ∈ data_area t <-> data_loc t l.
Proof.
  unfold data_area, data_loc, sys. rewrite elem_of_list_In, filter_In, <- elem_of_list_In, in_sectors.
  rewrite andb_true_iff, !negb_true_iff, Nat.eqb_neq, <- not_true_iff_false, reservedb_spec. tauto.
Qed.
Lemma dir_not_reserved t (l : location) : fst l = dir_track t -> ~ reserved t (fst l).
Proof. unfold reserved. intros H [-> H']. rewrite H in H'. done. Qed.
Lemma in_dir_area t l : l ∈ dir_area t <-> dir_loc t l.
Proof.
  unfold dir_area, dir_loc, sys. rewrite elem_of_list_In, filter_In, <- elem_of_list_In, in_sectors.
  rewrite andb_true_iff, Nat.eqb_eq, Nat.leb_le.
  split.
  - intros (H1 & H2 & H3). split; [done|]. split; [done|]. intros [[_ H]|H]; [lia|by eapply dir_not_reserved].
  - intros (H1 & H2 & H3). split; [done|]. split; [done|].
    destruct (decide (sys_sectors t <= snd l)); [done|]. exfalso. apply H3. left. split; [done|lia].
Qed.

Lemma data_area_length t : length (data_area t) = data_capacity t.
Proof. destruct t; vm_compute; reflexivity. Qed.
Lemma dir_area_length t : length (dir_area t) = dir_capacity t.
Proof. destruct t; vm_compute; reflexivity. Qed.
Lemma area_nodup {A} (p : A -> bool) l : NoDup l -> NoDup (List.filter p l).
Proof. intros H. by apply NoDup_ListNoDup, List.NoDup_filter, NoDup_ListNoDup. Qed.

(** The border sector, if it lies on the directory track, or not. *)
Definition border_on (t : disk_type) (m : mdisk) : list location := List.filter (fun l : location => fst l =? dir_track t) (border m).
Definition border_off (t : disk_type) (m : mdisk) : list location := List.filter (fun l : location => negb (fst l =? dir_track t)) (border m).
Lemma in_border_on t m l : l ∈ border_on t m <-> l ∈ border m /\ fst l = dir_track t.
Proof. unfold border_on. by rewrite elem_of_list_In, filter_In, <- elem_of_list_In, Nat.eqb_eq. Qed.
Lemma in_border_off t m l : l ∈ border_off t m <-> l ∈ border m /\ fst l <> dir_track t.
Proof. unfold border_off. by rewrite elem_of_list_In, filter_In, <- elem_of_list_In, negb_true_iff, Nat.eqb_neq. Qed.

Section count.
  Context (t : disk_type) (d : dev) (m : mdisk) (V : view t d m).

  Lemma files_nodup : NoDup (files_used (md_slots m)).
  Proof. pose proof (v_nodup _ _ _ V) as H. by apply NoDup_app in H as (_ & _ & H). Qed.
  Lemma files_data l : l ∈ files_used (md_slots m) -> data_loc t l.
  Proof.
    rewrite files_used_in. intros (i & f & Hi & Hl). destruct (v_files _ _ _ V i f Hi) as (_ & Hc & _).
    rewrite Forall_forall in Hc. by apply Hc.
  Qed.
  Lemma dirs_dir l : l ∈ md_dir m -> dir_loc t l.
  Proof. pose proof (v_dirs _ _ _ V) as Hd. rewrite Forall_forall in Hd. apply Hd. Qed.
  Lemma border_plain l : l ∈ border m -> plain t l.
  Proof. pose proof (v_border _ _ _ V) as Hd. rewrite Forall_forall in Hd. apply Hd. Qed.

  (** The used sectors of the data tracks, and those of the directory track. *)
  Definition used_data : list location := border_off t m ++ files_used (md_slots m).
  Definition used_dir : list location := border_on t m ++ md_dir m.

  Lemma used_in_data l : data_loc t l -> l ∈ used m <-> l ∈ used_data.
  Proof.
    intros (H1 & H2 & H3). unfold used, used_data, md_secs. rewrite !elem_of_app, in_border_off.
    assert (l ∉ md_dir m) by (intros Hd; apply dirs_dir in Hd as (_ & Hd & _); done). tauto.
  Qed.
  Lemma used_in_dir l : dir_loc t l -> l ∈ used m <-> l ∈ used_dir.
  Proof.
    intros (H1 & H2 & H3). unfold used, used_dir, md_secs. rewrite !elem_of_app, in_border_on.
    assert (l ∉ files_used (md_slots m)) by (intros Hd; apply files_data in Hd as (_ & Hd & _); done). tauto.
  Qed.
  Lemma used_data_loc l : l ∈ used_data -> data_loc t l.
  Proof.
    unfold used_data. rewrite elem_of_app, in_border_off. intros [[H1 H2]|H]; [|by apply files_data].
    destruct (border_plain l H1). done.
  Qed.
  Lemma used_dir_loc l : l ∈ used_dir -> dir_loc t l.
  Proof.
    unfold used_dir. rewrite elem_of_app, in_border_on. intros [[H1 H2]|H]; [|by apply dirs_dir].
    destruct (border_plain l H1). done.
  Qed.
  Lemma used_data_nodup : NoDup used_data.
  Proof.
    pose proof (v_nodup _ _ _ V) as H. unfold used, md_secs in H. rewrite <- app_assoc in H.
    apply NoDup_app in H as (H1 & H2 & H3). apply NoDup_app in H3 as (_ & _ & H3).
    apply NoDup_app. split; [by apply area_nodup|]. split; [|done].
    intros l Hl Hl'. apply in_border_off in Hl as [Hl _]. apply (H2 l Hl). rewrite elem_of_app. by right.
  Qed.
  Lemma used_dir_nodup : NoDup used_dir.
  Proof.
    pose proof (view_secs_nodup _ _ _ V) as H. apply NoDup_app in H as (H1 & H2 & H3).
    apply NoDup_app. split; [by apply area_nodup|]. split; [|done].
    intros l Hl. apply in_border_on in Hl as [Hl _]. by apply H2.
  Qed.

  Lemma count_files :
    length (List.filter (fun l => negb (bool_decide (l ∈ used_data))) (data_area t)) + length used_data = data_capacity t.
  Proof.
    rewrite count_outside; [apply data_area_length|apply area_nodup, sectors_nodup|apply used_data_nodup|].
    intros l Hl. by apply in_data_area, used_data_loc.
  Qed.

  Lemma count_dirs :
    length (List.filter (fun l => negb (bool_decide (l ∈ used_dir))) (dir_area t)) + length used_dir = dir_capacity t.
  Proof.
    rewrite count_outside; [apply dir_area_length|apply area_nodup, sectors_nodup|apply used_dir_nodup|].
    intros l Hl. by apply in_dir_area, used_dir_loc.
  Qed.

  Lemma files_fit : length (border_off t m) + length (files_used (md_slots m)) <= data_capacity t.
  Proof. pose proof count_files as H. assert (length used_data = length (border_off t m) + length (files_used (md_slots m))) by apply app_length. lia. Qed.

  Lemma dirs_fit : length (border_on t m) + length (md_dir m) <= dir_capacity t.
  Proof. pose proof count_dirs as H. assert (length used_dir = length (border_on t m) + length (md_dir m)) by apply app_length. lia. Qed.

  Lemma free_count b :
    bam_ok t b m [] ->
    blocks_free_count b = Ok (data_capacity t - (length (border_off t m) + length (files_used (md_slots m)))).
  Proof.
    intros [Hc Hf Hr]. rewrite (blocks_free_spec t b Hc). f_equal.
    rewrite <- app_length. fold used_data. rewrite <- count_files.
    rewrite (List.filter_ext_in (freeb b)
      (fun l => negb (reservedb t (fst l)) && negb (bool_decide (l ∈ used_data)))).
    - unfold data_sectors, data_area. rewrite !filter_filter.
      erewrite List.filter_ext; [rewrite Nat.add_sub; reflexivity|].
      intros l. cbn beta. by rewrite andb_assoc.
    - intros l Hl. unfold data_sectors in Hl. rewrite filter_In, negb_true_iff, Nat.eqb_neq, <- elem_of_list_In, in_sectors in Hl.
      destruct Hl as [Hl Hd]. apply eq_true_iff_eq. rewrite (Hr l Hl).
      rewrite andb_true_iff, !negb_true_iff, bool_decide_eq_false, <- not_true_iff_false, reservedb_spec.
      assert (sys t l <-> reserved t (fst l)) as Hsys by (unfold sys; tauto). rewrite Hsys.
      assert (~ reserved t (fst l) -> l ∈ used m <-> l ∈ used_data) as Hu.
      { intros Hx. apply used_in_data. split; [done|]. split; [done|]. by rewrite Hsys. }
      assert (l ∉ @nil location) by apply not_elem_of_nil. tauto.
  Qed.

  Lemma all_used {A} `{EqDecision A} (L U : list A) n :
    length (List.filter (fun l => negb (bool_decide (l ∈ U))) L) + length U = n ->
    (forall l, l ∈ L -> l ∈ U) <-> length U = n.
  Proof.
    intros Hcf. split.
    - intros H. rewrite filter_false in Hcf; [simpl in Hcf; lia|].
      intros l Hl. apply elem_of_list_In in Hl. by rewrite bool_decide_eq_true_2 by (by apply H).
    - intros H l Hl. destruct (decide (l ∈ U)) as [|Hn]; [done|]. exfalso.
      assert (In l (List.filter (fun l => negb (bool_decide (l ∈ U))) L)) as Hin.
      { apply filter_In. split; [by apply elem_of_list_In|]. by rewrite bool_decide_eq_false_2. }
      destruct (List.filter _ L); [done|]. simpl in Hcf. lia.
  Qed.

  Lemma full_iff :
    (forall l : location, data_loc t l -> l ∈ used m \/ l ∈ @nil location)
    <-> length (border_off t m) + length (files_used (md_slots m)) = data_capacity t.
  Proof.
    rewrite <- app_length. fold used_data. rewrite <- (all_used _ _ _ count_files). split.
    - intros H l Hl. apply in_data_area in Hl. apply (used_in_data l Hl).
      destruct (H l Hl) as [Hu|Hu]; [done|by apply elem_of_nil in Hu].
    - intros H l Hl. left. apply (used_in_data l Hl). by apply H, in_data_area.
  Qed.

  Lemma dir_full_iff :
    (forall l, dir_loc t l -> l ∈ used m \/ l ∈ @nil location) <-> length (border_on t m) + length (md_dir m) = dir_capacity t.
  Proof.
    rewrite <- app_length. fold used_dir. rewrite <- (all_used _ _ _ count_dirs). split.
    - intros H l Hl. apply in_dir_area in Hl. apply (used_in_dir l Hl).
      destruct (H l Hl) as [Hu|Hu]; [done|by apply elem_of_nil in Hu].
    - intros H l Hl. left. apply (used_in_dir l Hl). by apply H, in_dir_area.
  Qed.

  Lemma chain_bound i f : md_slots m !! i = Some (Some f) -> length (mf_chain f) <= data_capacity t.
  Proof.
    intros Hi. etransitivity; [|apply files_fit]. rewrite (files_used_split _ _ _ Hi), !app_length. simpl. lia.
  Qed.
End count.
