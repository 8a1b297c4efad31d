(** Proofs about the files in the border sector of a GEOS disk. *)
From Verif Require Import Base ListFacts Layout Block Bam Format Petscii GeosTypes DirEntry Header World Chain Directory Writer Rel GeosFile File Validate
  Spec SpecChain SpecBam View DevFacts SpecKinds Session SpecDisk SpecFiles Dirs Ops Refine Trace.
Local Open Scope nat_scope.

Section border.
  Context (t : disk_type) (a : astate) (s : session) (Hr : reached t a s).

  Lemma border_last es : w_directory (s_world s) = Ok es -> es = ordinary es ++ in_border es.
  Proof.
    intros Hes. destruct (reached_related _ _ _ Hr) as (m & c & b & R). rewrite (dir_entries t a s m c b R) in Hes.
    apply Ok_inj in Hes. subst es. unfold m_entries, slot_order, ordinary, in_border.
    rewrite map_app, concat_app, !List.filter_app.
    assert (forall is, (forall i, In i is -> border_slots m <= i) ->
      List.filter (fun e => negb (de_border e)) (concat (map (slot_entry m) is)) = concat (map (slot_entry m) is)
      /\ List.filter de_border (concat (map (slot_entry m) is)) = []) as H1.
    { induction is as [|i is IH]; intros Hi; [done|]. cbn [map concat]. rewrite !List.filter_app. destruct IH as [-> ->]; [intros; apply Hi; by right|].
      unfold slot_entry. destruct (slot_at m i); [|done]. cbn [List.filter entry_at de_border].
      rewrite (proj2 (Nat.ltb_ge i (border_slots m))) by (apply Hi; by left). done. }
    assert (forall is, (forall i, In i is -> i < border_slots m) ->
      List.filter (fun e => negb (de_border e)) (concat (map (slot_entry m) is)) = []
      /\ List.filter de_border (concat (map (slot_entry m) is)) = concat (map (slot_entry m) is)) as H2.
    { induction is as [|i is IH]; intros Hi; [done|]. cbn [map concat]. rewrite !List.filter_app. destruct IH as [-> ->]; [intros; apply Hi; by right|].
      unfold slot_entry. destruct (slot_at m i); [|done]. cbn [List.filter entry_at de_border].
      rewrite (proj2 (Nat.ltb_lt i (border_slots m))) by (apply Hi; by left). done. }
    match goal with |- concat (map _ ?x) ++ concat (map _ ?y) = _ =>
      destruct (H1 x) as [-> ->]; [intros i Hi%in_seq; lia|]; destruct (H2 y) as [-> ->]; [intros i Hi%in_seq; lia|] end.
    by rewrite app_nil_r.
  Qed.

  Lemma border_lines es : w_directory (s_world s) = Ok es -> map entry_line (in_border es) = lines (take (border_room (as_border a)) (as_slots a)).
  Proof.
    intros Hes. pose proof (listed t a s Hr es Hes) as H. pose proof (listed_ordinary t a s Hr es Hes) as Ho.
    rewrite (border_last es Hes), map_app, Ho in H. by apply app_inv_head in H.
  Qed.
End border.

(** The names in slots. *)
Definition names_in (os : list (option afile)) : list (list nat) := concat (map (fun o => match o with Some f => [a_name f] | None => [] end) os).
Lemma lines_names os : map (fun x => fst (fst x)) (lines os) = names_in os.
Proof. induction os as [|[f|] os IH]; [done| |exact IH]. unfold lines, names_in in *. cbn [map concat app]. by rewrite <- IH. Qed.
Lemma entry_names es : map de_name es = map (fun x => fst (fst x)) (map entry_line es).
Proof. rewrite map_map. apply map_ext. by intros e. Qed.
Lemma border_names t a s es : reached t a s -> w_directory (s_world s) = Ok es ->
  map de_name (in_border es) = names_in (take (border_room (as_border a)) (as_slots a)).
Proof. intros Hr Hes. by rewrite entry_names, (border_lines t a s Hr es Hes), lines_names. Qed.

Lemma names_put_same os i f g n : os !! i = Some (Some f) -> a_name g = a_name f -> names_in (take n (<[i := Some g]> os)) = names_in (take n os).
Proof.
  revert i n. induction os as [|o os IH]; intros i n Hi Hn; [done|]. destruct n as [|n]; [done|].
  destruct i as [|i]; cbn in Hi |- *.
  - injection Hi as ->. unfold names_in. cbn. by rewrite Hn.
  - unfold names_in in *. cbn. f_equal. by apply IH.
Qed.
Lemma names_put_beyond os i o n : n <= i -> names_in (take n (<[i := o]> os)) = names_in (take n os).
Proof. intros H. by rewrite take_insert. Qed.
Lemma names_put_none os i n : sublist (names_in (take n (<[i := None]> os))) (names_in (take n os)).
Proof.
  revert i n. induction os as [|o os IH]; intros i n; [done|]. destruct n as [|n]; [done|].
  destruct i as [|i]; cbn.
  - unfold names_in. cbn. destruct o; [by apply sublist_cons|done].
  - unfold names_in in *. cbn. by apply sublist_app.
Qed.
Lemma names_rename os i f g n old new : os !! i = Some (Some f) -> a_name f = old -> a_name g = new ->
  (forall j h, os !! j = Some (Some h) -> a_name h = old -> j = i) ->
  names_in (take n (<[i := Some g]> os)) = map (name_swap old new) (names_in (take n os)).
Proof.
  revert i n. induction os as [|o os IH]; intros i n Hi Hf Hg Hu; [done|]. destruct n as [|n]; [done|].
  unfold names_in in *. destruct i as [|i]; cbn in Hi |- *.
  - injection Hi as ->. cbn [map app]. unfold name_swap at 1. rewrite (bool_decide_eq_true_2 _ Hf), Hg. f_equal.
    assert (forall (xs : list (option afile)), (forall j h, xs !! j = Some (Some h) -> a_name h <> old) ->
      map (name_swap old new) (concat (map (fun o => match o with Some f => [a_name f] | None => [] end) xs))
      = concat (map (fun o => match o with Some f => [a_name f] | None => [] end) xs)) as H.
    { induction xs as [|[h|] xs IHx]; intros Hx; [done| |].
      - cbn [map concat app]. f_equal; [|apply IHx; intros j k Hj; exact (Hx (S j) k Hj)].
        unfold name_swap. rewrite bool_decide_eq_false_2; [done|]. exact (Hx 0 h eq_refl).
      - cbn [map concat app]. apply IHx. intros j k Hj. exact (Hx (S j) k Hj). }
    symmetry. apply H. intros j h Hj Hh. destruct (decide (j < n)) as [Hlt|Hge].
    + rewrite lookup_take in Hj by done. discriminate (Hu (S j) h Hj Hh).
    + rewrite lookup_take_ge in Hj by lia. done.
  - rewrite map_app. f_equal.
    + destruct o as [h|]; [|done]. cbn. unfold name_swap. rewrite bool_decide_eq_false_2; [done|]. intros E. discriminate (Hu 0 h eq_refl E).
    + apply IH; [done..|]. intros j h Hj Hh. specialize (Hu (S j) h Hj Hh). lia.
Qed.

Lemma border_changes t a s o a' r : reached t a s -> astep t a o = Some (a', r) ->
  border_change o r (names_in (take (border_room (as_border a)) (as_slots a))) (names_in (take (border_room (as_border a')) (as_slots a'))).
Proof.
  intros Hr Ha. pose proof (slots_dirs t a s Hr) as [Hsd _].
  assert (border_room (as_border a) <= length (as_slots a)) as Hb by lia.
  assert (forall x (c : astate), names_in (take (border_room (as_border (settle x c))) (as_slots (settle x c))) = names_in (take (border_room (as_border c)) (as_slots c))) as Hset.
  { intros x c. unfold settle. destruct (aw_dirty x); [|done]. destruct (as_slots c !! aw_slot x) as [[f|]|] eqn:E; [|done..].
    cbn [set_synced put set_slots as_slots as_border]. by eapply names_put_same. }
  destruct o; cbn [astep] in Ha; cbn [border_change].
  - (* OCreate *)
    destruct (16 <? length name); [by injection Ha as <- <-|]. destruct (slot_named a name); [by injection Ha as <- <-|].
    destruct (negb _); [done|]. destruct (slot_unused a) as [i|] eqn:Eu.
    + destruct (blocks_left t a =? 0); [by injection Ha as <- <-|]. injection Ha as <- <-. cbn [add set_synced set_handles put set_slots as_slots as_border].
      apply names_put_beyond. unfold slot_unused in Eu. destruct (slot_where _ _); [|done]. injection Eu as <-. lia.
    + destruct (_ <? dir_limit t); [|by injection Ha as <- <-]. destruct (blocks_left t a =? 0); injection Ha as <- <-.
      * cbn [grow as_slots as_border]. by rewrite take_app_le.
      * cbn [grow add set_synced set_handles put set_slots as_slots as_border]. rewrite names_put_beyond by lia. by rewrite take_app_le.
  - destruct (slot_named a name); by injection Ha as <- <-.
  - destruct (file_of a h) as [[i f]|]; [destruct (writer_on a i); [done|]; by injection Ha as <- <-|]. destruct (kind_of a h) as [[| |]|]; [done|by injection Ha as <- <-..|done].
  - (* OWrite *)
    destruct (as_writers a !! k) as [[x|]|]; [|done..]. destruct (as_slots a !! aw_slot x) as [[f|]|] eqn:Ef; [|done..].
    destruct (write_to _ _ _ _) as [[f' pend] r'] eqn:Ew. injection Ha as <- <-.
    assert (a_name f' = a_name f) as En.
    { unfold write_to in Ew. destruct (_ <=? _); by injection Ew as <- _ _. }
    destruct (a_blocks f' =? a_blocks f); cbn [set_synced put set_slots set_writers as_slots as_border]; by eapply names_put_same.
  - destruct (as_writers a !! k) as [[x|]|]; [|done..]. injection Ha as <- <-. by rewrite Hset.
  - destruct (as_writers a !! k) as [[x|]|]; [|done..]. injection Ha as <- <-. by rewrite Hset.
  - destruct (file_of a h) as [[i f]|]; [by injection Ha as <- <-|]. destruct (kind_of a h) as [[| |]|]; [done|by injection Ha as <- <-..|done].
  - destruct (file_of a h) as [[j f]|]; [by injection Ha as <- <-|]. destruct (kind_of a h) as [[| |]|]; [done|by injection Ha as <- <-..|done].
  - (* ODelete *)
    destruct (held a h) as [[i f]|]; [|done]. destruct (_ || _); [done|]. injection Ha as <- <-.
    cbn [set_synced set_handles put set_slots as_slots as_border]. apply names_put_none.
  - (* ORename *)
    destruct (slot_named a old) as [i|] eqn:Eo; [|by injection Ha as <- <-]. destruct (16 <? length new); [by injection Ha as <- <-|].
    destruct (slot_named a new); [by injection Ha as <- <-|]. destruct (negb _); [done|].
    destruct (as_slots a !! i) as [[f|]|] eqn:Ef; [|done..]. injection Ha as <- <-. cbn [put set_slots as_slots as_border].
    destruct (named_slot a old i Eo) as (f0 & Hf0 & En). assert (f0 = f) as -> by congruence.
    apply (names_rename _ _ f); [done|done|done|]. intros j h Hj Hh. pose proof (slot_name_of t a s Hr j h Hj) as Hx. rewrite Hh in Hx. congruence.
  - by injection Ha as <- <-.
  - by injection Ha as <- <-.
  - by injection Ha as <- <-.
  - by injection Ha as <- <-.
  - destruct (as_synced a); [|done]. by injection Ha as <- <-.
  - destruct (_ && _); [|done]. by injection Ha as <- <-.
  - destruct (_ || _); [done|]. by injection Ha as <- <-.
Qed.

(** ** The forms used in the property theorems *)

Lemma border_order t a s es : reached t a s -> w_directory (s_world s) = Ok es ->
  es = ordinary es ++ in_border es /\ length (in_border es) <= border_room (border_in t (s_world s)).
Proof.
  intros Hr Hes. split; [by apply (border_last t a s Hr)|]. rewrite <- (reached_border t a s Hr).
  assert (length (in_border es) = length (map entry_line (in_border es))) as -> by (by rewrite map_length).
  rewrite (border_lines t a s Hr es Hes). pose proof (lines_length (take (border_room (as_border a)) (as_slots a))) as H. rewrite take_length in H. lia.
Qed.

Lemma border_after t a s o a' r es : reached t a s -> astep t a o = Some (a', r) -> w_directory (s_world s) = Ok es ->
  exists s' es', call s o = (s', r) /\ w_directory (s_world s') = Ok es'
    /\ border_change o r (map de_name (in_border es)) (map de_name (in_border es')).
Proof.
  intros Hr Ha Hes. destruct (reached_step t a s o a' r Hr Ha) as (s' & Hc & Hr').
  destruct (reached_related _ _ _ Hr') as (m & c & b & R). pose proof (dir_entries t a' s' m c b R) as Hes'.
  exists s', (m_entries m). split; [done|]. split; [done|]. rewrite (border_names t a s es Hr Hes), (border_names t a' s' _ Hr' Hes').
  by apply (border_changes t a s).
Qed.
