(** Listing the directory one entry at a time. *)
From Verif Require Import Base ListFacts Layout Block Bam Chain GeosTypes Petscii DirEntry Header World Directory Rel GeosFile File DirIter Spec SpecCodec SpecChain
  SpecBam SpecFiles SpecKinds Session SpecDisk GeomFacts FlatProofs DevFacts EntryProofs HeaderProofs ChainProofs BamProofs Evolve Holds View Dirs Ops OpWrite OpFile Refine Trace SpecTurns TurnsRead.
Ltac Zify.zify_post_hook ::= Z.div_mod_to_equations.

(** ** The entries of the present sector *)

Lemma entries_ok border l cs : forall off, exists es, sector_entries border l off cs = Ok es.
Proof.
  induction cs as [|c cs IH]; intros off; cbn [sector_entries]; [by eexists|].
  destruct (Nat.eqb_spec (length c) ENTRY_SIZE) as [E|E]; cbn [negb]; [|apply IH].
  destruct (parse_attr c (Some (mk_position l off ENTRY_SIZE)) E) as (e & He & _). rewrite He. cbn [rbind].
  destruct (IH ((off + ENTRY_SIZE) mod 256)) as (es & Hes). rewrite Hes. cbn [rbind]. by eexists.
Qed.

Definition entries_in (border : bool) (l : location) (off : nat) (cs : list (list nat)) : list dirent :=
  match sector_entries border l off cs with Ok es => es | _ => [] end.
Definition pend (it : dir_iter) : list dirent := entries_in (di_on_border it) (di_location it) (di_offset it) (di_chunks it).

Lemma chunk_spec border l cs : forall off,
  match entries_in border l off cs with
  | [] => exists off', dir_chunk border l off cs = (Ok None, (off', []))
  | e :: es => exists off' cs', dir_chunk border l off cs = (Ok (Some e), (off', cs'))
      /\ entries_in border l off' cs' = es /\ length cs' < length cs
  end.
Proof.
  induction cs as [|c cs IH]; intros off; unfold entries_in; cbn [sector_entries dir_chunk]; [by eexists|].
  destruct (Nat.eqb_spec (length c) ENTRY_SIZE) as [E|E]; cbn [negb].
  2: { specialize (IH off). unfold entries_in in IH. destruct (sector_entries border l off cs) as [[|e es]| | |]; try done.
       destruct IH as (o & cs' & H1 & H2 & H3). exists o, cs'. split; [done|]. split; [done|]. cbn [length]. lia. }
  destruct (parse_attr c (Some (mk_position l off ENTRY_SIZE)) E) as (e & He & _). rewrite He. cbn [rbind].
  specialize (IH ((off + ENTRY_SIZE) mod 256)). unfold entries_in in IH.
  destruct (entries_ok border l cs ((off + ENTRY_SIZE) mod 256)) as (es & Hes). rewrite Hes in *. cbn [rbind].
  destruct (is_scratched (de_attr (set_border border e))).
  - destruct es as [|e' es]; [done|]. destruct IH as (o & cs' & H1 & H2 & H3). exists o, cs'. split; [done|]. split; [done|].
    cbn [length]. lia.
  - exists ((off + ENTRY_SIZE) mod 256), cs. split; [done|]. rewrite Hes. split; [done|]. cbn [length]. lia.
Qed.

Lemma loop_pend fuel d it e es : pend it = e :: es ->
  exists p, dir_loop (S fuel) d it = (dir_left p it, Some (Ok e)) /\ pend (dir_left p it) = es /\ length (snd p) < length (di_chunks it).
Proof.
  intros H. pose proof (chunk_spec (di_on_border it) (di_location it) (di_chunks it) (di_offset it)) as Hc.
  change (entries_in _ _ _ _) with (pend it) in Hc at 1. rewrite H in Hc. destruct Hc as (off' & cs' & H1 & H2 & H3).
  exists (off', cs'). cbn [dir_loop]. rewrite H1. done.
Qed.

Lemma loop_load fuel d it : pend it = [] ->
  exists off, dir_loop (S fuel) d it =
    match dir_next_block d (dir_left (off, []) it) with
    | (it, Some (Ok s)) => dir_loop fuel d (dir_load s it)
    | (it, Some (Err e)) => (it, Some (Err e))
    | (it, Some Panic) => (it, Some Panic)
    | (it, Some NoFuel) => (it, Some NoFuel)
    | (it, None) => (it, None)
    end.
Proof.
  intros H. pose proof (chunk_spec (di_on_border it) (di_location it) (di_chunks it) (di_offset it)) as Hc.
  change (entries_in _ _ _ _) with (pend it) in Hc at 1. rewrite H in Hc. destruct Hc as (off' & H1).
  exists off'. cbn [dir_loop]. by rewrite H1.
Qed.

(** ** However the image changes, the iterator comes to an end *)

Section ends.
  Context (t : disk_type) (g : geometry).
  Notation N := (sector_count g).

  Definition sane_chain (ci : chain_iter) : Prop :=
    ci_next ci = None \/ (NoDup (ci_visited ci) /\ Forall (fun l => valid_loc g l = true) (ci_visited ci)).
  Definition room (ci : chain_iter) : nat :=
    match ci_next ci with Some _ => 8 * (N - length (ci_visited ci)) + 1 | None => 0 end.
  Definition loads (ci : chain_iter) : nat :=
    match ci_next ci with Some _ => S (N - length (ci_visited ci)) | None => 0 end.

  Lemma chain_any d ci : dev_shape t d -> d_geom d = g -> sane_chain ci ->
    match chain_next d ci with
    | (_, None) => ci_next ci = None
    | (ci', Some (Ok s)) => sane_chain ci' /\ room ci' + 8 <= room ci /\ loads ci' < loads ci /\ length (cs_data s) <= 256
    | (ci', Some (Err _)) => ci_next ci' = None /\ 1 <= room ci /\ 1 <= loads ci
    | _ => False
    end.
  Proof.
    intros Hd Hg Hs. unfold chain_next, room, loads. destruct (ci_next ci) as [l|] eqn:El; [|done].
    destruct Hs as [Hs|[Hn Hv]]; [by rewrite El in Hs|].
    destruct (decide (l ∈ ci_visited ci)) as [_|Hl]; [split; [done|lia]|].
    destruct (valid_loc g l) eqn:Evl.
    2: { unfold sector. rewrite Hg, Evl. split; [done|lia]. }
    destruct (sector_valid t d l Hd) as (b & _ & Hb & Hlb); [by rewrite Hg|]. rewrite Hb.
    assert (NoDup (l :: ci_visited ci)) as Hn' by (by apply NoDup_cons).
    assert (Forall (fun l => valid_loc g l = true) (l :: ci_visited ci)) as Hv' by (by apply Forall_cons).
    assert (S (length (ci_visited ci)) <= N) as HN.
    { pose proof (valid_count t d (l :: ci_visited ci) Hd Hn') as H. rewrite Hg in H. by apply H. }
    unfold link_new. destruct (b !!! 0 =? 0); [destruct (b !!! 1 <? 1)|]; cbn [ci_next ci_visited length cs_data].
    - split; [done|lia].
    - split; [by left|]. split; [lia|]. split; [lia|]. rewrite take_length. lia.
    - split; [by right|]. split; [lia|]. split; [lia|]. rewrite take_length. lia.
  Qed.

  Definition tail_fine (x : option (res chain_sector)) : Prop :=
    match x with None => True | Some (Ok s) => length (cs_data s) <= 256 | Some (Err _) => True | _ => False end.
  Record sane (it : dir_iter) : Prop := {
    sn_chain : match di_chain it with Some ci => sane_chain ci | None => True end;
    sn_tail : tail_fine (di_tail it)
  }.
  Definition count_tail (x : option (res chain_sector)) (n : nat) : nat := match x with Some _ => n | None => 0 end.
  Definition left_over (it : dir_iter) : nat :=
    (match di_error it with Some _ => 1 | None => 0 end) + length (di_chunks it)
    + (match di_chain it with Some ci => room ci | None => 0 end) + count_tail (di_tail it) 8.
  Definition left_loads (it : dir_iter) : nat :=
    (match di_chain it with Some ci => loads ci | None => 0 end) + count_tail (di_tail it) 1.

  Lemma chunks_few (b : list nat) : length b <= 256 -> length (chunks ENTRY_SIZE b) <= 8.
  Proof.
    unfold chunks. intros Hb.
    assert (forall fuel k (l : list nat), length l <= 32 * k -> length (chunks_fuel fuel ENTRY_SIZE l) <= k) as H.
    { clear. induction fuel as [|fuel IH]; intros k l Hl; cbn [chunks_fuel length]; [lia|].
      destruct l as [|x l]; [cbn; lia|]. destruct k as [|k]; [cbn in Hl; lia|]. cbn [length].
      assert (length (chunks_fuel fuel ENTRY_SIZE (drop ENTRY_SIZE (x :: l))) <= k); [|lia].
      apply IH. rewrite drop_length. unfold ENTRY_SIZE. lia. }
    apply H. lia.
  Qed.

  Lemma loop_any d fuel : forall it, dev_shape t d -> d_geom d = g -> sane it -> di_error it = None -> left_loads it < fuel ->
    match dir_loop fuel d it with
    | (it', None) => sane it' /\ left_over it' = 0
    | (it', Some (Ok _)) | (it', Some (Err _)) => sane it' /\ left_over it' < left_over it
    | _ => False
    end.
  Proof.
    induction fuel as [|fuel IH]; intros it Hd Hg [Hc Ht] He Hf; [lia|].
    destruct (pend it) as [|e es] eqn:Ep.
    2: { destruct (loop_pend fuel d it e es Ep) as (p & -> & _ & Hl). split; [done|]. unfold left_over. cbn. lia. }
    destruct (loop_load fuel d it Ep) as (off & ->).
    assert (forall x, di_tail it = x -> room (default (mk_chain_iter None []) (di_chain it)) = 0 ->
      match (let it1 := mk_dir_iter None None [] (di_location it) off (di_error it) (di_border it) (di_on_border it) in
             match x with
             | Some (Ok s) => dir_loop fuel d (dir_load s it1)
             | Some (Err e) => (it1, Some (Err e)) | Some Panic => (it1, Some Panic) | Some NoFuel => (it1, Some NoFuel)
             | None => (it1, None) end) with
      | (it', None) => sane it' /\ left_over it' = 0
      | (it', Some (Ok _)) | (it', Some (Err _)) => sane it' /\ left_over it' < left_over it
      | _ => False
      end) as Htail.
    { intros x Hx Hroom. cbn zeta. set (it1 := mk_dir_iter None None [] _ off _ _ _). rewrite Hx in Ht.
      assert (left_over it1 = 0) as H1 by (unfold left_over; cbn; by rewrite He). destruct x as [[s|e| |]|]; try done.
      - specialize (IH (dir_load s it1) Hd Hg). cbn in Ht. pose proof (chunks_few _ Ht) as H8.
        assert (left_over (dir_load s it1) <= 8) as H2 by (unfold left_over; cbn; rewrite He; lia).
        assert (8 <= left_over it) as H3 by (unfold left_over; rewrite Hx; cbn; lia).
        assert (left_loads (dir_load s it1) < fuel) as H4 by (unfold left_loads in Hf; rewrite Hx in Hf; unfold left_loads; cbn in *; lia).
        specialize (IH ltac:(by split) He H4). destruct (dir_loop fuel d (dir_load s it1)) as [it' [[?|?| |]|]]; try done.
        + split; [apply IH|]. destruct IH as [_ IH]. lia.
        + split; [apply IH|]. destruct IH as [_ IH]. lia.
      - split; [by split|]. rewrite H1. unfold left_over. rewrite Hx. cbn. lia. }
    unfold dir_next_block, dir_left. cbn [di_chain di_tail di_chunks di_location di_offset di_error di_border di_on_border fst snd].
    destruct (di_chain it) as [ci|] eqn:Eci.
    2: { specialize (Htail _ eq_refl eq_refl). by destruct (di_tail it) as [[?|?| |]|]. }
    pose proof (chain_any d ci Hd Hg Hc) as Hn. destruct (chain_next d ci) as [ci' [[s|e| |]|]]; try done.
    - destruct Hn as (Hs & Hr & Hl & H256). set (it1 := mk_dir_iter (Some ci') _ _ _ _ _ _ _).
      pose proof (chunks_few _ H256) as H8.
      assert (left_over (dir_load s it1) <= left_over it) as H2.
      { unfold left_over. rewrite Eci. cbn. rewrite He. lia. }
      specialize (IH (dir_load s it1) Hd Hg ltac:(by split) He).
      assert (left_loads (dir_load s it1) < fuel) as H4 by (unfold left_loads in *; rewrite Eci in Hf; cbn in *; lia).
      specialize (IH H4). destruct (dir_loop fuel d (dir_load s it1)) as [it' [[?|?| |]|]]; try done.
      + split; [apply IH|]. destruct IH as [_ IH]. lia.
      + split; [apply IH|]. destruct IH as [_ IH]. lia.
    - destruct Hn as (Hx & Hr & Hl). split.
      + split; cbn; [by left|done].
      + unfold left_over, room. cbn. rewrite Hx, Eci, He. unfold room in Hr. lia.
    - specialize (Htail _ eq_refl). cbn in Htail. unfold room in Htail. rewrite Hn in Htail. specialize (Htail eq_refl).
      by destruct (di_tail it) as [[?|?| |]|].
  Qed.
End ends.

Definition proper (x : option (res dirent)) : Prop := match x with None | Some (Ok _) | Some (Err _) => True | _ => False end.

Lemma next_any t g d it : dev_shape t d -> d_geom d = g -> sane g it ->
  let '(it', x) := dir_next d it in
  sane g it' /\ proper x /\ match x with None => left_over g it' = 0 | Some _ => left_over g it' < left_over g it end.
Proof.
  intros Hd Hg Hs. unfold dir_next. destruct (di_error it) as [e|] eqn:Ee.
  { destruct Hs as [H1 H2]. split; [by split|]. split; [done|]. unfold left_over. cbn. rewrite Ee. lia. }
  assert (left_loads g it < length (d_blocks d) + 3) as Hl.
  { unfold left_loads, loads, count_tail. rewrite (ds_count _ _ Hd), Hg.
    destruct (di_chain it) as [ci|]; [destruct (ci_next ci)|]; destruct (di_tail it); lia. }
  pose proof (loop_any t g d _ it Hd Hg Hs Ee Hl) as H. destruct (dir_loop _ d it) as [it' [[x|x| |]|]]; try done.
  - by destruct H.
  - by destruct H.
  - by destruct H.
Qed.

Lemma answers_any t g ds : forall it, Forall (fun d => dev_shape t d /\ d_geom d = g) ds -> sane g it ->
  Forall proper (answers ds it) /\ length (List.filter (fun x => match x with Some _ => true | None => false end) (answers ds it)) <= left_over g it
  /\ forall i j, answers ds it !! i = Some None -> i <= j < length ds -> answers ds it !! j = Some None.
Proof.
  induction ds as [|d ds IH]; intros it Hds Hs; cbn [answers].
  { split; [constructor|]. split; [cbn; lia|]. intros i j _ Hj. cbn in Hj. lia. }
  apply Forall_cons in Hds as [[Hd Hg] Hds]. pose proof (next_any t g d it Hd Hg Hs) as Hn.
  destruct (dir_next d it) as [it' x]. destruct Hn as (Hs' & Hp & Hx). destruct (IH it' Hds Hs') as (I1 & I2 & I3).
  split; [by constructor|]. split.
  { cbn [List.filter]. destruct x; cbn [length]; lia. }
  intros i j Hi Hj. destruct j as [|j].
  { by destruct i as [|i]; [|lia]. }
  cbn [length] in Hj. cbn [lookup list_lookup] in *. destruct i as [|i].
  - cbn in Hi. injection Hi as ->.
    destruct (lookup_lt_is_Some_2 (answers ds it') j) as [y Hy].
    { clear -Hj. assert (forall ds it, length (answers ds it) = length ds) as ->; [|lia].
      clear. induction ds as [|d ds IH]; intros it; cbn [answers]; [done|]. destruct (dir_next d it). cbn [length]. by rewrite IH. }
    destruct y as [y|]; [|done]. exfalso. rewrite Hx in I2.
    assert (In (Some y) (List.filter (fun x : option (res dirent) => match x with Some _ => true | None => false end) (answers ds it'))) as Hin.
    { apply filter_In. split; [|done]. apply elem_of_list_In. by eapply elem_of_list_lookup_2. }
    destruct (List.filter _ _); [done|cbn in I2; lia].
  - apply (I3 i j Hi). lia.
Qed.

Theorem iterator_ends t w it ds :
  dev_shape t (w_dev w) -> dir_iter_new w = Ok it ->
  Forall (fun d => dev_shape t d /\ d_geom d = d_geom (w_dev w)) ds ->
  Forall (fun x => x = None \/ (exists e, x = Some (Ok e)) \/ exists k, x = Some (Err k)) (answers ds it)
  /\ length (List.filter (fun x => match x with Some _ => true | None => false end) (answers ds it)) <= 8 * (sector_count (d_geom (w_dev w)) + 1) + 1
  /\ forall i j, answers ds it !! i = Some None -> i <= j < length ds -> answers ds it !! j = Some None.
Proof.
  intros Hd Hn Hds. set (g := d_geom (w_dev w)) in *.
  assert (sane g it /\ left_over g it <= 8 * (sector_count g + 1) + 1) as [Hs Hl].
  { unfold dir_iter_new in Hn. destruct (w_disk_format w) as [f|e| |]; try done.
    2: { injection Hn as <-. split; [done|]. unfold left_over. cbn. lia. }
    destruct (w_get_header w) as [h|e| |]; try done.
    2: { injection Hn as <-. split; [done|]. unfold left_over. cbn. lia. }
    injection Hn as <-. split.
    - split; cbn [di_chain di_tail].
      + right. split; [apply NoDup_nil_2|by constructor].
      + destruct (h_geos h) as [gh|]; [|done]. unfold tail_fine.
        destruct (valid_loc (d_geom (w_dev w)) (gh_border gh)) eqn:Ev.
        * destruct (sector_valid t (w_dev w) (gh_border gh) Hd Ev) as (b & _ & -> & Hb). cbn. lia.
        * unfold sector. by rewrite Ev.
    - unfold left_over. cbn [di_error di_chunks di_chain di_tail length room chain_new ci_next ci_visited count_tail].
      unfold count_tail. destruct (h_geos h); lia. }
  destruct (answers_any t g ds it Hds Hs) as (H1 & H2 & H3). split; [|split; [lia|exact H3]].
  eapply Forall_impl; [exact H1|]. intros [[e|e| |]|]; cbn; try done; eauto.
Qed.

(** ** On a disk that does not change *)

Definition joined (ss : list chain_sector) (r : res unit) (x : option (res chain_sector)) : list chain_sector * res unit :=
  match r, x with
  | Ok _, Some (Ok s) => (ss ++ [s], Ok tt)
  | Ok _, Some (Err e) => (ss, Err e)
  | Ok _, Some Panic => (ss, Panic)
  | Ok _, Some NoFuel => (ss, NoFuel)
  | _, _ => (ss, r)
  end.
Definition final (r : res unit) : option (res dirent) :=
  match r with Ok _ => None | Err e => Some (Err e) | Panic => Some Panic | NoFuel => Some NoFuel end.

Section still.
  Context (d : dev) (h : header).

  Definition to_list (n : nat) (it : dir_iter) (total : list dirent) (r : res unit) : Prop :=
    di_error it = None /\ di_border it = option_map gh_border (h_geos h) /\ (h_geos h = None -> di_on_border it = false)
    /\ exists ss r0 cf,
      match di_chain it with Some ci => chain_collect cf d ci = (ss, r0) /\ ended r0 | None => ss = [] /\ r0 = Ok tt end
      /\ length (fst (joined ss r0 (di_tail it))) <= n
      /\ pend it ++ fst (entries_of_sectors h (fst (joined ss r0 (di_tail it))) (snd (joined ss r0 (di_tail it)))) = total
      /\ snd (entries_of_sectors h (fst (joined ss r0 (di_tail it))) (snd (joined ss r0 (di_tail it)))) = r.

  Lemma load_entries s it es : di_border it = option_map gh_border (h_geos h) -> (h_geos h = None -> di_on_border it = false) ->
    entries_of_sectors h (s :: fst es) (snd es)
      = (pend (dir_load s it) ++ fst (entries_of_sectors h (fst es) (snd es)), snd (entries_of_sectors h (fst es) (snd es)))
    /\ (h_geos h = None -> di_on_border (dir_load s it) = false).
  Proof.
    intros Hb Ho. assert (di_on_border (dir_load s it) = on_border h (cs_location s)) as E.
    { unfold dir_load, on_border. cbn [di_on_border]. rewrite Hb. destruct (h_geos h) as [gh|]; [done|]. by apply Ho. }
    split; [|intros H; rewrite E; unfold on_border; by rewrite H].
    cbn [entries_of_sectors]. unfold pend, entries_in. rewrite E. cbn [dir_load di_location di_offset di_chunks].
    destruct (entries_ok (on_border h (cs_location s)) (cs_location s) (chunks ENTRY_SIZE (cs_data s)) 0) as (es1 & ->).
    by destruct (entries_of_sectors h (fst es) (snd es)).
  Qed.

  Lemma loop_still fuel : forall n it total r, to_list n it total r -> n < fuel ->
    match total with
    | e :: es => exists it', dir_loop fuel d it = (it', Some (Ok e)) /\ to_list n it' es r
    | [] => exists it', dir_loop fuel d it = (it', final r)
    end.
  Proof.
    induction fuel as [|fuel IH]; intros n it total r (He & Hb & Ho & ss & r0 & cf & Hc & Hn & Ht & Hr) Hf; [lia|].
    destruct (pend it) as [|e es] eqn:Ep.
    2: { rewrite <- Ht. cbn [app]. destruct (loop_pend fuel d it e es Ep) as (p & -> & Hp & _). eexists. split; [done|].
         split; [done|]. split; [done|]. split; [done|]. exists ss, r0, cf. split; [done|]. split; [done|]. by rewrite Hp. }
    cbn [app] in Ht. destruct (loop_load fuel d it Ep) as (off & ->).
    (* the border sector *)
    assert (ss = [] -> r0 = Ok tt ->
      match total with
      | e :: es => exists it', (let it1 := mk_dir_iter None None [] (di_location it) off (di_error it) (di_border it) (di_on_border it) in
             match di_tail it with
             | Some (Ok s) => dir_loop fuel d (dir_load s it1)
             | Some (Err e) => (it1, Some (Err e)) | Some Panic => (it1, Some Panic) | Some NoFuel => (it1, Some NoFuel)
             | None => (it1, None) end) = (it', Some (Ok e)) /\ to_list n it' es r
      | [] => exists it', (let it1 := mk_dir_iter None None [] (di_location it) off (di_error it) (di_border it) (di_on_border it) in
             match di_tail it with
             | Some (Ok s) => dir_loop fuel d (dir_load s it1)
             | Some (Err e) => (it1, Some (Err e)) | Some Panic => (it1, Some Panic) | Some NoFuel => (it1, Some NoFuel)
             | None => (it1, None) end) = (it', final r)
      end) as Htail.
    { intros -> ->. cbn zeta. set (it1 := mk_dir_iter None None [] _ off _ _ _).
      destruct (di_tail it) as [[s|e| |]|]; cbn [joined fst snd app] in *.
      2-5: rewrite <- Ht, <- Hr; cbn; eexists; reflexivity.
      destruct (load_entries s it1 ([], Ok tt) Hb Ho) as [Hl Ho']. cbn [fst snd] in Hl. rewrite Hl in Ht, Hr. cbn [length] in Hn.
      pose proof (IH (n - 1) (dir_load s it1) total r) as H.
      assert (to_list (n - 1) (dir_load s it1) total r) as H1.
      { split; [done|]. split; [done|]. split; [done|]. exists [], (Ok tt), 0. cbn [dir_load it1 di_chain di_tail joined fst snd length].
        split; [done|]. split; [lia|]. split; [exact Ht|exact Hr]. }
      specialize (H H1 ltac:(lia)). destruct total as [|e es]; [done|]. destruct H as (it' & E & H). exists it'. split; [done|].
      destruct H as (K1 & K2 & K3 & ss & r0 & cf' & K4 & K5 & K6). split; [done|]. split; [done|]. split; [done|]. exists ss, r0, cf'. split; [done|]. split; [lia|done]. }
    unfold dir_next_block, dir_left. cbn [di_chain di_tail di_chunks di_location di_offset di_error di_border di_on_border fst snd].
    destruct (di_chain it) as [ci|].
    2: { destruct Hc as [-> ->]. specialize (Htail eq_refl eq_refl). by destruct (di_tail it) as [[?|?| |]|]. }
    destruct Hc as [Hc Hend]. pose proof (collect_step _ _ _ _ _ Hc Hend) as Hst.
    destruct (chain_next d ci) as [ci' [[s|e| |]|]]; try done.
    - destruct Hst as (ss' & cf' & -> & Hc'). set (it1 := mk_dir_iter (Some ci') _ [] _ off _ _ _).
      assert (joined (s :: ss') r0 (di_tail it) = (s :: fst (joined ss' r0 (di_tail it)), snd (joined ss' r0 (di_tail it)))) as Ej.
      { unfold joined. destruct r0 as [u| | |]; try done. by destruct (di_tail it) as [[?|?| |]|]. }
      rewrite Ej in Hn, Ht, Hr. cbn [fst snd length] in Hn, Ht, Hr.
      destruct (load_entries s it1 (joined ss' r0 (di_tail it)) Hb Ho) as [Hl Ho']. rewrite Hl in Ht, Hr.
      pose proof (IH (n - 1) (dir_load s it1) total r) as H.
      assert (to_list (n - 1) (dir_load s it1) total r) as H1.
      { split; [done|]. split; [done|]. split; [done|]. exists ss', r0, cf'. cbn [dir_load it1 di_chain di_tail].
        split; [done|]. split; [lia|]. split; [exact Ht|exact Hr]. }
      specialize (H H1 ltac:(lia)). destruct total as [|e es]; [done|]. destruct H as (it' & E & H). exists it'. split; [done|].
      destruct H as (K1 & K2 & K3 & ss & r1 & cf1 & K4 & K5 & K6). split; [done|]. split; [done|]. split; [done|]. exists ss, r1, cf1. split; [done|]. split; [lia|done].
    - destruct Hst as [-> ->]. cbn [joined fst snd entries_of_sectors] in Ht, Hr. rewrite <- Ht, <- Hr. by eexists.
    - destruct Hst as [-> ->]. specialize (Htail eq_refl eq_refl). by destruct (di_tail it) as [[?|?| |]|].
  Qed.

  Lemma answers_still n total : forall it r, to_list n it total r -> n < length (d_blocks d) + 3 ->
    answers (repeat d (S (length total))) it = map (fun e => Some (Ok e)) total ++ [final r].
  Proof.
    induction total as [|e es IH]; intros it r Hl Hn; cbn [length repeat answers map app].
    - unfold dir_next. rewrite (proj1 Hl). destruct (loop_still _ n it [] r Hl Hn) as (it' & ->). done.
    - unfold dir_next. rewrite (proj1 Hl). destruct (loop_still _ n it (e :: es) r Hl Hn) as (it' & -> & Hl'). f_equal.
      by apply IH.
  Qed.
End still.

Theorem iterator_lists t w it es r :
  dev_shape t (w_dev w) -> dir_iter_new w = Ok it -> w_iter w = (es, r) ->
  answers (repeat (w_dev w) (S (length es))) it = map (fun e => Some (Ok e)) es ++ [final r].
Proof.
  intros Hd Hn Hi. unfold dir_iter_new in Hn. unfold w_iter in Hi. destruct (w_disk_format w) as [f|e| |]; try done.
  2: { injection Hn as <-. injection Hi as <- <-. done. }
  destruct (w_get_header w) as [h|e| |]; try done.
  2: { injection Hn as <-. injection Hi as <- <-. done. }
  injection Hn as <-. unfold directory_sectors in Hi.
  destruct (chain_walk (w_dev w) (first_directory_location f)) as [ss r0] eqn:Ew.
  destruct (walk_end_ended t _ _ _ _ Hd Ew) as [Hend Hlen]. unfold chain_walk in Ew.
  apply (answers_still (w_dev w) h (length ss + 1)).
  - split; [done|]. split; [done|]. split; [done|]. exists ss, r0, (chain_fuel (w_dev w)). cbn [di_chain di_tail].
    split; [done|].
    set (x := match h_geos h with Some gh => Some (let? b := sector (w_dev w) (gh_border gh) in Ok (mk_cs b (gh_border gh))) | None => None end).
    assert (entries_of_sectors h (fst (joined ss r0 x)) (snd (joined ss r0 x)) = (es, r) /\ length (fst (joined ss r0 x)) <= length ss + 1) as [E1 E2].
    { subst x. destruct (h_geos h) as [gh|].
      - destruct Hend as [->|(k & ->)].
        + destruct (sector (w_dev w) (gh_border gh)) as [b|k| |]; cbn [rbind joined fst snd]; rewrite ?app_length; cbn [length]; (split; [done|lia]).
        + cbn [joined fst snd]. split; [done|lia].
      - destruct Hend as [->|(k & ->)]; cbn [joined fst snd]; (split; [done|lia]). }
    split; [done|]. rewrite E1. done.
  - rewrite (ds_count _ _ Hd). lia.
Qed.

(** ** Among calls that change the disk *)

Definition tail_entries (it : dir_iter) : list dirent :=
  match di_tail it with Some (Ok s) => entries_in true (cs_location s) 0 (chunks ENTRY_SIZE (cs_data s)) | _ => [] end.
Definition named (name : list nat) (es : list dirent) : nat := length (List.filter (fun e => bool_decide (de_name e = name)) es).
Definition ahead (m : mdisk) (it : dir_iter) (j : nat) : nat :=
  match di_chain it with
  | Some ci => match ci_next ci with Some _ => if border_slots m + 8 * length (ci_visited ci) <=? j then 1 else 0 | None => 0 end
  | None => 0
  end.
(** How often the file of this name in slot [j] is still to be listed. *)
Definition owed (m : mdisk) (it : dir_iter) (j : nat) (name : list nat) : nat :=
  named name (pend it) + named name (tail_entries it) + ahead m it j.

Lemma named_app name es es' : named name (es ++ es') = named name es + named name es'.
Proof. unfold named. rewrite List.filter_app. apply app_length. Qed.

Lemma named_slots m j f p n : names_ok m -> slot_at m j = Some f ->
  named (mf_name f) (concat (map (slot_entry m) (seq p n))) = if (p <=? j) && (j <? p + n) then 1 else 0.
Proof.
  intros Hn Hf. revert p. induction n as [|n IH]; intros p; cbn [seq map concat].
  { destruct (Nat.leb_spec p j), (Nat.ltb_spec j (p + 0)); cbn; try done; lia. }
  rewrite named_app, IH. unfold slot_entry. destruct (decide (p = j)) as [->|Hne].
  - rewrite Hf. assert (named (mf_name f) [entry_at m j f] = 1) as ->.
    { unfold named. cbn. by rewrite bool_decide_eq_true_2. }
    destruct (Nat.leb_spec j j); [|lia]. destruct (Nat.ltb_spec j (j + S n)); [|lia]. destruct (Nat.leb_spec (S j) j); [lia|]. done.
  - assert (named (mf_name f) (match slot_at m p with Some f0 => [entry_at m p f0] | None => [] end) = 0) as ->.
    { destruct (slot_at m p) as [g|] eqn:Eg; [|done]. unfold named. cbn. rewrite bool_decide_eq_false_2; [done|].
      intros E. apply Hne. by apply (Hn p j g f). }
    destruct (Nat.leb_spec p j), (Nat.ltb_spec j (p + S n)), (Nat.leb_spec (S p) j), (Nat.ltb_spec j (S p + n)); cbn [andb]; lia.
Qed.

Lemma slots_listed m p n e : p + n <= 8 * length (md_secs m) ->
  In e (concat (map (slot_entry m) (seq p n))) -> In e (m_entries m).
Proof.
  intros Hp. unfold m_entries, slot_order. rewrite !in_concat. intros (x & Hx & He). exists x. split; [|done].
  apply in_map_iff in Hx as (i & <- & Hi). apply in_map_iff. exists i. split; [done|]. apply in_seq in Hi.
  rewrite in_app_iff, !in_seq. unfold border_slots. rewrite secs_length in Hp. lia.
Qed.

Record listing_at (m : mdisk) (it : dir_iter) (S : dirent -> Prop) : Prop := {
  la_error : di_error it = None;
  la_border : di_border it = option_map gh_border (h_geos (md_header m));
  la_flag : h_geos (md_header m) = None -> di_on_border it = false;
  la_chain : (exists k, k < length (md_dir m) /\ di_chain it = Some (at_sector (md_dir m) k))
    \/ match di_chain it with Some ci => ci_next ci = None | None => True end;
  la_tail : match di_tail it with None => True | Some (Ok s) => border m = [cs_location s] | _ => False end;
  la_seen : Forall S (pend it ++ tail_entries it)
}.
Definition more (m : mdisk) (it : dir_iter) : nat :=
  match di_chain it with
  | Some ci => match ci_next ci with Some _ => length (md_dir m) - length (ci_visited ci) | None => 0 end
  | None => 0
  end + count_tail (di_tail it) 1.

Section one.
  Context (t : disk_type) (d : dev) (m : mdisk) (V : view t d m) (Hn : names_ok m).

  Lemma next_dir k l : md_dir m !! k = Some l ->
    exists b, sector d l = Ok b /\ sector_slots m (length (border m) + k) b
      /\ chain_next d (at_sector (md_dir m) k) = (at_sector (md_dir m) (S k), Some (Ok (mk_cs b l))).
  Proof.
    intros Hl. destruct (Dirs.dir_block t d m V k l Hl) as (b & Hb & Hsl & _). exists b. split; [done|]. split; [done|].
    pose proof (sector_Ok_length t d l b (v_shape _ _ _ V) Hb) as Hlb.
    destruct (v_links _ _ _ V k l Hl) as (b' & Hb' & H0 & H1). rewrite Hb in Hb'. apply Ok_inj in Hb' as <-.
    unfold chain_next, at_sector. cbn [ci_next ci_visited]. rewrite Hl.
    assert (l ∉ rev (take k (md_dir m))) as Hv.
    { rewrite elem_of_list_In, <- in_rev, <- elem_of_list_In. intros (j & Hj)%elem_of_list_lookup.
      apply lookup_take_Some in Hj as [Hj Hlt]. pose proof (NoDup_lookup _ _ _ _ (view_dir_nodup _ _ _ V) Hj Hl). lia. }
    destruct (decide (l ∈ rev (take k (md_dir m)))) as [?|_]; [done|]. rewrite Hb.
    rewrite (take_S_r _ _ _ Hl), rev_app_distr. cbn [rev app]. unfold link_new.
    destruct (md_dir m !! S k) as [l'|] eqn:E; cbn [default from_option] in H0, H1.
    - change (id l') with l' in *. assert (fst l' <> 0) as Hl'.
      { apply (plain_track t). apply dir_plain. pose proof (v_dirs _ _ _ V) as Hd. rewrite Forall_forall in Hd.
        apply Hd. by eapply elem_of_list_lookup_2. }
      rewrite (proj2 (Nat.eqb_neq _ _)) by lia. rewrite H0, H1, <- surjective_pairing, (take_ge b) by (unfold BLOCK_SIZE; lia). done.
    - cbn in H0, H1. rewrite H0, H1. cbn [Nat.eqb Nat.ltb Nat.leb]. rewrite (take_ge b) by lia. done.
  Qed.

  Lemma load_dir k l b it : md_dir m !! k = Some l -> sector_slots m (length (border m) + k) b ->
    di_border it = option_map gh_border (h_geos (md_header m)) -> (h_geos (md_header m) = None -> di_on_border it = false) ->
    pend (dir_load (mk_cs b l) it) = concat (map (slot_entry m) (seq (border_slots m + 8 * k) 8))
    /\ (h_geos (md_header m) = None -> di_on_border (dir_load (mk_cs b l) it) = false).
  Proof.
    intros Hl Hsl Hb Ho.
    assert (di_on_border (dir_load (mk_cs b l) it) = false) as Ef.
    { unfold dir_load. cbn [di_on_border cs_location]. rewrite Hb. pose proof (view_border_apart _ _ _ V l) as Hap.
      unfold border in Hap. destruct (h_geos (md_header m)) as [gh|]; cbn; [|by apply Ho].
      apply bool_decide_eq_false_2. intros El. apply Hap; [rewrite <- El; by left|]. by eapply elem_of_list_lookup_2. }
    split; [|done]. unfold pend, entries_in. rewrite Ef. cbn [dir_load di_location di_offset di_chunks cs_location cs_data].
    rewrite chunks_block by apply Hsl. pose proof Hl as Hl'. rewrite <- secs_dir in Hl'.
    pose proof (sector_entries_view m _ b l 8 0 Hsl Hl' eq_refl (slot_at_scratched t d m V)) as Hse.
    change ((32 * 0) mod 256) with 0 in Hse. rewrite (proj2 (Nat.ltb_ge (length (border m) + k) (length (border m)))) in Hse by lia.
    rewrite Hse. unfold border_slots. do 3 f_equal. lia.
  Qed.

  Lemma loop_turn fuel : forall it (S : dirent -> Prop),
    listing_at m it S -> (forall e, In e (m_entries m) -> S e) -> more m it < fuel ->
    exists it' x, dir_loop fuel d it = (it', x) /\ listing_at m it' S
      /\ match x with
         | Some (Ok e) => S e /\ forall j f, slot_at m j = Some f ->
             owed m it j (mf_name f) = owed m it' j (mf_name f) + (if bool_decide (de_name e = mf_name f) then 1 else 0)
         | None => forall j f, slot_at m j = Some f -> owed m it j (mf_name f) = 0 /\ owed m it' j (mf_name f) = 0
         | _ => False
         end.
  Proof.
    induction fuel as [|fuel IH]; intros it S L HS Hf; [lia|]. destruct L as [Le Lb Lf Lc Lt Ls].
    destruct (pend it) as [|e es] eqn:Ep.
    2: { destruct (loop_pend fuel d it e es Ep) as (p & E & Hp & _). rewrite E. exists (dir_left p it), (Some (Ok e)). split; [done|].
         cbn [app] in Ls. apply Forall_cons in Ls as [Se Ls]. split.
         { split; [done|done|done|done|done|]. rewrite Hp. exact Ls. }
         split; [done|]. intros j f _. unfold owed. rewrite Ep, Hp. change (tail_entries (dir_left p it)) with (tail_entries it).
         change (ahead m (dir_left p it) j) with (ahead m it j). change (e :: es) with ([e] ++ es). rewrite named_app. unfold named at 1. cbn [List.filter].
         destruct (bool_decide (de_name e = mf_name f)); cbn [length]; lia. }
    cbn [app] in Ls. destruct (loop_load fuel d it Ep) as (off & E). rewrite E. clear E.
    assert (match di_chain it with Some ci => ci_next ci = None | None => True end ->
      exists it' x, (let it1 := mk_dir_iter None None [] (di_location it) off (di_error it) (di_border it) (di_on_border it) in
             match di_tail it with
             | Some (Ok s) => dir_loop fuel d (dir_load s it1)
             | Some (Err e) => (it1, Some (Err e)) | Some Panic => (it1, Some Panic) | Some NoFuel => (it1, Some NoFuel)
             | None => (it1, None) end) = (it', x) /\ listing_at m it' S
      /\ match x with
         | Some (Ok e) => S e /\ forall j f, slot_at m j = Some f ->
             owed m it j (mf_name f) = owed m it' j (mf_name f) + (if bool_decide (de_name e = mf_name f) then 1 else 0)
         | None => forall j f, slot_at m j = Some f -> owed m it j (mf_name f) = 0 /\ owed m it' j (mf_name f) = 0
         | _ => False
         end) as Htail.
    { intros Hover. cbn zeta. set (it1 := mk_dir_iter None None [] _ off _ _ _).
      assert (forall j, ahead m it j = 0) as Hah.
      { intros j. unfold ahead. destruct (di_chain it) as [ci|]; [|done]. by rewrite Hover. }
      destruct (di_tail it) as [[s|e| |]|] eqn:Et; try done.
      - assert (pend (dir_load s it1) = tail_entries it) as Hp.
        { unfold pend, tail_entries. rewrite Et. unfold dir_load. cbn [di_on_border di_location di_offset di_chunks].
          replace (match di_border it1 with Some l => bool_decide (l = cs_location s) | None => di_on_border it1 end) with true; [done|].
          cbn [it1 di_border]. rewrite Lb. unfold border in Lt. destruct (h_geos (md_header m)) as [gh|]; [|done]. injection Lt as Lt. cbn. by rewrite bool_decide_eq_true_2. }
        destruct (IH (dir_load s it1) S) as (it' & x & Ex & L' & Hx).
        + split; [done|done| | | |].
          * intros Hg. unfold border in Lt. by rewrite Hg in Lt.
          * by right.
          * done.
          * rewrite Hp. cbn [dir_load it1 tail_entries di_tail]. rewrite app_nil_r. exact Ls.
        + done.
        + unfold more in Hf. rewrite Et in Hf. unfold more. cbn. cbn in Hf. lia.
        + exists it', x. split; [done|]. split; [done|].
          assert (forall j name, owed m it j name = owed m (dir_load s it1) j name) as Ho.
          { intros j name. unfold owed. rewrite Ep, Hp, Hah. cbn. lia. }
          destruct x as [[e|e| |]|]; try done.
          * split; [apply Hx|]. intros j f Hj. rewrite Ho. by apply Hx.
          * intros j f Hj. rewrite Ho. by apply Hx.
      - exists it1, None. split; [done|]. split; [split; [done|done|done|by right|done|constructor]|]. intros j f Hj. unfold owed. rewrite Ep, Hah.
        unfold tail_entries. rewrite Et. done. }
    unfold dir_next_block, dir_left. cbn [di_chain di_tail di_chunks di_location di_offset di_error di_border di_on_border fst snd].
    destruct Lc as [(k & Hk & Ec)|Hover].
    2: { specialize (Htail Hover). destruct (di_chain it) as [ci|].
         - unfold chain_next. rewrite Hover. by destruct (di_tail it) as [[?|?| |]|].
         - by destruct (di_tail it) as [[?|?| |]|]. }
    clear Htail. rewrite Ec. destruct (lookup_lt_is_Some_2 (md_dir m) k Hk) as [l Hl].
    destruct (next_dir k l Hl) as (b & Hb & Hsl & ->). set (it1 := mk_dir_iter (Some (at_sector (md_dir m) (Datatypes.S k))) _ [] _ off _ _ _).
    destruct (load_dir k l b it1 Hl Hsl Lb Lf) as [Hp Hfl].
    assert (length (rev (take k (md_dir m))) = k) as Hlk by (rewrite rev_length, take_length; lia).
    destruct (IH (dir_load (mk_cs b l) it1) S) as (it' & x & Ex & L' & Hx).
    - split; [done|done|done| |done|].
      + cbn [dir_load it1 di_chain]. destruct (decide (Datatypes.S k < length (md_dir m))) as [H|H]; [left; by exists (Datatypes.S k)|].
        right. unfold at_sector. cbn [ci_next]. apply lookup_ge_None_2. lia.
      + apply Forall_app. split; [|exact Ls]. rewrite Hp. apply Forall_forall. intros e He%elem_of_list_In. apply HS.
        eapply slots_listed; [|exact He]. rewrite secs_length. unfold border_slots. lia.
    - done.
    - unfold more in *. rewrite Ec in Hf. cbn [dir_load it1 di_chain di_tail]. unfold at_sector in *. cbn [ci_next ci_visited] in *. rewrite Hl, Hlk in Hf.
      destruct (md_dir m !! Datatypes.S k) eqn:E; [|lia]. rewrite rev_length, take_length. apply lookup_lt_Some in E. lia.
    - exists it', x. split; [done|]. split; [done|].
      assert (forall j f, slot_at m j = Some f -> owed m it j (mf_name f) = owed m (dir_load (mk_cs b l) it1) j (mf_name f)) as Ho.
      { intros j f Hj. unfold owed. rewrite Ep, Hp, (named_slots m j f _ _ Hn Hj). change (tail_entries (dir_load _ it1)) with (tail_entries it).
        unfold ahead. rewrite Ec. cbn [dir_load it1 di_chain]. unfold at_sector. cbn [ci_next ci_visited]. rewrite Hl, Hlk.
        assert (length (rev (take (Datatypes.S k) (md_dir m))) = Datatypes.S k) as -> by (rewrite rev_length, take_length; lia).
        assert (j < border_slots m + 8 * length (md_dir m)) as Hj'.
        { apply slot_at_Some in Hj. pose proof (view_slot_lt _ _ _ V _ _ Hj) as H. rewrite secs_length in H. unfold border_slots. lia. }
        assert (named (mf_name f) [] = 0) as -> by done.
        destruct (md_dir m !! Datatypes.S k) as [l'|] eqn:E.
        - destruct (Nat.leb_spec (border_slots m + 8 * k) j), (Nat.ltb_spec j (border_slots m + 8 * k + 8)),
            (Nat.leb_spec (border_slots m + 8 * Datatypes.S k) j); cbn [andb]; lia.
        - apply lookup_ge_None in E.
          destruct (Nat.leb_spec (border_slots m + 8 * k) j), (Nat.ltb_spec j (border_slots m + 8 * k + 8)); cbn [andb]; lia. }
      destruct x as [[e|e| |]|]; try done.
      + split; [apply Hx|]. intros j f Hj. rewrite Ho by done. by apply Hx.
      + intros j f Hj. rewrite Ho by done. by apply Hx.
  Qed.
End one.
