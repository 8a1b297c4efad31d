(** Proofs about the commands of cdisk. *)
From Verif Require Import Base ListFacts Layout Image Block Bam Format Petscii GeosTypes DirEntry Header World Chain Directory Writer Rel GeosFile
  File Validate Spec SpecChain SpecBam SpecFiles SpecValidate SpecKinds Session SpecDisk Cdisk SpecTool DevFacts View ChainProofs OpFile OpWrite Refine Tables Trace SoundImage ReadOnly ReadOnlyMore.
Ltac Zify.zify_post_hook ::= Z.div_mod_to_equations.

(** ** Reading does not depend on how the image was opened *)

Section mode.
  Context (m : bool) (d : dev).
  Notation d' := (with_mode m d).

  Lemma mode_sector l : sector d' l = sector d l. Proof. done. Qed.
  Lemma mode_next it : chain_next d' it = chain_next d it. Proof. done. Qed.
  Lemma mode_collect fuel it : chain_collect fuel d' it = chain_collect fuel d it.
  Proof.
    revert it. induction fuel as [|fuel IH]; intros it; [done|]. simpl. rewrite mode_next.
    destruct (chain_next d it) as [it' [[]|]]; try done. by rewrite IH.
  Qed.
  Lemma mode_walk l : chain_walk d' l = chain_walk d l. Proof. apply mode_collect. Qed.
  Lemma mode_locations l : chain_locations d' l = chain_locations d l.
  Proof. unfold chain_locations. by rewrite mode_walk. Qed.
  Lemma mode_reader_loop fuel r n : reader_loop fuel d' r n = reader_loop fuel d r n.
  Proof.
    revert r n. induction fuel as [|fuel IH]; intros r n; [done|]. simpl. rewrite mode_next.
    destruct (_ || _); [done|]. destruct (cr_block r).
    - by rewrite IH.
    - destruct (chain_next d (cr_chain r)) as [it' [[]|]]; try done; by rewrite IH.
  Qed.
  Lemma mode_read r n : reader_read d' r n = reader_read d r n. Proof. apply mode_reader_loop. Qed.
  Lemma mode_tail_loop fuel l b : tail_loop fuel d' l b = tail_loop fuel d l b.
  Proof.
    revert l b. induction fuel as [|fuel IH]; intros l b; [done|]. simpl. destruct (link_new b) as [[l'|]| | |]; try done.
    simpl. rewrite mode_sector. destruct (sector d l'); try done. simpl. apply IH.
  Qed.
  Lemma mode_tail l : find_tail d' l = find_tail d l.
  Proof. unfold find_tail, find_tail_fuel. rewrite mode_sector. destruct (sector d l); try done. apply mode_tail_loop. Qed.
  Lemma mode_bam_sections ss : bam_read_sections d' ss = bam_read_sections d ss.
  Proof. induction ss as [|s ss IH]; [done|]. simpl. by rewrite IH. Qed.
  Lemma mode_bam f : bam_read d' f = bam_read d f.
  Proof. unfold bam_read. by rewrite mode_bam_sections. Qed.
  Lemma mode_header hf : header_read d' hf = header_read d hf. Proof. done. Qed.
  Lemma mode_open t : open_world t d' = set_dev d' (open_world t d).
  Proof.
    unfold open_world, initialize. simpl. rewrite mode_bam. change (header_read d') with (header_read d).
    destruct (res_ok (header_read d _)) as [h|]; [|done]. simpl. by destruct (res_ok (bam_read d _)).
  Qed.
  Lemma mode_dirs f h : directory_sectors d' f h = directory_sectors d f h.
  Proof. unfold directory_sectors. by rewrite mode_walk. Qed.
  Lemma mode_iter w : w_dev w = d -> w_iter (set_dev d' w) = w_iter w.
  Proof. intros Hw. unfold w_iter. destruct w as [t dv [h|] [f|] b cs]; try done. simpl in *. by rewrite Hw, mode_dirs. Qed.
  Lemma mode_find w name : w_dev w = d -> w_find (set_dev d' w) name = w_find w name.
  Proof. intros Hw. unfold w_find. by rewrite mode_iter. Qed.
  Lemma mode_rel c e : rel_new d' c e = rel_new d c e.
  Proof. unfold rel_new. destruct (de_extra e); try done; simpl; by rewrite mode_walk. Qed.
  Lemma mode_open_file w name : w_dev w = d -> open_file (set_dev d' w) name = open_file w name.
  Proof.
    intros Hw. unfold open_file. rewrite mode_find by done. destruct (w_find w name) as [e| | |]; try done. simpl.
    unfold open_file_from_entry. change (w_get_bam (set_dev d' w)) with (w_get_bam w).
    change (w_dev (set_dev d' w)) with d'. destruct (w_get_bam w); try done. simpl. rewrite Hw, mode_rel. done.
  Qed.
  Lemma mode_file_writer f : file_writer d' f = file_writer d f.
  Proof. destruct f; try done. simpl. unfold writer_new. by rewrite mode_tail. Qed.
End mode.

(** ** Copying a chain out of the image *)

Lemma copy_out_spec d fuel n : forall r ss e cf,
  0 < n -> cr_eof r = false -> chain_collect cf d (cr_chain r) = (ss, e) -> ended e ->
  length ss <= length (d_blocks d) ->
  length (stream_of r ss) + 1 < fuel ->
  copy_out (reader_read d) fuel r n
  = (match e with Ok _ => stream_of r ss | _ => take (length (stream_of r ss) / n * n) (stream_of r ss) end, e).
Proof.
  induction fuel as [|fuel IH]; intros r ss e cf Hn He Hc Hend Hlen Hf; [lia|].
  cbn [copy_out]. change (reader_read d r n) with (reader_loop (2 * length (d_blocks d) + 8) d r n).
  destruct (reader_loop_spec (2 * length (d_blocks d) + 8) d r n ss e cf He Hc Hend) as (r' & H1 & H2).
  { unfold block_cost. destruct (cr_block r); lia. }
  set (s := stream_of r ss) in *.
  destruct (Nat.le_gt_cases n (length s)) as [Hle|Hgt].
  - destruct (H1 Hle) as (-> & He' & ss' & cf' & Hc' & Hs' & Hl'). clear H1 H2.
    destruct (take n s) as [|x y] eqn:Et.
    { apply (f_equal length) in Et. rewrite take_length in Et. cbn in Et. lia. }
    rewrite <- Et. clear Et x y.
    rewrite (IH r' ss' e cf' Hn He' Hc' Hend) by (rewrite ?Hs', ?drop_length; lia).
    rewrite Hs', drop_length. f_equal.
    assert (length s / n = S ((length s - n) / n)) as Eq.
    { replace (length s) with (length s - n + 1 * n) at 1 by lia. rewrite Nat.div_add by lia. lia. }
    assert (take n s ++ take ((length s - n) / n * n) (drop n s) = take (length s / n * n) s) as Et.
    { rewrite Eq. cbn [Nat.mul]. by rewrite take_take_drop. }
    destruct e; [by rewrite take_drop|exact Et..].
  - destruct (H2 Hgt) as [-> He']. clear H1 H2.
    destruct Hend as [->|[x ->]].
    + cbn. destruct s as [|x y] eqn:Es; [done|].
      destruct fuel as [|fuel]; [cbn in Hf; lia|]. cbn [copy_out].
      change (reader_read d r' n) with (reader_loop (2 * length (d_blocks d) + 8) d r' n). assert (reader_loop (2 * length (d_blocks d) + 8) d r' n = (r', Ok [])) as ->.
      { rewrite Nat.add_comm. cbn [Nat.add reader_loop]. rewrite He', orb_true_r. done. }
      by rewrite app_nil_r.
    + cbn. rewrite Nat.div_small by done. done.
Qed.

(** The contents of a chain, as far as the copy goes. *)
Lemma stream_bound t d start ss e :
  dev_shape t d -> chain_walk d start = (ss, e) ->
  length (concat (map (fun s => drop 2 (cs_data s)) ss)) <= 254 * length ss.
Proof.
  intros Hd Hw. destruct (chain_traversal t d start Hd) as (ss' & r & Hw' & _ & _ & _ & _ & _ & Hall & _).
  rewrite Hw in Hw'. injection Hw' as <- <-. clear Hw.
  induction Hall as [|s ss (b & Hb & Hs) Hall IH]; [done|]. cbn. rewrite app_length, Hs, drop_length.
  pose proof (sector_Ok_length t d _ b Hd Hb). unfold used_part. destruct (_ =? _); rewrite ?take_length; lia.
Qed.

Lemma copy_chain t d start ss e n :
  dev_shape t d -> chain_walk d start = (ss, e) -> 0 < n ->
  let c := concat (map (fun s => drop 2 (cs_data s)) ss) in
  copy_out (reader_read d) (copy_fuel d) (reader_new start) n
  = (match e with Ok _ => c | _ => take (length c / n * n) c end, e) /\ ended e.
Proof.
  intros Hd Hw Hn c. destruct (walk_end_ended t d start ss e Hd Hw) as [He Hl]. split; [|done].
  rewrite (copy_out_spec d (copy_fuel d) n (reader_new start) ss e (chain_fuel d)); [done|done|done|exact Hw|done|..].
  - by rewrite (ds_count t d Hd).
  - pose proof (stream_bound t d start ss e Hd Hw) as H. change (stream_of (reader_new start) ss) with c. unfold copy_fuel.
    rewrite (ds_count t d Hd). fold c in H. lia.
Qed.

(** ** From commands to histories of calls *)

Lemma mode_same d : d_writable d = true -> with_mode true d = d.
Proof. destruct d; cbn. by intros ->. Qed.

Lemma reached_dev t a s : reached t a s -> dev_shape t (w_dev (s_world s)) /\ d_writable (w_dev (s_world s)) = true /\ w_type (s_world s) = t.
Proof.
  intros (m & c & b & R)%reached_related. pose proof (rl_wok _ _ _ _ _ _ R) as W.
  split; [apply (v_shape t _ m), W|]. split; [apply (v_writable t _ m), W|apply W].
Qed.

Lemma reached_saved t a s : reached t a s -> saved (s_world s) = w_dev (s_world s).
Proof. intros Hr. apply mode_same, (reached_dev t a s Hr). Qed.

(** Between two commands the image is opened again. *)
Lemma image_session t a d :
  image_of t a d -> reached t a (start t d) /\ d_writable d = true /\ dev_shape t d /\ a = table (as_label a) (as_dirs a) (as_border a) (as_slots a).
Proof.
  intros (s & Hr & Ha & <-). destruct (reached_dev t a s Hr) as (Hd & Hw & Ht).
  destruct (reached_step t a s OReopen a ADone Hr) as (s' & Hc & Hr').
  { rewrite Ha. done. }
  cbn in Hc. injection Hc as <-. rewrite Ht in Hr'. done.
Qed.

(** What a history leaves behind, its writers closed, is an image. *)
Lemma session_image t a s :
  reached t a s -> as_synced a = true -> writer_open a = false ->
  image_of t (table (as_label a) (as_dirs a) (as_border a) (as_slots a)) (saved (s_world s)).
Proof.
  intros Hr Hs Hw. rewrite (reached_saved t a s Hr).
  destruct (reached_step t a s OReopen (set_handles [] (set_writers [] a)) ADone Hr) as (s' & Hc & Hr').
  { cbn. by rewrite Hs, Hw. }
  cbn in Hc. injection Hc as <-. exists (mk_session (open_world (w_type (s_world s)) (w_dev (s_world s))) [] []).
  split; [|split; [done|]].
  - unfold table. replace true with (as_synced (set_handles [] (set_writers [] a))) by done. exact Hr'.
  - cbn. apply open_world_cells.
Qed.

Lemma same_image t a s : reached t a s -> a = table (as_label a) (as_dirs a) (as_border a) (as_slots a) -> image_of t a (saved (s_world s)).
Proof. intros Hr Ha. rewrite (reached_saved t a s Hr). by exists s. Qed.

(** Copying into a writer: what is accepted is what fits. *)
Lemma write_all_piece piece s : piece <> [] ->
  write_all (length piece) piece s = (do! _ := writer_write piece in ret tt) s.
Proof.
  intros Hp. destruct piece as [|x y]; [done|]. cbn [length write_all].
  unfold sbind. destruct (writer_write (x :: y) s) as [s' [n| | |]] eqn:E; try done.
  assert (n = length (x :: y)) as ->.
  { unfold writer_write, sbind in E. destruct (on_writer _ s) as [s1 []]; try done.
    destruct (write_loop _ _ s1) as [s2 []]; try done. cbn in E. by injection E as _ <-. }
  cbn [length Nat.eqb]. rewrite drop_ge by (cbn; lia). by destruct y.
Qed.

Lemma awrite_step t a s k i f pend piece :
  reached t a s -> as_writers a !! k = Some (Some (mk_awriter i pend true)) -> as_slots a !! i = Some (Some f) ->
  let all := a_data f ++ pend ++ piece in
  let room := 254 * (a_blocks f + blocks_left t a) in
  exists a' f' pend' r, astep t a (OWrite k piece) = Some (a', r)
    /\ as_writers a' = <[k := Some (mk_awriter i pend' true)]> (as_writers a)
    /\ as_slots a' = <[i := Some f']> (as_slots a)
    /\ as_label a' = as_label a /\ as_dirs a' = as_dirs a /\ as_border a' = as_border a
    /\ a_name f' = a_name f /\ a_attr f' = a_attr f /\ a_kind f' = a_kind f
    /\ a_blocks f' + blocks_left t a' = a_blocks f + blocks_left t a
    /\ a_data f' ++ pend' = take room all
    /\ r = if length all <=? room then ACount (length piece) else AError EDiskFull.
Proof.
  intros Hr Hk Hf all room. cbn [astep]. rewrite Hk. cbn [aw_slot aw_pend]. rewrite Hf. unfold write_to. fold all room.
  pose proof (used_bound t a s Hr) as Hub.
  assert (forall f1 w x, as_slots (if x : bool then put i (Some f1) (set_writers w a) else set_synced false (put i (Some f1) (set_writers w a)))
            = <[i := Some f1]> (as_slots a)) as Hsl by (intros ? ? []; done).
  assert (forall f1 w x, a_blocks f <= a_blocks f1 <= a_blocks f + blocks_left t a ->
            a_blocks f1 + blocks_left t (if x : bool then put i (Some f1) (set_writers w a) else set_synced false (put i (Some f1) (set_writers w a)))
            = a_blocks f + blocks_left t a) as Hbl.
  { intros f1 w x Hb. pose proof (used_put a i (Some f) (Some f1) Hf) as Hu. cbn [blocks_of] in Hu.
    unfold blocks_left, blocks_taken in *. unfold blocks_used in *. rewrite Hsl. cbn [put set_slots as_slots] in Hu.
    assert (as_border (if x then put i (Some f1) (set_writers w a) else set_synced false (put i (Some f1) (set_writers w a))) = as_border a) as -> by (by destruct x).
    lia. }
  destruct (Nat.leb_spec (length all) room) as [El|El].
  - set (nb := blocks_for (a_blocks f) (length all)).
    set (data := if nb =? a_blocks f then a_data f else take (254 * (nb - 1)) all).
    assert (data ++ drop (length data) all = all) as Hall.
    { unfold data. destruct (nb =? a_blocks f); [unfold all; by rewrite drop_app|]. apply take_rest. }
    eexists _, (mk_afile (a_name f) (a_attr f) nb data (a_kind f)), (drop (length data) all), _. split; [reflexivity|].
    cbn [a_blocks a_name a_attr a_data]. rewrite take_ge by done.
    split; [by destruct (nb =? _)|]. split; [by destruct (nb =? _)|].
    split; [by destruct (nb =? _)|]. split; [by destruct (nb =? _)|]. split; [by destruct (nb =? _)|]. split; [done|]. split; [done|]. split; [done|].
    split; [|done]. apply (Hbl (mk_afile (a_name f) (a_attr f) nb data (a_kind f))). cbn [a_blocks]. unfold nb, blocks_for, room in *. lia.
  - eexists _, (mk_afile (a_name f) (a_attr f) (a_blocks f + blocks_left t a) (take room all) (a_kind f)), [], _. split; [reflexivity|].
    cbn [a_blocks a_name a_attr a_data]. rewrite app_nil_r.
    split; [by destruct (_ =? _)|]. split; [by destruct (_ =? _)|].
    split; [by destruct (_ =? _)|]. split; [by destruct (_ =? _)|]. split; [by destruct (_ =? _)|]. split; [done|]. split; [done|]. split; [done|].
    split; [|done]. apply (Hbl (mk_afile (a_name f) (a_attr f) (a_blocks f + blocks_left t a) (take room all) (a_kind f))). cbn [a_blocks]. lia.
Qed.

Lemma copy_in_run t k i source : forall a s w x f pend,
  reached t a s -> as_writers a !! k = Some (Some (mk_awriter i pend true)) -> as_slots a !! i = Some (Some f) ->
  s_world s = w -> s_writers s !! k = Some (Some x) ->
  let all := a_data f ++ pend ++ concat source in
  let room := 254 * (a_blocks f + blocks_left t a) in
  exists a' s' x' f' pend',
    copy_in source (w, x) = ((s_world s', x'), if length all <=? room then Ok tt else Err EDiskFull)
    /\ reached t a' s' /\ s_writers s' !! k = Some (Some x')
    /\ as_writers a' = <[k := Some (mk_awriter i pend' true)]> (as_writers a)
    /\ as_slots a' = <[i := Some f']> (as_slots a)
    /\ as_label a' = as_label a /\ as_dirs a' = as_dirs a /\ as_border a' = as_border a
    /\ a_name f' = a_name f /\ a_attr f' = a_attr f /\ a_kind f' = a_kind f
    /\ a_data f' ++ pend' = take room all.
Proof.
  induction source as [|piece source IH]; intros a s w x f pend Hr Hk Hf <- Hx all room.
  - assert (length all <= room) as Hle.
    { pose proof (ti_writer a (reached_tidy t a s Hr) k _ f Hk Hf) as Hb. cbn in Hb. unfold all, room. cbn. rewrite app_nil_r.
      unfold blocks_for in Hb. lia. }
    exists a, s, x, f, pend. rewrite (proj2 (Nat.leb_le _ _) Hle). split; [done|].
    rewrite !list_insert_id by done. rewrite take_ge by done. unfold all. cbn. rewrite app_nil_r. done.
  - destruct (decide (piece = [])) as [->|Hp].
    { destruct (IH a s _ x f pend Hr Hk Hf eq_refl Hx) as (a' & s' & x' & f' & pend' & Hc & H). by exists a', s', x', f', pend'. }
    destruct (awrite_step t a s k i f pend piece Hr Hk Hf) as (a1 & f1 & pend1 & r & Ha1 & Hw1 & Hs1 & L1 & D1 & O1 & N1 & T1 & P1 & B1 & C1 & R1).
    destruct (reached_step t a s _ a1 r Hr Ha1) as (s1 & Hc1 & Hr1).
    cbn [call] in Hc1. rewrite Hx in Hc1. destruct (writer_write piece (s_world s, x)) as [[w1 x1] res] eqn:Ew.
    injection Hc1 as <- Hans. fold room in C1, R1.
    assert (i < length (as_slots a)) as Hi by by eapply lookup_lt_Some.
    assert (k < length (as_writers a)) as Hka by by eapply lookup_lt_Some.
    assert (k < length (s_writers s)) as Hkl by by eapply lookup_lt_Some.
    assert (all = (a_data f ++ pend ++ piece) ++ concat source) as Eall by (unfold all; cbn; by rewrite <- !app_assoc).
    set (part := a_data f ++ pend ++ piece) in *.
    assert (copy_in (piece :: source) (s_world s, x) = (do_ (do! _ := writer_write piece in ret tt) in copy_in source) (s_world s, x)) as ->.
    { unfold copy_in at 1. cbn [for_each]. unfold sbind at 1. rewrite (write_all_piece piece _ Hp). done. }
    unfold sbind. rewrite Ew.
    destruct (Nat.leb_spec (length part) room) as [Hle|Hgt]; subst r.
    + assert (exists n, res = Ok n) as (n & ->) by (destruct res as [n| | |]; try done; by exists n).
      cbn [ret]. rewrite take_ge in C1 by done.
      destruct (IH a1 (mk_session w1 (s_handles s) (<[k := Some x1]> (s_writers s))) w1 x1 f1 pend1 Hr1) as (a' & s' & x' & f' & pend' & Hc & Hr' & Hx' & Hw' & Hs' & L' & D' & O' & N' & T' & P' & C').
      * rewrite Hw1. by apply list_lookup_insert.
      * rewrite Hs1. by apply list_lookup_insert.
      * done.
      * cbn. by apply list_lookup_insert.
      * rewrite B1 in Hc, C'. fold room in Hc, C'. rewrite app_assoc, C1, <- Eall in Hc, C'.
        exists a', s', x', f', pend'. split; [exact Hc|]. split; [done|]. split; [done|].
        rewrite Hw', Hw1, Hs', Hs1, !list_insert_insert, L', D', O', N', T', P', C'. done.
    + assert (res = Err EDiskFull) as -> by (destruct res; try done; cbn in Hans; congruence).
      eexists a1, _, x1, f1, pend1. split; [|split; [exact Hr1|]].
      * cbn. replace (length all <=? room) with false; [done|]. symmetry. apply Nat.leb_gt. rewrite Eall, app_length. lia.
      * cbn. split; [by apply list_lookup_insert|]. do 8 (split; [done|]).
        rewrite C1, Eall, take_app_le by lia. done.
Qed.

(** A fresh writer, filled, flushed and dropped. *)
Lemma fill_run t a s h i f source :
  reached t a s -> as_handles a !! h = Some (Some i) -> as_slots a !! i = Some (Some f) -> a_special f = false -> as_writers a = [] ->
  let all := a_data f ++ concat source in
  let room := 254 * (a_blocks f + blocks_left t a) in
  exists x k s' a',
    s_handles s !! h = Some x /\ file_writer (w_dev (s_world s)) x = Ok k
    /\ fill_writer source (s_world s) k = (s_world s', if length all <=? room then Ok tt else Err EDiskFull)
    /\ reached t a' s' /\ as_synced a' = true /\ writer_open a' = false
    /\ as_label a' = as_label a /\ as_dirs a' = as_dirs a /\ as_border a' = as_border a
    /\ as_slots a' = <[i := Some (mk_afile (a_name f) (a_attr f) (blocks_for 1 (Nat.min room (length all))) (take room all) KPlain)]> (as_slots a).
Proof.
  intros Hr Hh Hf Hpl Hws all room.
  set (a1 := set_writers [Some (mk_awriter i [] true)] a).
  destruct (reached_step t a s (OWriter h) a1 (AIndex 0) Hr) as (s1 & Hc1 & Hr1).
  { cbn [astep]. unfold file_of, writer_on. rewrite Hh, Hf, Hpl, Hws. done. }
  cbn [call] in Hc1. destruct (s_handles s !! h) as [x|] eqn:Ex; [|done]. exists x.
  destruct (file_writer (w_dev (s_world s)) x) as [k| | |] eqn:Ek; try done. exists k.
  assert (s_writers s = []) as Hsw.
  { destruct (counts t a s Hr) as [_ Hn]. rewrite Hws in Hn. by destruct (s_writers s). }
  rewrite Hsw in Hc1. injection Hc1 as <-.
  destruct (copy_in_run t 0 i source a1 _ (s_world s) k f [] Hr1 eq_refl Hf eq_refl eq_refl) as (a2 & s2 & k2 & f2 & pend & Hc & Hr2 & Hk2 & Hw2 & Hs2 & L2 & D2 & O2 & N2 & T2 & P2 & C2).
  fold room in Hc, C2. change (blocks_left t a1) with (blocks_left t a) in *. cbn [app] in Hc, C2. fold all room in Hc, C2.
  change (as_slots a1) with (as_slots a) in Hs2. cbn in Hw2.
  assert (i < length (as_slots a)) as Hi by by eapply lookup_lt_Some.
  assert (as_slots a2 !! i = Some (Some f2)) as Hf2 by (rewrite Hs2; by apply list_lookup_insert).
  assert (a_blocks f2 = blocks_for 1 (Nat.min room (length all))) as Hb2.
  { rewrite (ti_writer a2 (reached_tidy t a2 s2 Hr2) 0 (mk_awriter i pend true) f2); [|by rewrite Hw2|done].
    cbn. by rewrite C2, take_length. }
  assert (forall x, aw_slot x = i -> aw_pend x = pend -> aw_dirty x = true -> forall a3, as_slots a3 = as_slots a2 ->
     settle x a3 = set_synced true (set_slots (<[i := Some (mk_afile (a_name f) (a_attr f) (a_blocks f2) (take room all) KPlain)]> (as_slots a)) a3)) as Hset.
  { intros y <- <- Hy a3 H3. unfold settle. rewrite Hy, H3, Hf2, C2, N2, T2, P2, (plain_afile _ Hpl). unfold put. rewrite H3, Hs2, list_insert_insert. done. }
  unfold fill_writer, sbind. rewrite Hc. rewrite <- Hb2.
  destruct (length all <=? room).
  - (* flush, then drop *)
    set (a3 := set_writers [Some (mk_awriter i [] false)] a2).
    destruct (reached_step t a2 s2 (OFlush 0) (settle (mk_awriter i pend true) a3) ADone Hr2) as (s3 & Hc3 & Hr3).
    { cbn [astep]. rewrite Hw2. done. }
    cbn [call] in Hc3. rewrite Hk2 in Hc3. destruct (writer_flush (s_world s2, k2)) as [[w3 k3] r3] eqn:E3.
    assert (s_writers s2 = [Some k2]) as Hsw2.
    { destruct (counts t a2 s2 Hr2) as [_ Hn]. rewrite Hw2 in Hn. destruct (s_writers s2) as [|y [|]]; try done. by injection Hk2 as ->. }
    injection Hc3 as <- Hans. assert (r3 = Ok tt) as -> by (destruct r3 as [[]| | |]; done).
    rewrite (Hset (mk_awriter i pend true) eq_refl eq_refl eq_refl a3 eq_refl) in Hr3.
    set (a4 := set_synced true _) in Hr3.
    destruct (reached_step t a4 _ (OClose 0) (set_writers [None] a4) ADone Hr3) as (s5 & Hc5 & Hr5).
    { cbn [astep a4 a3 set_synced set_slots set_writers as_writers]. done. }
    cbn [call s_writers] in Hc5. rewrite Hsw2 in Hc5. cbn in Hc5. injection Hc5 as <-.
    eexists (mk_session (writer_drop k3 w3) _ _), (set_writers [None] a4). split; [done|]. split; [done|]. split; [reflexivity|]. split; [exact Hr5|]. done.
  - set (a3 := set_writers [None] a2).
    destruct (reached_step t a2 s2 (OClose 0) (settle (mk_awriter i pend true) a3) ADone Hr2) as (s3 & Hc3 & Hr3).
    { cbn [astep]. rewrite Hw2. done. }
    cbn [call] in Hc3. rewrite Hk2 in Hc3. injection Hc3 as <-.
    rewrite (Hset (mk_awriter i pend true) eq_refl eq_refl eq_refl a3 eq_refl) in Hr3.
    eexists (mk_session (writer_drop k2 (s_world s2)) _ _), _. split; [done|]. split; [done|]. split; [reflexivity|]. split; [exact Hr3|]. done.
Qed.

(** ** The commands *)

Lemma tool_open_true t d : d_writable d = true -> tool_open t true d = open_world t d.
Proof. intros H. unfold tool_open. by rewrite mode_same. Qed.
Lemma tool_open_false t d : tool_open t false d = set_dev (with_mode false d) (open_world t d).
Proof. apply mode_open. Qed.

Lemma slot_where_some p os i : slot_where p os = Some i -> exists o, os !! i = Some o /\ p o = true.
Proof.
  revert i. induction os as [|o os IH]; intros i; [done|]. cbn. destruct (p o) eqn:E.
  - intros [= <-]. by exists o.
  - destruct (slot_where p os) as [j|]; [|done]. cbn. intros [= <-]. by apply IH.
Qed.
Lemma named_file a name i : slot_named a name = Some i -> exists f, as_slots a !! i = Some (Some f) /\ a_name f = name.
Proof.
  intros (o & Ho & Hp)%slot_where_some. destruct o as [f|]; [|done]. cbn in Hp. apply bool_decide_eq_true in Hp. by exists f.
Qed.

Section commands.
  Context (t : disk_type) (a : astate) (d : dev) (Hi : image_of t a d).

  Let Hr : reached t a (start t d) := proj1 (image_session t a d Hi).
  Let Hw : d_writable d = true := proj1 (proj2 (image_session t a d Hi)).
  Let Hd : dev_shape t d := proj1 (proj2 (proj2 (image_session t a d Hi))).
  Let Ha : a = table (as_label a) (as_dirs a) (as_border a) (as_slots a) := proj2 (proj2 (proj2 (image_session t a d Hi))).

  Lemma open_missing name : slot_named a name = None -> open_file (open_world t d) name = Err ENotFound.
  Proof.
    intros Hn. destruct (reached_step t a _ (OOpen name) a (AError ENotFound) Hr) as (s' & Hc & _); [cbn; by rewrite Hn|].
    cbn in Hc. destruct (open_file (open_world t d) name); cbn in Hc; congruence.
  Qed.
  Lemma open_there name i f :
    slot_named a name = Some i -> as_slots a !! i = Some (Some f) -> a_special f = false ->
    exists c e, open_file (open_world t d) name = Ok (FLinear c e) /\ read_all d (de_first e) = Ok (a_data f)
      /\ reached t (set_handles [Some i] a) (mk_session (open_world t d) [FLinear c e] []).
  Proof.
    intros Hn Hf Hpl. assert (as_handles a = [] /\ as_writers a = []) as [Hh Hws] by (rewrite Ha; done).
    destruct (reached_step t a _ (OOpen name) (set_handles [Some i] a) (AIndex 0) Hr) as (s' & Hc & Hr').
    { cbn [astep]. by rewrite Hn, Hh. }
    cbn in Hc. destruct (open_file (open_world t d) name) as [x| | |]; try done. injection Hc as <-.
    destruct (reached_related _ _ _ Hr') as (m & c & b & R).
    pose proof (rl_handles _ _ _ _ _ _ R) as HF. cbn in HF. apply Forall2_cons in HF as [Hx _]. cbn in Hx.
    destruct Hx as [Hx|(g & Hg & Hsp)].
    2: { exfalso. pose proof (rl_slots _ _ _ _ _ _ R) as Hsl. cbn [set_handles as_slots] in Hsl. rewrite Hsl, (abs_lookup _ _ _ Hg) in Hf.
         injection Hf as <-. destruct Hsp as (y & e0 & Hy & _). by rewrite (plain_kind t _ _ _ _ (rl_view _ _ _ _ _ _ R) Hg Hpl) in Hy. }
    destruct (hk_file _ _ _ _ Hx) as (g & e & ex & _ & -> & _). exists c, e. split; [done|]. split; [|done].
    destruct (reached_step _ _ _ (ORecord 0 0) (set_handles [Some i] a) (ABytes (a_data f)) Hr') as (s'' & Hc' & _).
    { cbn [astep]. unfold file_of. cbn. by rewrite Hf, Hpl. }
    apply (f_equal snd) in Hc'. change (answer_of (read_all (w_dev (open_world t d)) (de_first e)) ABytes = ABytes (a_data f)) in Hc'.
    rewrite (proj2 (proj2 (open_world_cells t d))) in Hc'.
    destruct (read_all d (de_first e)); cbn in Hc'; congruence.
  Qed.

  Lemma open_records name i f :
    slot_named a name = Some i -> as_slots a !! i = Some (Some f) -> a_kind f <> KPlain ->
    exists x, open_file (open_world t d) name = Ok x /\ reads_as d x (a_kind f).
  Proof.
    intros Hn Hf Hk. destruct (named_file a _ i Hn) as (g & Hg & <-). rewrite Hf in Hg. injection Hg as <-.
    assert (shows (open_world t d) f) as [(x & Hx & Hc) _] by (apply (reached_shows t a _ f Hr); by exists i).
    rewrite (proj2 (proj2 (open_world_cells t d))) in Hc. exists x. split; [done|]. destruct x; [by destruct Hc|apply Hc..].
  Qed.

  (** A file that can be read from the beginning to the end. *)
  Lemma open_stream name i f data :
    slot_named a name = Some i -> as_slots a !! i = Some (Some f) -> read_of f = RBytes data ->
    exists x l, open_file (open_world t d) name = Ok x /\ file_reader x = Ok (reader_new l) /\ read_all d l = Ok data.
  Proof.
    intros Hn Hf Hrd. unfold read_of in Hrd. destruct (a_kind f) as [|td rs|bs] eqn:Ek; [|done|].
    - destruct (open_there name i f Hn Hf) as (c & e & Ho & Hre & _); [unfold a_special; by rewrite Ek|].
      injection Hrd as <-. by exists (FLinear c e), (de_first e).
    - injection Hrd as ->. destruct (open_records name i f Hn Hf) as (x & Ho & Hx); [by rewrite Ek|]. rewrite Ek in Hx.
      destruct Hx as (_ & H1 & H2 & _). exists x. specialize (H1 1). specialize (H2 []). unfold read_through in H2.
      destruct x as [c e|g|g|g]; try done; cbn [file_reader file_record] in *; unfold geos_linear_reader, geos_record, record_start in *;
        destruct (gf_vlir g); try done; cbn [rbind] in *; by eexists.
  Qed.

  Lemma tool_read name n f i data :
    0 < n -> slot_named a name = Some i -> as_slots a !! i = Some (Some f) -> read_of f = RBytes data ->
    (let w := tool_open t false d in
     match (let? f := open_file w name in file_reader f) with
     | Ok r => let '(out, e) := copy_out (reader_read (w_dev w)) (copy_fuel d) r n in (Some out, e)
     | r => (None, done r)
     end) = (Some data, Ok tt).
  Proof.
    intros Hn Hs Hf Hpl. destruct (open_stream name i f data Hs Hf Hpl) as (x & l & Ho & Hrd & Hread).
    cbv zeta. rewrite tool_open_false, mode_open_file by apply open_world_cells. rewrite Ho. cbn [rbind]. rewrite Hrd.
    change (w_dev (set_dev _ _)) with (with_mode false d).
    unfold read_all in Hread. destruct (chain_walk d l) as [ss r] eqn:Ew. unfold all_or_error in Hread. cbn in Hread.
    destruct r as [[]| | |]; try done. cbn in Hread. apply Ok_inj in Hread.
    assert (dev_shape t (with_mode false d)) as Hd' by (destruct Hd; by constructor).
    destruct (copy_chain t (with_mode false d) l ss (Ok tt) n Hd') as [Hc _]; [by rewrite mode_walk|done|].
    change (copy_fuel (with_mode false d)) with (copy_fuel d) in Hc. rewrite Hc. by rewrite Hread.
  Qed.
End commands.

(** ** Appending: a writer on an image opened read-only *)

Definition tail_block (k : writer) : Prop :=
  length (cw_block k) = 256 /\ cw_block k !!! 0 = 0 /\ 1 <= cw_block k !!! 1 <= 255.

Lemma locked_current w k :
  d_writable (w_dev w) = false -> write_current_block (w, k) = ((w, k), Err EReadOnly).
Proof.
  intros Hw. unfold write_current_block, sbind, the_writer, gets, on_world, on_dev, zoom. cbn [fst snd].
  rewrite sector_mut_ro by done. cbn. by rewrite set_dev_same.
Qed.
Lemma locked_allocate w k :
  d_writable (w_dev w) = false -> allocate_next_block (w, k) = ((w, k), Err EReadOnly).
Proof. intros Hw. unfold allocate_next_block. unfold sbind at 1. by rewrite locked_current. Qed.

Lemma locked_loop fuel : forall buf w k,
  d_writable (w_dev w) = false -> tail_block k -> length buf <= fuel ->
  exists k' r, write_loop fuel buf (w, k) = ((w, k'), r) /\ cw_dirty k' = cw_dirty k
    /\ ((r = Ok tt /\ tail_block k') \/ r = Err EReadOnly).
Proof.
  induction fuel as [|fuel IH]; intros [|x buf] w k Hw Hk Hf; try (cbn in Hf; lia).
  1, 2: exists k, (Ok tt); split; [done|]; split; [done|]; by left.
  pose proof Hk as (Hl & H0 & H1). cbn [write_loop].
  unfold sbind at 1, the_writer, gets. cbn [snd].
  assert (link_new (cw_block k) = Ok (Tail (cw_block k !!! 1 + 1))) as El.
  { unfold link_new. rewrite H0, (proj2 (Nat.ltb_ge (cw_block k !!! 1) 1)) by lia. done. }
  unfold sbind at 1, lift. rewrite El. cbn beta iota.
  destruct (Nat.eqb_spec (cw_block k !!! 1 + 1) BLOCK_SIZE) as [E|E].
  - unfold sbind at 1 2. rewrite locked_allocate by done. exists k, (Err EReadOnly). split; [done|]. split; [done|]. by right.
  - unfold BLOCK_SIZE in *. set (off := cw_block k !!! 1 + 1) in *.
    unfold sbind at 1, ret. cbn beta iota zeta.
    set (nb := Nat.min (256 - off) (length (x :: buf))).
    assert (1 <= nb <= 256 - off) as Hnb by (unfold nb; cbn [length]; lia).
    unfold sbind at 1. cbn beta iota. cbn [snd].
    set (b1 := splice off (take nb (x :: buf)) (cw_block k)).
    assert (length b1 = 256) as Hb1 by (unfold b1; rewrite length_splice; rewrite ?Hl, ?take_length; lia).
    assert (link_to_bytes (Tail (off + nb)) b1 = Ok (splice 0 [0; off + nb - 1] b1)) as ->.
    { unfold link_to_bytes. rewrite Hb1. change (256 <? 2) with false. cbv iota.
      rewrite (proj2 (Nat.leb_le 2 (off + nb))), (proj2 (Nat.leb_le (off + nb) 256)) by lia. done. }
    unfold sbind at 1. cbn beta iota. unfold sbind at 1, on_writer, modify. cbn [fst snd].
    set (k1 := set_block (splice 0 [0; off + nb - 1] b1) k).
    assert (tail_block k1) as Hk1.
    { unfold tail_block, k1. cbn [set_block cw_block]. rewrite length_splice by (rewrite Hb1; cbn; lia).
      rewrite !lookup_total_splice by (rewrite Hb1; cbn; lia). cbn [length]. rewrite !decide_True by lia.
      change ([0; off + nb - 1] !!! (0 - 0)) with 0. change ([0; off + nb - 1] !!! (1 - 0)) with (off + nb - 1). lia. }
    destruct (IH (drop nb (x :: buf)) w k1 Hw Hk1) as (k' & r & Hr & Hdirty & H).
    { rewrite drop_length. cbn [length] in *. lia. }
    exists k', r. split; [exact Hr|]. split; [exact Hdirty|done].
Qed.

Lemma locked_write buf w k :
  d_writable (w_dev w) = false -> tail_block k -> cw_dirty k = true ->
  exists k' r, writer_write buf (w, k) = ((w, k'), r) /\ cw_dirty k' = true
    /\ ((r = Ok (length buf) /\ tail_block k') \/ r = Err EReadOnly).
Proof.
  intros Hw Hk Hdirty. unfold writer_write. unfold sbind at 1, on_writer, modify. cbn [fst snd].
  destruct (locked_loop (length buf) buf w (set_dirty true k) Hw Hk (le_n _)) as (k' & r & Hr & Hd & H).
  unfold sbind. rewrite Hr. destruct H as [[-> Hk']| ->].
  - exists k', (Ok (length buf)). split; [done|]. split; [exact Hd|]. by left.
  - exists k', (Err EReadOnly). split; [done|]. split; [exact Hd|]. by right.
Qed.

Lemma locked_copy source : forall w k,
  d_writable (w_dev w) = false -> tail_block k -> cw_dirty k = true ->
  exists k' r, copy_in source (w, k) = ((w, k'), r) /\ cw_dirty k' = true
    /\ ((r = Ok tt /\ tail_block k') \/ r = Err EReadOnly).
Proof.
  induction source as [|piece source IH]; intros w k Hw Hk Hdirty.
  - exists k, (Ok tt). split; [done|]. split; [done|]. by left.
  - destruct (decide (piece = [])) as [->|Hp]; [by apply IH|].
    unfold copy_in. cbn [for_each]. unfold sbind at 1. rewrite (write_all_piece piece _ Hp). unfold sbind.
    destruct (locked_write piece w k Hw Hk Hdirty) as (k1 & r & -> & Hd1 & [[-> Hk1]| ->]).
    + cbn [ret]. by apply IH.
    + exists k1, (Err EReadOnly). split; [done|]. split; [done|]. by right.
Qed.

Lemma locked_flush w k :
  d_writable (w_dev w) = false -> cw_dirty k = true -> writer_flush (w, k) = ((w, k), Err EReadOnly).
Proof.
  intros Hw Hk. unfold writer_flush. unfold sbind at 1, the_writer, gets. cbn [snd]. rewrite Hk. unfold sbind at 1. by rewrite locked_current.
Qed.

Lemma locked_fill source w k :
  d_writable (w_dev w) = false -> tail_block k -> cw_dirty k = true -> fill_writer source w k = (w, Err EReadOnly).
Proof.
  intros Hw Hk Hdirty. unfold fill_writer, sbind.
  destruct (locked_copy source w k Hw Hk Hdirty) as (k' & r & -> & Hd & [[-> Hk']| ->]).
  - rewrite locked_flush by done. unfold writer_drop. by rewrite locked_flush.
  - unfold writer_drop. by rewrite locked_flush.
Qed.

Lemma tail_loop_tail fuel d l b l' b' : tail_loop fuel d l b = Ok (l', b') -> exists n, link_new b' = Ok (Tail n).
Proof.
  revert l b. induction fuel as [|fuel IH]; intros l b; [done|]. cbn. destruct (link_new b) as [[l1|n]| | |] eqn:E; try done; cbn.
  - destruct (sector d l1); try done. apply IH.
  - intros [= <- <-]. by exists n.
Qed.
Lemma tail_loop_sector fuel d l b l' b' : sector d l = Ok b -> tail_loop fuel d l b = Ok (l', b') -> sector d l' = Ok b'.
Proof.
  revert l b. induction fuel as [|fuel IH]; intros l b Hs; [done|]. cbn. destruct (link_new b) as [[l1|n]| | |] eqn:E; try done; cbn.
  - destruct (sector d l1) eqn:E1; try done. cbn. by apply IH.
  - by intros [= <- <-].
Qed.

Lemma new_writer_tail t d c e l k : dev_shape t d -> holds_bytes d -> writer_new d c e l = Ok k -> tail_block k /\ cw_dirty k = true.
Proof.
  intros Hd Hb. unfold writer_new, find_tail, find_tail_fuel. destruct (sector d l) as [b| | |] eqn:E; try done. cbn.
  destruct (tail_loop _ d l b) as [[l' b']| | |] eqn:Et; try done. cbn. intros [= <-]. split; [|done].
  destruct (tail_loop_tail _ _ _ _ _ _ Et) as [n Hn]. pose proof (tail_loop_sector _ _ _ _ _ _ E Et) as Hs.
  pose proof (sector_Ok_length t d l' b' Hd Hs) as Hl. unfold tail_block. cbn [cw_block]. split; [done|].
  unfold link_new in Hn. destruct (Nat.eqb_spec (b' !!! 0) 0) as [H0|]; [|done]. split; [done|].
  destruct (Nat.ltb_spec (b' !!! 1) 1); [done|]. split; [lia|].
  assert (Forall is_byte b') as Hby.
  { unfold sector in Hs. destruct (valid_loc _ _); [|done]. destruct (d_blocks d !! _) eqn:Eb; [|done]. injection Hs as <-.
    by apply (Forall_lookup_1 _ _ _ _ Hb Eb). }
  assert (is_byte (b' !!! 1)) as H1.
  { apply (Forall_lookup_1 _ _ 1 _ Hby). apply list_lookup_lookup_total_lt. lia. }
  unfold is_byte in H1. lia.
Qed.

(** The append command never changes the image and never succeeds. *)
Lemma append_gen t source name d :
  d_writable d = true ->
  (forall f k, open_file (open_world t d) (from_str_lossy name) = Ok f -> file_writer d f = Ok k -> tail_block k /\ cw_dirty k = true) ->
  cmd_append t source name d
  = (d, match (let? f := open_file (open_world t d) (from_str_lossy name) in file_writer d f) with
        | Ok _ => Err EReadOnly
        | r => done r
        end).
Proof.
  intros Hw Hall. unfold cmd_append. rewrite tool_open_false, mode_open_file by apply open_world_cells.
  change (w_dev (set_dev _ _)) with (with_mode false d).
  assert (saved (set_dev (with_mode false d) (open_world t d)) = d) as Hsv.
  { unfold saved. change (w_dev (set_dev _ _)) with (with_mode false d). rewrite <- (mode_same d Hw) at 2. done. }
  destruct (open_file (open_world t d) (from_str_lossy name)) as [f| | |]; cbn [rbind]; try (by rewrite Hsv).
  rewrite mode_file_writer. destruct (file_writer d f) as [k| | |] eqn:Ek; try (by rewrite Hsv).
  destruct (Hall f k eq_refl Ek) as [Hk Hdirty].
  rewrite locked_fill by done. by rewrite Hsv.
Qed.

Lemma append_command t source name d :
  dev_shape t d -> holds_bytes d -> d_writable d = true ->
  cmd_append t source name d
  = (d, match (let? f := open_file (open_world t d) (from_str_lossy name) in file_writer d f) with
        | Ok _ => Err EReadOnly
        | r => done r
        end).
Proof.
  intros Hd Hb Hw. apply append_gen; [done|]. intros f k _ Ek.
  destruct f as [c e|g|g|g]; cbn in Ek; [|done|unfold geos_writer in Ek; by destruct (gf_vlir g)..]. by apply (new_writer_tail t d c e (de_first e)).
Qed.

(** ** All commands *)

Lemma writers_none a : as_writers a = [] -> writer_open a = false. Proof. unfold writer_open. by intros ->. Qed.

Lemma used_none a : blocks_used (grow a) = blocks_used a.
Proof. unfold blocks_used. cbn [grow as_slots]. rewrite map_app, sum_app. cbn. lia. Qed.

Section steps.
  Context (t : disk_type) (a : astate) (d : dev) (Hi : image_of t a d).

  Let Hr : reached t a (start t d) := proj1 (image_session t a d Hi).
  Let Hw : d_writable d = true := proj1 (proj2 (image_session t a d Hi)).
  Let Ha : a = table (as_label a) (as_dirs a) (as_border a) (as_slots a) := proj2 (proj2 (proj2 (image_session t a d Hi))).

  Lemma nothing_open : as_handles a = [] /\ as_writers a = [] /\ as_synced a = true.
  Proof. rewrite Ha. done. Qed.

  Lemma create_fails source name ft e :
    astep t a (OCreate (from_str_lossy name) ft) = Some (a, AError e) ->
    exists d', run_request t d (TWrite source name ft) = (d', RError e) /\ image_of t a d'.
  Proof.
    intros Hs. destruct (reached_step t a _ _ _ _ Hr Hs) as (s' & Hc & Hr').
    cbn [run_request]. unfold cmd_write. rewrite tool_open_true by done. cbn [call start s_world s_handles s_writers] in Hc.
    destruct (create_file (from_str_lossy name) ft (open_world t d)) as [w' [x|e'| |]]; cbn in Hc; try done.
    injection Hc as <- ->. exists (saved w'). split; [done|]. exact (same_image t a _ Hr' Ha).
  Qed.

  Lemma create_fills source name ft i a1 :
    astep t a (OCreate (from_str_lossy name) ft) = Some (add i (from_str_lossy name) ft a1, AIndex 0) ->
    as_slots a1 !! i = Some None -> blocks_used a1 = blocks_used a -> as_border a1 = as_border a -> as_handles a1 = [] -> as_writers a1 = [] ->
    blocks_left t a <> 0 ->
    let data := concat source in
    let left := blocks_left t a in
    exists d', run_request t d (TWrite source name ft) = (d', if length data <=? 254 * left then RDone else RError EDiskFull)
      /\ image_of t (with_file a1 i (Some (stored_file (from_str_lossy name) ft left data))) d'.
  Proof.
    intros Hs Hslot Hu Hbd Hh Hws Hleft data left. destruct (reached_step t a _ _ _ _ Hr Hs) as (s' & Hc & Hr').
    cbn [run_request]. unfold cmd_write. rewrite tool_open_true by done. cbn [call start s_world s_handles s_writers] in Hc.
    destruct (create_file (from_str_lossy name) ft (open_world t d)) as [w' [x|e'| |]]; cbn in Hc; try done.
    injection Hc as <-. set (a2 := add i (from_str_lossy name) ft a1) in *.
    assert (i < length (as_slots a1)) as Hil by by eapply lookup_lt_Some.
    destruct (fill_run t a2 _ 0 i (new_afile (from_str_lossy name) ft) source Hr') as (x' & k & s3 & a3 & Hx & Hk & Hf & Hr3 & Hsy & Hwo & L3 & D3 & O3 & S3).
    - unfold a2. cbn. by rewrite Hh.
    - unfold a2. cbn. by apply list_lookup_insert.
    - done.
    - exact Hws.
    - injection Hx as <-. cbn [s_world] in Hk, Hf. rewrite Hk, Hf.
      assert (a_blocks (new_afile (from_str_lossy name) ft) + blocks_left t a2 = left) as Hroom.
      { cbn [new_afile a_blocks]. unfold left, blocks_left, blocks_taken in *. change (as_border a2) with (as_border a1). rewrite Hbd. pose proof (used_put a1 i None (Some (new_afile (from_str_lossy name) ft)) Hslot) as Hp.
        cbn [blocks_of new_afile a_blocks] in Hp. change (blocks_used a2) with (blocks_used (put i (Some (new_afile (from_str_lossy name) ft)) a1)).
        rewrite Hu in Hp. lia. }
      rewrite Hroom. cbn [new_afile a_data app]. fold data. exists (saved (s_world s3)). split; [unfold changes; by destruct (length data <=? 254 * left)|].
      pose proof (session_image t a3 s3 Hr3 Hsy Hwo) as Him.
      rewrite L3, D3, O3, S3, Hroom in Him. cbn [new_afile a_data a_name a_attr app a2 add set_synced set_handles put set_slots as_slots as_label as_dirs as_border] in Him.
      rewrite list_insert_insert in Him. unfold with_file, stored_file. rewrite take_length. exact Him.
  Qed.

  Lemma step_write source name ft a' r :
    tstep t a (TWrite source name ft) = Some (a', r) ->
    exists d', run_request t d (TWrite source name ft) = (d', r) /\ image_of t a' d'.
  Proof.
    pose proof nothing_open as (Hh & Hws & Hsy).
    cbn [tstep]. destruct (16 <? length (from_str_lossy name)) eqn:E1.
    { intros [= <- <-]. apply create_fails. cbn [astep]. by rewrite E1. }
    destruct (slot_named a (from_str_lossy name)) eqn:E2.
    { intros [= <- <-]. apply create_fails. cbn [astep]. by rewrite E1, E2. }
    destruct (negb _) eqn:E3; [done|]. unfold place.
    destruct (slot_unused a) as [i|] eqn:E4.
    - destruct (blocks_left t a =? 0) eqn:E5.
      + intros [= <- <-]. apply create_fails. cbn [astep]. by rewrite E1, E2, E3, E4, E5.
      + intros [= <- <-]. apply create_fills; try done.
        * cbn [astep]. by rewrite E1, E2, E3, E4, E5, Hh.
        * by apply slot_unused_some in E4 as [? _].
        * by apply Nat.eqb_neq.
    - destruct (border_sector (as_border a) + as_dirs a <? dir_limit t) eqn:E6.
      + destruct (blocks_left t a =? 0) eqn:E5; [done|]. intros [= <- <-].
        apply (create_fills source name ft (length (as_slots a)) (grow a)); try done.
        * cbn [astep]. by rewrite E1, E2, E3, E4, E6, E5, Hh.
        * cbn [grow as_slots]. rewrite lookup_app_r by lia. by rewrite Nat.sub_diag.
        * apply used_none.
        * by apply Nat.eqb_neq.
      + intros [= <- <-]. apply create_fails. cbn [astep]. by rewrite E1, E2, E3, E4, E6.
  Qed.

  Lemma step_append source name a' r :
    tstep t a (TAppend source name) = Some (a', r) ->
    exists d', run_request t d (TAppend source name) = (d', r) /\ image_of t a' d'.
  Proof.
    cbn [tstep run_request]. destruct (slot_named a (from_str_lossy name)) as [i|] eqn:En.
    - destruct (named_file a _ i En) as (f & Hf & _). rewrite Hf. intros [= <- <-]. exists d. split; [|done].
      destruct (a_special f) eqn:Epl.
      { destruct (open_records t a d Hi _ i f En Hf) as (x & Ho & Hx); [unfold a_special in Epl; by destruct (a_kind f)|].
        assert (exists k, file_writer d x = Err k /\ append_of f = RError k) as (k & Hk & ->).
        { unfold append_of. destruct (a_kind f) as [|td rs|data]; [done|destruct Hx as (_ & _ & _ & -> & _)|destruct Hx as (_ & _ & _ & ->)]; by eexists. }
        rewrite append_gen; [|done|].
        - rewrite Ho. cbn [rbind]. by rewrite Hk.
        - intros f' k' Ho' Hk'. rewrite Ho in Ho'. injection Ho' as <-. congruence. }
      assert (append_of f = RError EReadOnly) as -> by (unfold append_of, a_special in *; by destruct (a_kind f)).
      destruct (open_there t a d Hi _ i f En Hf Epl) as (c & e & Ho & _ & Hr1).
      set (a1 := set_writers [Some (mk_awriter i [] true)] (set_handles [Some i] a)).
      destruct (reached_step t _ _ (OWriter 0) a1 (AIndex 0) Hr1) as (s1 & Hc1 & Hr2).
      { cbn [astep]. unfold file_of, writer_on. cbn. rewrite Hf, Epl, (proj1 (proj2 nothing_open)). done. }
      assert (exists k, file_writer d (FLinear c e) = Ok k /\ tail_block k /\ cw_dirty k = true) as (k & Hk & Htb).
      { cbn [call s_handles s_world lookup list_lookup s_writers] in Hc1. rewrite (proj2 (proj2 (open_world_cells t d))) in Hc1.
        destruct (file_writer d (FLinear c e)) as [k| | |]; try done. exists k. split; [done|]. injection Hc1 as <-.
        destruct (reached_related _ _ _ Hr2) as (m & c' & b & R).
        pose proof (rl_writers _ _ _ _ _ _ R) as HF. cbn in HF. apply Forall2_cons in HF as [(k' & g & [= <-] & Hk & Hdirty) _].
        split; [|exact Hdirty]. pose proof (wk_len _ _ _ _ _ _ Hk). pose proof (wk_1 _ _ _ _ _ _ Hk).
        split; [apply Hk|]. split; [apply Hk|]. lia. }
      rewrite append_gen; [|done|].
      + rewrite Ho. cbn [rbind]. by rewrite Hk.
      + intros f' k' Ho' Hk'. rewrite Ho in Ho'. injection Ho' as <-. rewrite Hk in Hk'. by injection Hk' as <-.
    - intros [= <- <-]. exists d. split; [|done]. pose proof (open_missing t a d Hi _ En) as Ho. rewrite append_gen; [by rewrite Ho|done|]. intros f k Ho'. by rewrite Ho in Ho'.
  Qed.

  Lemma step_read name n a' r :
    tstep t a (TRead name n) = Some (a', r) ->
    exists d', run_request t d (TRead name n) = (d', r) /\ image_of t a' d'.
  Proof.
    cbn [tstep]. destruct (Nat.eqb_spec n 0) as [|Hn]; [done|].
    destruct (slot_named a (from_str_lossy name)) as [i|] eqn:En.
    - destruct (as_slots a !! i) as [[f|]|] eqn:Ef; [|done..]. intros [= <- <-]. exists d. split; [|done]. cbn [run_request].
      assert ((exists data, read_of f = RBytes data) \/ exists td rs, a_kind f = KRecords td rs) as [[data Hdata]|(td & rs & Hrs)].
      { unfold read_of. destruct (a_kind f) as [|td rs|data]; [left; by eexists|right; by eexists _, _|left; by eexists]. }
      + pose proof (tool_read t a d Hi (from_str_lossy name) n f i data) as Ht.
        assert (cmd_read t name n d = (Some data, Ok tt)) as Hc by (apply Ht; [lia|done..]). by rewrite Hc, Hdata.
      + destruct (open_records t a d Hi _ i f En Ef) as (x & Ho & Hx); [by rewrite Hrs|]. rewrite Hrs in Hx.
        unfold read_of. rewrite Hrs. unfold cmd_read. rewrite tool_open_false, mode_open_file by apply open_world_cells. rewrite Ho. cbn [rbind].
        destruct Hx as (_ & _ & H2 & _). specialize (H2 []). unfold read_through in H2. destruct (file_reader x); [done| |done..].
        cbn [rbind] in H2. by injection H2 as ->.
    - intros [= <- <-]. exists d. split; [|done]. cbn [run_request]. unfold cmd_read.
      rewrite tool_open_false, mode_open_file by apply open_world_cells. by rewrite (open_missing t a d Hi _ En).
  Qed.

  Lemma step_delete name a' r :
    tstep t a (TDelete name) = Some (a', r) ->
    exists d', run_request t d (TDelete name) = (d', r) /\ image_of t a' d'.
  Proof.
    cbn [tstep run_request]. unfold cmd_delete. rewrite tool_open_true by done.
    destruct (slot_named a (from_str_lossy name)) as [i|] eqn:En.
    - destruct (named_file a _ i En) as (f & Hf & _). unfold special_at. rewrite Hf. destruct (a_special f) eqn:Epl; [done|].
      intros [= <- <-]. destruct (open_there t a d Hi _ i f En Hf Epl) as (c & e & Ho & _ & Hr1). rewrite Ho.
      destruct (reached_step t _ _ (ODelete 0) (set_synced true (set_handles (map (stale i) [Some i]) (put i None (set_handles [Some i] a)))) ADone Hr1) as (s1 & Hc1 & Hr2).
      { cbn [astep]. unfold held, writer_on. cbn [set_handles as_handles lookup list_lookup as_slots as_writers].
        rewrite Hf, Epl, (proj1 (proj2 nothing_open)). unfold a_special in Epl. destruct (a_kind f); done. }
      cbn [call s_handles lookup list_lookup s_world] in Hc1. destruct (file_delete (FLinear c e) (open_world t d)) as [w' r'].
      injection Hc1 as <- Hans. assert (r' = Ok tt) as -> by (destruct r' as [[]| | |]; done).
      exists (saved w'). split; [done|]. apply (session_image t _ _ Hr2); [done|]. apply writers_none. apply nothing_open.
    - intros [= <- <-]. rewrite (open_missing t a d Hi _ En). exists d. split; [|done]. cbn. unfold changes. cbn.
      pose proof (reached_saved t a (start t d) Hr) as Hsv. cbn [start s_world] in Hsv. rewrite Hsv. by rewrite (proj2 (proj2 (open_world_cells t d))).
  Qed.

  Lemma step_rename old new a' r :
    tstep t a (TRename old new) = Some (a', r) ->
    exists d', run_request t d (TRename old new) = (d', r) /\ image_of t a' d'.
  Proof.
    intros Hs. assert (exists a1 r1, astep t a (ORename (from_str_lossy old) (from_str_lossy new)) = Some (a1, r1)
      /\ a' = a1 /\ r = match r1 with ADone => RDone | AError e => RError e | _ => RBroken end
      /\ (r1 = ADone \/ exists e, r1 = AError e)) as (a1 & r1 & Hs1 & -> & -> & Hr1).
    { cbn [tstep astep] in *. destruct (slot_named a (from_str_lossy old)) as [i|].
      - destruct (16 <? _); [injection Hs as <- <-; eexists _, _; do 3 (split; [done|]); right; by eexists|].
        destruct (slot_named a _); [injection Hs as <- <-; eexists _, _; do 3 (split; [done|]); right; by eexists|].
        destruct (negb _); [done|]. destruct (as_slots a !! i) as [[f|]|]; [|done..]. injection Hs as <- <-.
        eexists _, _. split; [done|]. split; [|split; [done|by left]].
        unfold with_file, put, set_slots, table. pose proof nothing_open as (-> & -> & ->). done.
      - injection Hs as <- <-. eexists _, _. do 3 (split; [done|]). right. by eexists. }
    destruct (reached_step t a _ _ _ _ Hr Hs1) as (s' & Hc & Hr').
    cbn [run_request]. unfold cmd_rename. rewrite tool_open_true by done. cbn [call start s_world s_handles s_writers] in Hc.
    destruct (w_rename _ _ (open_world t d)) as [w' x]. injection Hc as <- <-. exists (saved w'). split.
    - unfold changes. cbn. destruct x as [[]|e| |]; try done; destruct Hr1 as [?|[? ?]]; done.
    - apply (same_image t a1 _ Hr'). pose proof nothing_open as (Hh & Hws & Hsy).
      cbn [astep] in Hs1. destruct (slot_named a _) as [i|]; [|injection Hs1 as <- _; exact Ha].
      destruct (16 <? _); [injection Hs1 as <- _; exact Ha|]. destruct (slot_named a _); [injection Hs1 as <- _; exact Ha|].
      destruct (negb _); [done|]. destruct (as_slots a !! i) as [[f|]|]; [|done..]. injection Hs1 as <- _.
      unfold put, set_slots, table. by rewrite Hh, Hws, Hsy.
  Qed.

  Lemma step_format name id a' r :
    tstep t a (TFormat name id) = Some (a', r) ->
    exists d', run_request t d (TFormat name id) = (d', r) /\ image_of t a' d'.
  Proof.
    cbn [tstep]. destruct (16 <? length (from_str_lossy name)) eqn:El; [done|]. intros [= <- <-].
    pose proof nothing_open as (Hh & Hws & Hsy).
    destruct (reached_step t a _ (OFormat (from_str_lossy name) (id_from_bytes (from_str_lossy id))) (formatted (from_str_lossy name) 0 0) ADone Hr) as (s' & Hc & Hr').
    { cbn [astep]. rewrite writers_none, El, Hh, Hws by done. done. }
    cbn [run_request]. unfold cmd_format. rewrite tool_open_true by done. cbn [call start s_world s_handles s_writers] in Hc.
    destruct (write_format _ _ (open_world t d)) as [w' x]. injection Hc as <- Hans. exists (saved w'). split.
    - unfold changes. cbn. by destruct x.
    - exact (same_image t _ _ Hr' eq_refl).
  Qed.

  Lemma step_dir a' r :
    tstep t a TDir = Some (a', r) -> exists d', run_request t d TDir = (d', r) /\ image_of t a' d'.
  Proof.
    intros [= <- <-]. exists d. split; [|done].
    destruct (reached_step t a _ OName a _ Hr eq_refl) as (s1 & Hc1 & _).
    destruct (reached_step t a _ OList a _ Hr eq_refl) as (s2 & Hc2 & _).
    destruct (reached_step t a _ OFree a _ Hr eq_refl) as (s3 & Hc3 & _).
    cbn [call start s_world] in *. cbn [run_request]. unfold cmd_dir. rewrite tool_open_false.
    rewrite mode_iter by apply open_world_cells.
    change (w_header (set_dev _ (open_world t d))) with (w_header (open_world t d)).
    change (w_blocks_free (set_dev _ (open_world t d))) with (w_blocks_free (open_world t d)).
    apply (f_equal snd) in Hc1, Hc2, Hc3. cbn [snd] in *.
    unfold w_name, w_get_header in Hc1. destruct (w_header (open_world t d)) as [h|]; [|done]. injection Hc1 as Hc1.
    unfold w_directory, all_or_error in Hc2. destruct (w_iter (open_world t d)) as [es r]. cbn [fst snd] in Hc2.
    destruct r as [[]| | |]; try done. cbn in Hc2. injection Hc2 as Hc2.
    destruct (w_blocks_free (open_world t d)); try done. cbn in Hc3. injection Hc3 as ->. cbn. by rewrite Hc1, Hc2.
  Qed.

  Lemma step_validate a' r :
    tstep t a TValidate = Some (a', r) -> exists d', run_request t d TValidate = (d', r) /\ image_of t a' d'.
  Proof.
    intros [= <- <-]. exists d. split; [|done].
    destruct (reached_step t a _ OValidate a _ Hr eq_refl) as (s1 & Hc1 & _).
    cbn [call start s_world] in *. cbn [run_request]. unfold cmd_validate. rewrite tool_open_true by done.
    destruct (validate (open_world t d)); cbn in Hc1; try done. by injection Hc1 as _ ->.
  Qed.
End steps.

Lemma tool_step t a d q a' r :
  image_of t a d -> tstep t a q = Some (a', r) -> exists d', run_request t d q = (d', r) /\ image_of t a' d'.
Proof.
  intros Hi. destruct q; [by apply step_write|by apply step_append|by apply step_read|by apply step_delete|by apply step_rename|by apply step_format|by apply step_dir|by apply step_validate].
Qed.

Lemma tool_run t qs : forall a d a' rs,
  image_of t a d -> trun t a qs = Some (a', rs) -> exists d', run_requests t d qs = (d', rs) /\ image_of t a' d'.
Proof.
  induction qs as [|q qs IH]; intros a d a' rs Hi.
  - intros [= <- <-]. by exists d.
  - cbn. destruct (tstep t a q) as [[a1 r]|] eqn:E; [|done]. destruct (trun t a1 qs) as [[a2 rs']|] eqn:E2; [|done]. intros [= <- <-].
    destruct (tool_step t a d q a1 r Hi E) as (d1 & -> & Hi1). destruct (IH a1 d1 a2 rs' Hi1 E2) as (d2 & -> & Hi2). by exists d2.
Qed.
