(** Proofs about GEOS files. *)
From Verif Require Import Base ListFacts Layout Block Bam Format Petscii GeosTypes DirEntry Header World Chain Directory Writer Rel GeosFile File
  Spec SpecCodec SpecChain SpecFiles SpecGeos GeomFacts DevFacts CodecProofs EntryProofs ChainProofs RelProofs SectorProofs AnyDir.

Ltac Zify.zify_post_hook ::= Z.div_mod_to_equations.

(** ** Info blocks *)

Lemma info_never_written b b' : length b = 256 -> length b' = 256 -> info_to_bytes (info_from_bytes b) b' = Panic.
Proof.
  intros Hb Hb'. unfold info_to_bytes, info_from_bytes, copy_at, geos_string_to_bytes.
  cbn [gi_icon gi_attr gi_type gi_structure gi_load gi_end gi_start gi_class gi_author gi_application gi_reserved gi_description].
  assert (forall o n (x : list nat), o + n <= length x -> length (slice o n x) = n) as Hs by (intros; by apply length_slice).
  rewrite !Hs by lia. cbn [Nat.eqb negb orb].
  repeat match goal with |- context [?a <? ?b] => destruct (a <? b) eqn:?; cbn [orb rbind]; [done|] end.
  done.
Qed.

(** ** The records of an index *)

Definition slot_start (p : location) : option location := if present p then Some p else None.
Lemma index_records_map ps : index_records ps = map slot_start (until_end ps).
Proof.
  induction ps as [|[t s] ps IH]; [done|]. cbn [index_records until_end].
  destruct (bool_decide_reflect ((t, s) = (0, 0))) as [E|E].
  - injection E as -> ->. done.
  - replace ((t =? 0) && (s =? 0)) with false.
    2: { symmetry. apply andb_false_iff. destruct t; [|by left]. right. destruct s; [done|done]. }
    cbn [map]. rewrite IH. f_equal. unfold slot_start, present.
    destruct (bool_decide_reflect ((t, s) = (0, 255))) as [E'|E'].
    + injection E' as -> ->. done.
    + replace ((t =? 0) && (s =? 255)) with false; [done|]. symmetry. apply andb_false_iff.
      destruct (Nat.eqb_spec t 0), (Nat.eqb_spec s 255); subst; try done; tauto.
Qed.
Lemma index_pairs b : length b = 256 -> pairs b = pair_at b 0 :: map (pair_at b) (seq 1 127).
Proof. intros H. rewrite pairs_spec, H. change (seq 0 (256 / 2)) with (0 :: seq 1 127). done. Qed.
Lemma index_pairs_tail b : length b = 256 -> pairs (drop 2 b) = map (pair_at b) (seq 1 127).
Proof.
  intros H. replace (drop 2 b) with (slice (2 * 1) (2 * 127) b); [apply pairs_slice; lia|].
  unfold slice. apply take_ge. rewrite drop_length. lia.
Qed.

(** The records of an open VLIR file: number 0 is the pair of the link. *)
Lemma vlir_records t w name f :
  dev_shape t (w_dev w) -> open_file w name = Ok f ->
  de_scheme (file_entry f) = SGEOSVLIR ->
  exists b, sector (w_dev w) (de_first (file_entry f)) = Ok b
    /\ (pair_at b 0 = (0, 0) -> file_record_count f = 0)
    /\ (pair_at b 0 <> (0, 0) ->
         file_record_count f = S (length (index_slots b))
         /\ (forall i p, index_slots b !! i = Some p ->
               (present p = false -> file_record (w_dev w) f (S i) = Ok [])
               /\ (forall ls, present p = true -> sound_chain (w_dev w) p ls ->
                     file_record (w_dev w) f (S i) = Ok (data_of (w_dev w) ls)))
         /\ forall i, length (index_slots b) <= i -> file_record (w_dev w) f (S i) = Err EInvalidRecordIndex).
Proof.
  intros Hd Ho Hs. unfold open_file in Ho.
  destruct (w_find w name) as [e| | |] eqn:Ef; cbn [rbind] in Ho; try done.
  destruct (find_stored t w name e Hd Ef) as (_ & _ & l & j & sb & Hsec & Hj & border & e0 & Hp & He & _).
  unfold open_file_from_entry in Ho. destruct (w_get_bam w) as [c| | |]; cbn [rbind] in Ho; try done.
  assert (file_entry f = e) as Hfe.
  { destruct (de_scheme e); [by injection Ho as <-|..].
    - unfold rel_new in Ho. destruct (de_extra e); cbn [rbind] in Ho; try done. destruct (chain_walk _ _) as [ss r].
      destruct (side_loop ss r) as [[[sides lists] datas]| | |]; cbn [rbind] in Ho; try done.
      destruct (_ <? _); try done. destruct (negb _); try done.
      match type of Ho with (let? _ := (let? _ := ?x in _) in _) = _ => destruct x; cbn [rbind] in Ho; try done end.
      destruct (_ =? 0); try done. destruct (negb _); try done. by injection Ho as <-.
    - unfold geos_new in Ho. destruct (entry_is_vlir e) as [[]| | |]; cbn [rbind] in Ho; try done; [|by injection Ho as <-].
      destruct (sector _ _); cbn [rbind] in Ho; try done. by injection Ho as <-.
    - unfold geos_new in Ho. destruct (entry_is_vlir e) as [[]| | |]; cbn [rbind] in Ho; try done; [|by injection Ho as <-].
      destruct (sector _ _); cbn [rbind] in Ho; try done. by injection Ho as <-. }
  rewrite Hfe in Hs |- *. rewrite Hs in Ho.
  assert (entry_is_vlir e = Ok true) as Hv.
  { subst e. unfold dirent_parse in Hp. destruct (negb _); [done|]. apply Ok_inj in Hp. subst e0.
    cbn [set_border de_scheme] in Hs. unfold entry_is_vlir. cbn [set_border de_extra]. rewrite Hs. cbn [extra_from_bytes].
    unfold entry_scheme in Hs. destruct (decide _); [done|]. destruct (is_entry_geos _); [|done].
    destruct (is_entry_vlir _) eqn:Ev; [|done]. unfold is_entry_vlir in Ev. apply Nat.eqb_eq in Ev.
    unfold EXTRA_SIZE. rewrite lookup_total_slice by lia. rewrite Ev. done. }
  unfold geos_new in Ho. rewrite Hv in Ho. cbn [rbind] in Ho.
  destruct (sector (w_dev w) (de_first e)) as [b| | |] eqn:Eb; cbn [rbind] in Ho; try done. injection Ho as <-.
  pose proof (sector_Ok_length _ _ _ _ Hd Eb) as Hb.
  exists b. split; [done|]. unfold file_record_count, geos_record_count. cbn [gf_vlir file_record].
  rewrite index_records_map, index_pairs by done. cbn [until_end].
  split.
  { intros ->. done. }
  intros H0. rewrite (bool_decide_eq_false_2 _ H0). change (until_end (map (pair_at b) (seq 1 127))) with (index_slots b).
  cbn [map length]. rewrite map_length. split; [done|].
  unfold geos_record, record_start. cbn [gf_vlir]. cbn [lookup list_lookup map]. split.
  - intros i p Hi. change (list_lookup i (map slot_start (index_slots b))) with (map slot_start (index_slots b) !! i).
    rewrite (list_lookup_fmap slot_start), Hi. cbn [fmap option_fmap option_map rbind].
    unfold slot_start. split.
    + intros ->. done.
    + intros ls -> Hls. by apply (read_all_sound t).
  - intros i Hi. change (list_lookup i (map slot_start (index_slots b))) with (map slot_start (index_slots b) !! i).
    rewrite (list_lookup_fmap slot_start), lookup_ge_None_2 by done. done.
Qed.

(** ** The Convert stream *)

Lemma fill_all_cons r rs : fill_all (r :: rs) = match rs with [] => [r] | _ => whole_blocks r :: fill_all rs end.
Proof. by destruct rs. Qed.
Lemma fill_all_length rs : length (fill_all rs) = length rs.
Proof. induction rs as [|r rs IH]; [done|]. rewrite fill_all_cons. destruct rs; [done|]. cbn [length] in *. lia. Qed.
Lemma pad_record_spec l : pad_record l = whole_blocks l.
Proof.
  unfold pad_record, whole_blocks, BLOCK_DATA_SIZE. destruct (Nat.ltb_spec 0 (length l mod 254)) as [H|H].
  - f_equal. f_equal. symmetry. apply Nat.mod_small. lia.
  - replace (length l mod 254) with 0 by lia. change ((254 - 0) mod 254) with 0. cbn [repeat]. by rewrite app_nil_r.
Qed.

Section reads.
  Context (t : disk_type) (d : dev) (Hd : dev_shape t d) (Hb : holds_bytes d).

  Lemma scan_spec p ls l e :
    sound_chain d p ls -> length ls <= 255 -> last ls = Some l -> ends d l e -> scan_chain d p = Ok (length ls, e).
  Proof.
    intros Hs Hl Hla He. unfold scan_chain, all_or_error. rewrite (walk_sound t d p ls Hd Hs). cbn [snd fst rbind].
    rewrite map_length. set (g := fun l => mk_cs (used_part (block_of d l)) l).
    assert (last (map g ls) = g <$> last ls) as -> by apply fmap_last.
    rewrite Hla. cbn [fmap option_fmap option_map cs_data g].
    destruct He as (b & Eb & H0 & H1 & Hne). unfold block_of. rewrite Eb.
    pose proof (sector_Ok_length _ _ _ _ Hd Eb) as Hlb.
    assert (Forall is_byte b) as Hbb.
    { rewrite <- (block_at_ok _ _ _ Eb). by apply block_at_bytes. }
    rewrite used_part_length by done. rewrite H0, H1. cbn [Nat.eqb].
    pose proof (bytes_lookup_total b 1 Hbb) as Hb1. rewrite H1 in Hb1. unfold is_byte in Hb1.
    destruct (Nat.ltb_spec 255 (length ls)); [lia|]. replace (e + 1 - 1) with e by lia.
    destruct (Nat.ltb_spec 255 e); [lia|]. done.
  Qed.

  Lemma convert_spec ps prs :
    Forall2 (index_pair d) (until_end ps) prs ->
    convert_index d ps = Ok (List.filter present (until_end ps), concat prs).
  Proof.
    revert prs. induction ps as [|[tr s] ps IH]; intros prs H; [by inversion H|]. cbn [convert_index until_end] in *.
    destruct (bool_decide_reflect ((tr, s) = (0, 0))) as [E|E].
    { injection E as -> ->. by inversion H. }
    replace ((tr =? 0) && (s =? 0)) with false.
    2: { symmetry. apply andb_false_iff. destruct (Nat.eqb_spec tr 0), (Nat.eqb_spec s 0); subst; tauto. }
    apply Forall2_cons_inv_l in H as (pr & prs' & Hpr & Hprs & ->). specialize (IH _ Hprs).
    cbn [List.filter concat]. inversion Hpr as [Hm|ls l e Hp Hs Hl Hla He]; subst.
    - rewrite Hm. unfold present in Hm. apply negb_false_iff, bool_decide_eq_true in Hm. injection Hm as -> ->.
      cbn [Nat.eqb andb]. rewrite IH. done.
    - rewrite Hp. unfold present in Hp. apply negb_true_iff, bool_decide_eq_false in Hp.
      replace ((tr =? 0) && (s =? 255)) with false.
      2: { symmetry. apply andb_false_iff. destruct (Nat.eqb_spec tr 0), (Nat.eqb_spec s 255); subst; tauto. }
      rewrite (scan_spec _ ls l e) by done. cbn [rbind]. rewrite IH. done.
  Qed.

  Definition recs (ps : list location) (rs : list (list nat)) : Prop :=
    Forall2 (fun p r => exists ls, sound_chain d p ls /\ r = data_of d ls) ps rs.

  (** What is still to come after the buffer. *)
  Definition index_to_come (r : geos_reader) (blocks : list (list nat)) : Prop :=
    exists index prs rs, sector d (gr_start r) = Ok index
      /\ Forall2 (index_pair d) (index_slots index) prs /\ recs (List.filter present (index_slots index)) rs
      /\ blocks = zeros_to 254 (concat prs) :: fill_all rs.
  Definition chain_to_come (r : geos_reader) (blocks : list (list nat)) : Prop :=
    exists ls, sound_chain d (gr_start r) ls /\ blocks = [data_of d ls].
  Definition body_to_come (r : geos_reader) (blocks : list (list nat)) : Prop :=
    gr_chains r = [] /\ if gr_is_vlir r then index_to_come r blocks else chain_to_come r blocks.
  Definition pending (r : geos_reader) (blocks : list (list nat)) : Prop :=
    match gr_state r with
    | SDirectoryEntry => exists ib bs, sector d (gr_info r) = Ok ib /\ body_to_come r bs /\ blocks = drop 2 ib :: bs
    | SInfoBlock => body_to_come r blocks
    | SVLIRIndexBlock | SRecords => exists rs, recs (gr_chains r) rs /\ blocks = fill_all rs
    | SFinished => gr_buffer r = [] /\ blocks = []
    end.
  Definition repr (r : geos_reader) (blocks : list (list nat)) : Prop :=
    exists rest, pending r rest /\ (blocks = gr_buffer r :: rest \/ (gr_buffer r = [] /\ blocks = rest)).
  Definition extra_round (r : geos_reader) : nat :=
    match gr_state r with SDirectoryEntry | SInfoBlock => if gr_is_vlir r then 0 else 1 | _ => 0 end.

  Lemma next_record_spec r rs :
    gr_buffer r = [] -> recs (gr_chains r) rs -> gr_state r = SRecords ->
    match rs with
    | [] => next_record d r = (set_state SFinished r, Ok tt)
    | _ => exists r', next_record d r = (r', Ok tt) /\ gr_state r' = SRecords
             /\ exists rest, fill_all rs = gr_buffer r' :: rest /\ pending r' rest
    end.
  Proof.
    intros Hbf Hr Hst. unfold next_record. destruct Hr as [|p x ps rs' Hp Hps] eqn:?; [done|].
    destruct Hp as (ls & Hs & ->). rewrite (read_all_sound t d p ls Hd Hs). eexists. split; [done|].
    cbn [set_buffer set_chains gr_state gr_buffer]. rewrite Hbf. cbn [app]. split; [done|].
    rewrite fill_all_cons. exists (fill_all rs'). split.
    - destruct Hps; [done|]. by rewrite pad_record_spec.
    - unfold pending. cbn [set_buffer set_chains gr_state gr_chains]. rewrite Hst. exists rs'. done.
  Qed.

  Lemma next_state_spec r rest :
    gr_buffer r = [] -> pending r rest -> gr_state r <> SFinished ->
    exists r', next_state d r = (r', Ok tt)
      /\ ((gr_state r' = SFinished /\ gr_buffer r' = [] /\ rest = [])
          \/ (gr_state r' <> SFinished /\ repr r' rest
              /\ exists rest', pending r' rest' /\ length rest' + extra_round r' < length rest + extra_round r)).
  Proof.
    intros Hbf Hp Hst. unfold next_state. destruct r as [st buf v info start chains]. cbn [gr_buffer gr_state] in *. subst buf.
    assert (forall rs, recs chains rs -> rest = fill_all rs ->
      exists r', next_record d (mk_geos_reader SRecords [] v info start chains) = (r', Ok tt)
      /\ ((gr_state r' = SFinished /\ gr_buffer r' = [] /\ rest = [])
          \/ (gr_state r' <> SFinished /\ repr r' rest
              /\ exists rest', pending r' rest' /\ length rest' + extra_round r' < length rest + 0))) as Hrec.
    { intros rs Hrs ->. pose proof (next_record_spec (mk_geos_reader SRecords [] v info start chains) rs eq_refl Hrs eq_refl) as H.
      destruct rs as [|x rs]; [eexists; split; [exact H|]; left; done|].
      destruct H as (r' & Hr' & Hs & rest' & Hf & Hp'). exists r'. split; [done|]. right. split; [by rewrite Hs|].
      split; [exists rest'; rewrite Hf; auto|]. exists rest'. split; [done|]. rewrite Hf. unfold extra_round. rewrite Hs. cbn [length]. lia. }
    destruct st; [..|done].
    - destruct Hp as (ib & bs & Hib & Hbody & ->). cbn [set_state gr_info gr_buffer gr_is_vlir gr_start gr_chains] in *.
      rewrite Hib. eexists. split; [done|]. right. cbn [set_buffer gr_state gr_buffer gr_is_vlir gr_info gr_start gr_chains].
      split; [done|]. split.
      + exists bs. split; [exact Hbody|]. by left.
      + exists bs. split; [exact Hbody|]. unfold extra_round. cbn. destruct v; lia.
    - destruct Hp as (Hc & Hp). cbn [gr_chains gr_is_vlir] in *. subst chains. destruct v.
      + destruct Hp as (index & prs & rs & Hi & Hpr & Hrs & ->). cbn [gr_start] in Hi.
        unfold process_index. cbn [set_state gr_start gr_state gr_is_vlir gr_info gr_buffer gr_chains].
        rewrite Hi. cbn [rbind]. rewrite index_pairs_tail by (by eapply sector_Ok_length).
        rewrite (convert_spec _ prs Hpr). cbn [rbind]. eexists. split; [done|]. right. cbn [gr_state]. split; [done|].
        assert (pending (mk_geos_reader SVLIRIndexBlock (concat prs ++ repeat 0 (BLOCK_DATA_SIZE - length (concat prs))) true info start
          (List.filter present (until_end (map (pair_at index) (seq 1 127))))) (fill_all rs)) as Hp' by (exists rs; done).
        split; [exists (fill_all rs); split; [done|]; by left|].
        exists (fill_all rs). split; [done|]. cbn. lia.
      + destruct Hp as (ls & Hls & ->). cbn [gr_start] in Hls. cbn [set_state set_chains gr_start gr_state gr_is_vlir gr_info gr_buffer gr_chains app].
        eexists. split; [done|]. right. cbn [gr_state]. split; [done|].
        assert (pending (mk_geos_reader SRecords [] false info start [start]) [data_of d ls]) as Hp'.
        { exists [data_of d ls]. split; [|done]. constructor; [|constructor]. eauto. }
        split; [exists [data_of d ls]; split; [done|]; by right|]. exists [data_of d ls]. split; [done|]. cbn. lia.
    - destruct Hp as (rs & Hrs & ->). by apply (Hrec rs).
    - destruct Hp as (rs & Hrs & ->). by apply (Hrec rs).
  Qed.

  Lemma block_read_0 blocks : block_read blocks 0 = (blocks, []).
  Proof. by destruct blocks. Qed.

  Lemma pending_buffer r b rest : gr_state r <> SFinished -> pending r rest -> pending (set_buffer b r) rest.
  Proof. by destruct r as [[] ? ? ? ? ?]. Qed.
  Lemma pending_fun r rest rest' : pending r rest -> pending r rest' -> length rest = length rest'.
  Proof.
    assert (forall ps rs rs', recs ps rs -> recs ps rs' -> length (fill_all rs) = length (fill_all rs')) as Hr.
    { intros ps rs rs' H1%Forall2_length H2%Forall2_length. rewrite !fill_all_length. lia. }
    assert (forall b b', body_to_come r b -> body_to_come r b' -> length b = length b') as Hbd.
    { intros b b' [_ H] [_ H']. destruct (gr_is_vlir r).
      - destruct H as (i & prs & rs & Hi & _ & Hrs & ->), H' as (i' & prs' & rs' & Hi' & _ & Hrs' & ->).
        rewrite Hi in Hi'. injection Hi' as <-. cbn [length]. f_equal. by eapply Hr.
      - by destruct H as (ls & _ & ->), H' as (ls' & _ & ->). }
    unfold pending. destruct (gr_state r).
    - intros (ib & bs & _ & H & ->) (ib' & bs' & _ & H' & ->). cbn [length]. f_equal. by apply Hbd.
    - apply Hbd.
    - intros (rs & H & ->) (rs' & H' & ->). by eapply Hr.
    - intros (rs & H & ->) (rs' & H' & ->). by eapply Hr.
    - by intros [_ ->] [_ ->].
  Qed.

  Lemma loop_spec fuel r rest blocks n :
    gr_state r <> SFinished -> pending r rest -> (blocks = gr_buffer r :: rest \/ (gr_buffer r = [] /\ blocks = rest)) ->
    length rest + extra_round r < fuel ->
    exists r', geos_read_loop fuel d r n = (r', Ok (snd (block_read blocks n))) /\ repr r' (fst (block_read blocks n)).
  Proof.
    revert r rest blocks n. induction fuel as [|fuel IH]; intros r rest blocks n Hst Hp Hbl Hf; [lia|].
    cbn [geos_read_loop]. destruct (Nat.le_gt_cases n (length (gr_buffer r))) as [Hn|Hn].
    { rewrite Nat.min_l, Nat.eqb_refl by done. exists r.
      assert (repr r blocks) as Hr by (exists rest; done).
      destruct Hbl as [->|[Hbf ->]].
      - cbn [block_read]. rewrite (proj2 (Nat.leb_le _ _)) by done. done.
      - rewrite Hbf in *. cbn [length] in Hn. assert (n = 0) as -> by lia. by rewrite block_read_0. }
    rewrite Nat.min_r by lia. rewrite (proj2 (Nat.eqb_neq _ _)) by lia. cbn [set_buffer gr_buffer].
    rewrite drop_ge, take_ge by done.
    pose proof (pending_buffer r [] rest Hst Hp) as Hp0. change (mk_geos_reader _ [] _ _ _ _) with (set_buffer [] r) in *.
    destruct (next_state_spec (set_buffer [] r) rest eq_refl Hp0 Hst) as (r' & Hn' & [(Hfin & Hbf & ->)|(Hfin & Hrp & rest' & Hp' & Hlt)]).
    - rewrite Hn', Hfin. exists r'. destruct Hbl as [->|[Hbf' ->]].
      + cbn [block_read]. rewrite (proj2 (Nat.leb_gt _ _)) by done. cbn [fst snd]. rewrite app_nil_r. split; [done|].
        exists []. split; [|by right]. unfold pending. by rewrite Hfin.
      + cbn [block_read fst snd]. rewrite Hbf'. split; [done|]. exists []. split; [|by right]. unfold pending. by rewrite Hfin.
    - rewrite Hn'. destruct Hrp as (rest'' & Hp'' & Hbl'). pose proof (pending_fun r' rest' rest'' Hp' Hp'') as Hl.
      destruct (IH r' rest'' rest (n - length (gr_buffer r)) Hfin Hp'' Hbl') as (r'' & Hr'' & Hrepr).
      { change (extra_round (set_buffer [] r)) with (extra_round r) in Hlt. lia. }
      exists r''. replace (let '(r0, res) := geos_read_loop fuel d r' (n - length (gr_buffer r)) in (r0, let? rest0 := res in Ok (gr_buffer r ++ rest0)))
        with (r'', Ok (gr_buffer r ++ snd (block_read rest (n - length (gr_buffer r))))) by (by rewrite Hr'').
      destruct (gr_state r') eqn:Es; [..|done].
      all: destruct Hbl as [->|[Hbf' ->]];
        [cbn [block_read]; rewrite (proj2 (Nat.leb_gt _ _)) by done; destruct (block_read rest (n - length (gr_buffer r))) as [bl out]; done
        |rewrite Hbf' in *; cbn [length app] in *; rewrite Nat.sub_0_r in *; done].
  Qed.

  (** A reader whose remaining rounds fit the fuel of a read. *)
  Lemma index_slots_length b : length (index_slots b) <= 127.
  Proof.
    unfold index_slots. assert (forall ps, length (until_end ps) <= length ps) as H.
    { induction ps; cbn [until_end]; [done|]. destruct (bool_decide _); cbn [length]; lia. }
    specialize (H (map (pair_at b) (seq 1 127))). rewrite map_length, seq_length in H. done.
  Qed.
  Lemma filter_le {A} (f : A -> bool) l : length (List.filter f l) <= length l.
  Proof. induction l; cbn [List.filter]; [done|]. destruct (f a); cbn [length]; lia. Qed.
  Lemma rounds r rest : pending r rest -> length rest + extra_round r < length (gr_chains r) + 140.
  Proof.
    assert (forall b, body_to_come r b -> length b + (if gr_is_vlir r then 0 else 1) <= 128) as Hbd.
    { intros b [_ H]. destruct (gr_is_vlir r).
      - destruct H as (i & prs & rs & _ & _ & Hrs%Forall2_length & ->). cbn [length]. rewrite fill_all_length, <- Hrs.
        pose proof (index_slots_length i). pose proof (filter_le present (index_slots i)). lia.
      - destruct H as (ls & _ & ->). cbn [length]. lia. }
    unfold pending, extra_round. destruct (gr_state r).
    - intros (ib & bs & _ & H & ->). specialize (Hbd _ H). cbn [length]. lia.
    - intros H. specialize (Hbd _ H). lia.
    - intros (rs & H%Forall2_length & ->). rewrite fill_all_length. lia.
    - intros (rs & H%Forall2_length & ->). rewrite fill_all_length. lia.
    - intros [_ ->]. cbn [length]. lia.
  Qed.

  Lemma read_spec r blocks n :
    repr r blocks ->
    exists r', geos_read d r n = (r', Ok (snd (block_read blocks n))) /\ repr r' (fst (block_read blocks n)).
  Proof.
    intros (rest & Hp & Hbl). unfold geos_read. pose proof (rounds r rest Hp) as Hf.
    destruct (gr_state r) eqn:Es.
    1-4: apply (loop_spec _ r rest blocks n); [by rewrite Es|done..].
    pose proof Hp as Hp'. unfold pending in Hp'. rewrite Es in Hp'. destruct Hp' as [Hbf ->]. exists r.
    destruct Hbl as [->|[_ ->]]; rewrite ?Hbf.
    - cbn [block_read length]. destruct (Nat.leb_spec n 0); cbn [fst snd].
      + assert (n = 0) as -> by lia. split; [done|]. exists []. split; [done|]. left. by rewrite Hbf.
      + split; [done|]. exists []. split; [done|]. by right.
    - cbn [block_read fst snd]. split; [done|]. exists []. split; [done|]. by right.
  Qed.

  Lemma reads_spec_blocks r blocks ns : repr r blocks -> geos_reads d r ns = map Ok (block_reads blocks ns).
  Proof.
    revert r blocks. induction ns as [|n ns IH]; intros r blocks Hr; [done|]. cbn [geos_reads block_reads].
    destruct (read_spec r blocks n Hr) as (r' & -> & Hr'). destruct (block_read blocks n) as [bl out]. cbn [fst snd] in *.
    cbn [map]. by rewrite (IH r' bl Hr').
  Qed.
End reads.

(** One read of more bytes than the stream has delivers the stream. *)
Lemma block_read_all blocks n : length (concat blocks) < n -> block_read blocks n = ([], concat blocks).
Proof.
  revert n. induction blocks as [|b blocks IH]; intros n Hn; [done|]. cbn [block_read concat] in *. rewrite app_length in Hn.
  rewrite (proj2 (Nat.leb_gt _ _)) by lia. rewrite IH by lia. done.
Qed.

(** The entry as the stream writes it. *)
Lemma entry_zeros bytes pos e border x :
  length bytes = 32 -> Forall is_byte bytes -> dirent_parse bytes pos = Ok e ->
  extra_to_bytes (de_extra e) (repeat 0 9) = Ok x -> x = slice 21 9 bytes ->
  dirent_to_bytes (set_border border e) (repeat 0 32) = Ok (0 :: 0 :: drop 2 bytes).
Proof.
  intros Hlen Hb He Hex Hx9. pose proof (entry_bytes_all bytes Hlen) as Hall.
  set (name := slice 5 16 bytes) in *. 
  assert (length name = 16) as Hnl by (apply length_slice; lia).
  assert (length (slice 21 9 bytes) = 9) as Hx by (apply length_slice; lia).
  pose proof (parse_entry_bytes (bytes !!! 0) (bytes !!! 1) (bytes !!! 2) (bytes !!! 3)
    (bytes !!! 4) name _ (bytes !!! 30) (bytes !!! 31) pos Hnl Hx) as Hp.
  rewrite <- Hall, He in Hp. apply Ok_inj in Hp.
  pose proof (bytes_lookup_total bytes 30 Hb) as H30. unfold is_byte in H30.
  assert (bytes !!! 2 < 256) as H2 by (by apply bytes_lookup_total).
  rewrite (dirent_to_bytes_eq (set_border border e) (repeat 0 32) name x).
  - subst e x. cbn [set_border de_attr de_first de_name de_extra de_size fst snd].
    rewrite attr_byte_roundtrip by done.
    replace ((bytes !!! 31 * 256 + bytes !!! 30) mod 256) with (bytes !!! 30) by lia.
    replace ((bytes !!! 31 * 256 + bytes !!! 30) / 256) with (bytes !!! 31) by lia.
    f_equal. pose proof (f_equal (drop 2) Hall) as Hd2. rewrite Hd2. unfold entry_bytes. rewrite !lookup_total_repeat0. done.
  - done.
  - subst e. cbn [set_border de_name]. unfold write_bytes_with_padding.
    pose proof (from_padded_length name PADDING_BYTE) as Hfl. rewrite (proj2 (Nat.ltb_ge _ _)) by lia.
    pose proof (padded_value name PADDING_BYTE) as Hpv. rewrite Hnl in Hpv. by rewrite Hpv.
  - done.
  - exact Hex.
  - by rewrite Hx9.
Qed.

Lemma entry_block_spec (v : bool) (s : list nat) b0 b1 :
  length s = 30 ->
  drop 2 (splice 35 cvt_suffix (splice 32 (if v then cvt_prg else cvt_seq) (splice 0 (0 :: 0 :: s) zero_block)))
  = entry_block v (b0 :: b1 :: s).
Proof. intros H. destruct_list s. destruct v; vm_compute; reflexivity. Qed.

Lemma entry_parts bytes pos e :
  length bytes = 32 -> dirent_parse bytes pos = Ok e ->
  de_scheme e = SGEOSSequential \/ de_scheme e = SGEOSVLIR ->
  de_first e = pair_at (drop 3 bytes) 0
  /\ exists s ft y mo da ho mi, de_extra e = XGEOS (pair_at (drop 21 bytes) 0) s ft y mo da ho mi
     /\ extra_to_bytes (de_extra e) (repeat 0 9) = Ok (slice 21 9 bytes)
     /\ s = (if bytes !!! 23 =? 1 then GVLIR else GSequential) /\ bytes !!! 23 <= 1.
Proof.
  intros Hl Hp Hs. unfold dirent_parse in Hp. rewrite Hl in Hp. cbn [Nat.eqb negb ENTRY_SIZE] in Hp. apply Ok_inj in Hp. subst e.
  cbn [de_first de_extra de_scheme] in *. split.
  { unfold pair_at. rewrite !lookup_total_drop. done. }
  assert (is_entry_geos bytes = true) as Hg.
  { unfold entry_scheme in Hs. destruct (decide _), (is_entry_geos bytes); try done; by destruct Hs. }
  unfold is_entry_geos in Hg. rewrite !andb_true_iff in Hg. destruct Hg as [_ Hle%Nat.leb_le]. change (ENTRY_EXTRA_OFFSET + 2) with 23 in Hle.
  assert (length (slice 21 9 bytes) = 9) as Hx by (apply length_slice; lia).
  assert (forall i, i < 9 -> slice 21 9 bytes !!! i = bytes !!! (21 + i)) as Hi by (intros; by apply lookup_total_slice).
  assert (exists s ft y mo da ho mi, extra_from_bytes (entry_scheme (attr_from_byte (bytes !!! ENTRY_FILE_ATTRIBUTE_OFFSET)) bytes) (slice ENTRY_EXTRA_OFFSET EXTRA_SIZE bytes)
    = XGEOS (pair_at (drop 21 bytes) 0) s ft y mo da ho mi /\ s = structure_from_byte (bytes !!! 23)) as (s & ft & y & mo & da & ho & mi & Hex & Hst).
  { destruct Hs as [-> | ->]; cbn [extra_from_bytes ENTRY_EXTRA_OFFSET EXTRA_SIZE]; do 7 eexists; rewrite !Hi by lia;
      unfold pair_at; rewrite !lookup_total_drop; done. }
  exists s, ft, y, mo, da, ho, mi. split; [done|]. split.
  - pose proof (extra_rewrite (entry_scheme (attr_from_byte (bytes !!! ENTRY_FILE_ATTRIBUTE_OFFSET)) bytes) _ Hx) as Hr.
    change (slice 21 9 bytes) with (slice ENTRY_EXTRA_OFFSET EXTRA_SIZE bytes) in *. rewrite Hex in *. done.
  - split; [|done]. rewrite Hst. destruct (bytes !!! 23) as [|[]]; [done..|lia].
Qed.

(** What a reader of a listed GEOS file delivers. *)
Theorem convert_stream t d e l j b blocks :
  dev_shape t d -> holds_bytes d -> stored d e l j b ->
  de_scheme e = SGEOSSequential \/ de_scheme e = SGEOSVLIR ->
  convert_blocks d (slice (32 * j) 32 b) blocks ->
  exists r, geos_reader_new e = Ok r /\ forall ns, geos_reads d r ns = map Ok (block_reads blocks ns).
Proof.
  intros Hd Hb (Hsec & Hj & border & e0 & Hp & -> & _) Hs Hc.
  set (slot := slice (32 * j) 32 b) in *. pose proof (sector_Ok_length _ _ _ _ Hd Hsec) as Hlb.
  assert (length slot = 32) as Hls by (apply length_slice; lia).
  assert (Forall is_byte slot) as Hbs.
  { apply forall_bytes_slice. rewrite <- (block_at_ok _ _ _ Hsec). by apply block_at_bytes. }
  cbn [set_border de_scheme] in Hs.
  destruct (entry_parts slot _ e0 Hls Hp Hs) as (Hf & s & ft & y & mo & da & ho & mi & Hex & Hxb & Hst & Hle).
  pose proof (entry_zeros slot _ e0 border _ Hls Hbs Hp Hxb eq_refl) as Hz.
  assert (entry_is_vlir (set_border border e0) = Ok (slot !!! 23 =? 1)) as Hv.
  { unfold entry_is_vlir. cbn [set_border de_extra]. rewrite Hex, Hst. by destruct (slot !!! 23 =? 1). }
  assert (pair_at (drop 21 slot) 0 <> (0, 0)) as Hne by (by destruct Hc).
  assert (entry_info_location (set_border border e0) = Ok (Some (pair_at (drop 21 slot) 0))) as Hil.
  { unfold entry_info_location. cbn [set_border de_extra]. rewrite Hex.
    destruct (pair_at (drop 21 slot) 0) as [x z]. cbn [fst snd].
    destruct (Nat.eqb_spec x 0), (Nat.eqb_spec z 0); subst; try done. }
  unfold geos_reader_new. change ENTRY_SIZE with 32. rewrite Hz. cbn [rbind]. rewrite Hv. cbn [rbind]. rewrite Hil. cbn [rbind].
  eexists. split; [reflexivity|]. intros ns. apply (reads_spec_blocks t d Hd Hb).
  assert (slot = slot !!! 0 :: slot !!! 1 :: drop 2 slot) as Hslot by (clear -Hls; by destruct_list slot).
  cbn [set_border de_first].
  rewrite (entry_block_spec (slot !!! 23 =? 1) (drop 2 slot) (slot !!! 0) (slot !!! 1)) by (rewrite drop_length, Hls; done).
  rewrite <- Hslot. destruct Hc as [ib ls H23 _ Hib Hls'|ib index prs lss H23 _ Hib Hi Hpr Hlss].
  - rewrite H23. cbn [Nat.eqb]. exists [drop 2 ib; data_of d ls]. split; [|by left].
    exists ib, [data_of d ls]. split; [done|]. split; [|done]. split; [done|]. cbn [gr_is_vlir].
    exists ls. split; [|done]. cbn [gr_start]. by rewrite Hf.
  - rewrite H23. cbn [Nat.eqb]. eexists. split; [|left; reflexivity].
    exists ib, (zeros_to 254 (concat prs) :: fill_all (map (data_of d) lss)). split; [done|]. split; [|done]. split; [done|]. cbn [gr_is_vlir].
    exists index, prs, (map (data_of d) lss). cbn [gr_start]. rewrite Hf. split; [done|]. split; [done|]. split; [|done].
    unfold recs. apply Forall2_fmap_r. eapply Forall2_impl; [exact Hlss|]. intros p ls' H. exists ls'. done.
Qed.

(** Reads that fit into the first block deliver its start again and again. *)
Lemma small_reads v slot rest ns :
  Forall (fun n => n <= 254) ns -> length slot = 32 ->
  block_reads (entry_block v slot :: rest) ns = map (fun n => take n (entry_block v slot)) ns.
Proof.
  intros H Hs. assert (length (entry_block v slot) = 254) as Hl by (destruct_list slot; by destruct v).
  induction H as [|n ns Hn H IH]; [done|]. cbn [block_reads block_read map].
  rewrite (proj2 (Nat.leb_le _ _)) by lia. by rewrite IH.
Qed.

(** One read into a large buffer gets the whole stream. Reads into small
    buffers get the beginning of the stream again and again. *)
Theorem convert_reads t d e l j b blocks :
  dev_shape t d -> holds_bytes d -> stored d e l j b ->
  de_scheme e = SGEOSSequential \/ de_scheme e = SGEOSVLIR ->
  convert_blocks d (slice (32 * j) 32 b) blocks ->
  exists r, geos_reader_new e = Ok r
    /\ (forall n, length (concat blocks) < n -> geos_reads d r [n; n] = [Ok (concat blocks); Ok []])
    /\ (forall ns, Forall (fun n => n <= 254) ns -> geos_reads d r ns = map (fun n => Ok (take n (concat blocks))) ns)
    /\ forall ns, geos_reads d r ns = map Ok (block_reads blocks ns).
Proof.
  intros Hd Hb Hs Hsc Hc. destruct (convert_stream t d e l j b blocks Hd Hb Hs Hsc Hc) as (r & Hr & H). exists r. split; [done|].
  assert (exists v rest, blocks = entry_block v (slice (32 * j) 32 b) :: rest) as (v & rest & E).
  { destruct Hc; [by exists false, [drop 2 ib; data_of d ls]|by eexists true, _]. }
  assert (length (slice (32 * j) 32 b) = 32) as H32.
  { destruct Hs as (Hs1 & Hj & _). pose proof (sector_Ok_length _ _ _ _ Hd Hs1). rewrite length_slice; lia. }
  split; [|split; [|done]].
  - intros n Hn. rewrite H. cbn [block_reads]. by rewrite (block_read_all blocks n Hn).
  - intros ns Hns. rewrite H, E, small_reads by done. rewrite map_map.
    assert (length (entry_block v (slice (32 * j) 32 b)) = 254) as Hl.
    { unfold entry_block, zeros_to. rewrite app_length, repeat_length, app_length, drop_length, H32. destruct v; vm_compute; reflexivity. }
    clear - Hl Hns. induction Hns as [|n ns Hn _ IH]; [done|]. cbn [map]. rewrite IH. f_equal. f_equal. cbn [concat]. rewrite take_app_le; [done|lia].
Qed.
