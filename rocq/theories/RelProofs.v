(** Relative files: their layout and their records. *)
From Verif Require Import Base ListFacts Layout Block Bam Format GeosTypes DirEntry Header World Chain Directory Writer Rel GeosFile File
  Spec SpecCodec SpecChain SpecFiles GeomFacts FlatProofs DevFacts ChainProofs.
Ltac Zify.zify_post_hook ::= Z.div_mod_to_equations.

Lemma block_at_ok d l b : sector d l = Ok b -> block_at d l = b.
Proof. unfold block_at. by intros ->. Qed.

Lemma block_at_length t d l : dev_shape t d -> length (block_at d l) = 256.
Proof.
  intros Hd. unfold block_at. destruct (sector d l) as [b| | |] eqn:E; [by eapply sector_Ok_length|..]; apply repeat_length.
Qed.

Lemma zeros_bytes : Forall is_byte (repeat 0 256).
Proof. apply Forall_forall. intros x Hx%elem_of_list_In%repeat_spec. subst. unfold is_byte. lia. Qed.

Lemma block_at_bytes d l : holds_bytes d -> Forall is_byte (block_at d l).
Proof.
  intros Hb. unfold block_at, sector. destruct (valid_loc _ l); [|exact zeros_bytes].
  destruct (d_blocks d !! _) as [b|] eqn:E; [|exact zeros_bytes].
  eapply Forall_lookup_1 in Hb; done.
Qed.

Lemma used_part_length b : length b = 256 -> Forall is_byte b ->
  length (used_part b) = if b !!! 0 =? 0 then b !!! 1 + 1 else 256.
Proof.
  intros Hl Hb. unfold used_part. destruct (b !!! 0 =? 0); [|done]. rewrite take_length.
  assert (is_byte (b !!! 1)); [|unfold is_byte in *; lia].
  destruct (lookup_lt_is_Some_2 b 1) as [x Hx]; [lia|]. rewrite (list_lookup_total_correct _ _ _ Hx).
  eapply Forall_lookup_1 in Hb; done.
Qed.

Lemma used_part_lookup b i : i < length (used_part b) -> used_part b !!! i = b !!! i.
Proof.
  unfold used_part. destruct (b !!! 0 =? 0); [|done]. rewrite take_length. intros.
  rewrite lookup_total_take by lia. done.
Qed.

Lemma pairs_spec b : pairs b = map (pair_at b) (seq 0 (length b / 2)).
Proof.
  assert (forall n b, length b <= n -> pairs b = map (pair_at b) (seq 0 (length b / 2))) as H; [|by eapply H].
  clear b. intros n. induction n as [|n IH]; intros b Hn.
  { destruct b; [done|]. simpl in Hn. lia. }
  destruct b as [|x [|y b]]; [done|done|]. cbn [pairs]. rewrite IH by (simpl in Hn; lia).
  replace (length (x :: y :: b) / 2) with (S (length b / 2)) by (simpl length; lia).
  cbn [seq map]. f_equal. rewrite <- seq_shift, map_map. apply map_ext. intros i. unfold pair_at.
  replace (2 * S i) with (S (S (2 * i))) by lia. done.
Qed.

Lemma pairs_slice b k n : 2 * k + 2 * n <= length b ->
  pairs (slice (2 * k) (2 * n) b) = map (pair_at b) (seq k n).
Proof.
  intros H. rewrite pairs_spec, length_slice by lia. replace (2 * n / 2) with n by lia.
  assert (forall m j, j + m <= n -> map (pair_at (slice (2 * k) (2 * n) b)) (seq j m) = map (pair_at b) (seq (k + j) m)) as G.
  { induction m as [|m IH]; intros j Hj; [done|]. cbn [seq map]. f_equal.
    - unfold pair_at. rewrite !lookup_total_slice by lia. f_equal; f_equal; lia.
    - rewrite IH by lia. f_equal. f_equal. lia. }
  rewrite (G n 0) by lia. by rewrite Nat.add_0_r.
Qed.

Lemma side_loop_spec ss r sides lists datas :
  side_loop ss r = Ok (sides, lists, datas) ->
  Forall (fun s => exists b, length b = 256 /\ Forall is_byte b /\ cs_data s = used_part b) ss ->
  r = Ok tt /\ sides = map cs_location ss
  /\ datas = concat (map (fun s => map (pair_at (cs_data s)) (seq 8 (length (cs_data s) / 2 - 8))) ss).
Proof.
  revert sides lists datas. induction ss as [|s ss IH]; intros sides lists datas H Hss.
  - cbn [side_loop] in H. destruct r as [[]| | |]; [|done..]. cbn [rbind] in H. by injection H as <- <- <-.
  - cbn [side_loop] in H. inversion Hss as [|? ? (b & Hl & Hb & Hu) Hss']; subst.
    destruct (length (cs_data s) <? _) eqn:El; [done|]. apply Nat.ltb_ge in El.
    change (SIDE_SECTOR_SSLIST_OFFSET + MAX_SIDE_SECTORS * 2) with 16 in El.
    assert (link_new (cs_data s) = link_new b) as Hk.
    { unfold link_new. rewrite Hu, !used_part_lookup by (rewrite <- Hu; lia). done. }
    assert (forall k, link_new b = Ok k -> match k with Next _ => 256 | Tail n => n end = length (cs_data s)) as Hsize.
    { intros k. unfold link_new. rewrite Hu, used_part_length by done. destruct (b !!! 0 =? 0).
      - destruct (b !!! 1 <? 1); [done|]. by intros [= <-].
      - by intros [= <-]. }
    rewrite Hk in H. destruct (link_new b) as [k| | |] eqn:Ek; [|done..]. cbn [rbind] in H.
    specialize (Hsize k eq_refl). change BLOCK_SIZE with 256 in H. rewrite Hsize in H.
    destruct (_ || _) eqn:Ec; [done|]. apply orb_false_iff in Ec as [_ Em]. apply Nat.eqb_neq in Em.
    destruct (side_loop ss r) as [[[s1 l1] d1]| | |] eqn:Er; [|done..]. cbn [rbind] in H.
    injection H as <- <- <-. destruct (IH _ _ _ eq_refl Hss') as (-> & -> & ->).
    split; [done|]. split; [done|]. cbn [map concat]. f_equal.
    change SIDE_SECTOR_DATA_OFFSET with (2 * 8).
    replace (length (cs_data s) - 2 * 8) with (2 * (length (cs_data s) / 2 - 8)) by lia.
    rewrite pairs_slice by lia. done.
Qed.

Lemma removelast_length {A} (l : list A) : length (removelast l) = length l - 1.
Proof.
  induction l as [|x l IH]; [done|]. destruct l; [done|]. cbn [removelast length] in *. lia.
Qed.

Lemma sector_data_length t d l e : dev_shape t d -> holds_bytes d -> ends d l e -> length (sector_data (block_at d l)) = e - 1.
Proof.
  intros Hd Hb (b & Hs & H0 & H1 & H2). rewrite (block_at_ok _ _ _ Hs). unfold sector_data. rewrite drop_length.
  rewrite used_part_length; [|by eapply sector_Ok_length|rewrite <- (block_at_ok _ _ _ Hs); by apply block_at_bytes].
  rewrite H0. simpl. lia.
Qed.

Lemma concat_blocks_length t d ls : dev_shape t d ->
  length (concat (map (fun l => drop 2 (block_at d l)) ls)) = 254 * length ls.
Proof.
  intros Hd. induction ls as [|l ls IH]; [done|]. cbn [map concat]. rewrite app_length, drop_length, (block_at_length t), IH by done.
  simpl length. lia.
Qed.

(** What opening a relative file establishes. *)
Lemma rel_opens t d c e f : dev_shape t d -> holds_bytes d -> rel_new d c e = Ok f ->
  exists side u, de_extra e = XRelative side (rf_record_size f) u
    /\ rel_layout d side (rf_side_sectors f) (rf_data_sectors f)
    /\ length (rf_side_sectors f) <= 6
    /\ rf_record_size f <> 0 /\ rf_bam f = c /\ rf_entry f = e
    /\ (forall l, last (rf_data_sectors f) = Some l -> exists n, ends d l n)
    /\ length (rel_stream d (rf_data_sectors f)) = rf_records f * rf_record_size f.
Proof.
  intros Hd Hb H. unfold rel_new in H.
  destruct (de_extra e) as [u|side len u|] eqn:Ee; try done. cbn [rbind] in H.
  destruct (chain_walk d side) as [ss r] eqn:Ew.
  destruct (side_loop ss r) as [[[sides lists] datas]| | |] eqn:El; [|done..]. cbn [rbind] in H.
  destruct (chain_traversal t d side Hd) as (ss' & r' & Ew' & _ & _ & _ & _ & _ & Hss & _).
  rewrite Ew in Ew'. injection Ew' as <- <-.
  assert (Forall (fun s => exists b, length b = 256 /\ Forall is_byte b /\ cs_data s = used_part b) ss) as Hss2.
  { eapply Forall_impl; [exact Hss|]. intros s (b & Hs & Hu). exists b. split; [by eapply sector_Ok_length|].
    split; [|done]. rewrite <- (block_at_ok _ _ _ Hs). by apply block_at_bytes. }
  destruct (side_loop_spec _ _ _ _ _ El Hss2) as (-> & Hsides & Hdatas).
  pose proof (sound_walk _ _ _ _ Hd Ew) as Hsound. rewrite <- Hsides in Hsound.
  destruct (MAX_SIDE_SECTORS <? length sides) eqn:E6; [done|]. apply Nat.ltb_ge in E6. change MAX_SIDE_SECTORS with 6 in E6.
  destruct (negb (forallb _ _)); [done|].
  assert (datas = concat (map (fun l => side_targets (block_at d l)) sides)) as Hdatas2.
  { rewrite Hdatas, Hsides, map_map. f_equal. apply map_ext_in. intros s Hs.
    rewrite Forall_forall in Hss. apply elem_of_list_In, Hss in Hs as (b & Hs & Hu).
    rewrite (block_at_ok _ _ _ Hs), Hu. unfold side_targets.
    apply map_ext_in. intros i [Hi1 Hi2]%in_seq. unfold pair_at.
    rewrite !used_part_lookup by lia. done. }
  assert (exists n, (match last datas with Some l => let? b := sector d l in let? k := link_new b in
            match k with Next _ => Err EInvalidRelativeFile | Tail size => Ok (size - 2) end | None => Ok 0 end) = Ok n
          /\ (last datas = None -> n = 0) /\ forall l, last datas = Some l -> exists k, ends d l k /\ n = k - 1) as (n & En & Hn0 & Hn).
  { destruct (last datas) as [l|]; [|by exists 0].
    destruct (sector d l) as [b| | |] eqn:Es; [|done..]. cbn [rbind] in *. unfold link_new in H |- *.
    destruct (b !!! 0 =? 0) eqn:E0; [|done]. apply Nat.eqb_eq in E0.
    destruct (b !!! 1 <? 1) eqn:E1; [done|]. apply Nat.ltb_ge in E1. cbn [rbind] in *.
    eexists. split; [done|]. split; [done|]. intros l' [= <-]. exists (b !!! 1). split; [|lia].
    exists b. split; [done|]. split; [done|]. split; [done|lia]. }
  rewrite En in H. cbn [rbind] in H. change (BLOCK_SIZE - 2) with 254 in H.
  destruct (len =? 0) eqn:Elen; [done|]. apply Nat.eqb_neq in Elen.
  destruct (negb (_ mod len =? 0)) eqn:Em; [done|]. apply negb_false_iff, Nat.eqb_eq in Em.
  injection H as <-. cbn [rf_record_size rf_side_sectors rf_data_sectors rf_records rf_bam rf_entry].
  exists side, u. split; [done|]. split; [by split|]. split; [done|]. split; [done|]. split; [done|]. split; [done|].
  split; [intros l Hl; destruct (Hn l Hl) as (k & Hk & _); by exists k|].
  unfold rel_stream. rewrite app_length, (concat_blocks_length t), removelast_length by done.
  assert (length match last datas with Some l => sector_data (block_at d l) | None => [] end = n) as ->.
  { destruct (last datas) as [l|]; [|by rewrite Hn0]. destruct (Hn l eq_refl) as (k & Hk & ->).
    by eapply sector_data_length. }
  pose proof (Nat.div_mod ((length datas - 1) * 254 + n) len Elen) as Hdm. rewrite Em in Hdm. lia.
Qed.

Lemma full_lookup t d ls i : dev_shape t d -> i < 254 * length ls ->
  concat (map (fun l => drop 2 (block_at d l)) ls) !!! i = block_at d (ls !!! (i / 254)) !!! (i mod 254 + 2).
Proof.
  intros Hd. revert i. induction ls as [|l ls IH]; intros i Hi; [simpl in Hi; lia|].
  cbn [map concat]. destruct (decide (i < 254)) as [H|H].
  - rewrite lookup_total_app_l by (rewrite drop_length, (block_at_length t) by done; lia).
    rewrite lookup_total_drop. rewrite Nat.div_small, Nat.mod_small by done. cbn. f_equal. lia.
  - rewrite lookup_total_app_r by (rewrite drop_length, (block_at_length t) by done; lia).
    rewrite drop_length, (block_at_length t) by done. cbn [length] in Hi. rewrite IH by lia.
    replace (i / 254) with (S ((i - (256 - 2)) / 254)) by lia. replace (i mod 254) with ((i - (256 - 2)) mod 254) by lia.
    done.
Qed.

Lemma stream_lookup t d ls i : dev_shape t d -> holds_bytes d -> (forall l, last ls = Some l -> exists n, ends d l n) ->
  i < length (rel_stream d ls) ->
  i / 254 < length ls /\ rel_stream d ls !!! i = block_at d (ls !!! (i / 254)) !!! (i mod 254 + 2).
Proof.
  intros Hd Hb He. destruct (last ls) as [l|] eqn:El.
  2:{ apply last_None in El. subst. cbn. lia. }
  apply last_Some in El as [ls' ->]. unfold rel_stream. rewrite removelast_last, last_snoc.
  rewrite app_length, (concat_blocks_length t) by done. destruct (He l eq_refl) as [n Hn].
  pose proof (sector_data_length t d l n Hd Hb Hn) as Hlen.
  destruct Hn as (b & Hs & H0 & H1 & H2). assert (n < 256).
  { rewrite <- H1. apply bytes_lookup_total. rewrite <- (block_at_ok _ _ _ Hs). by apply block_at_bytes. }
  rewrite Hlen. intros Hi. rewrite app_length. cbn [length]. split; [lia|].
  destruct (decide (i < 254 * length ls')) as [H3|H3].
  - rewrite lookup_total_app_l by (rewrite (concat_blocks_length t) by done; lia).
    rewrite (full_lookup t) by done. rewrite lookup_total_app_l by lia. done.
  - rewrite lookup_total_app_r by (rewrite (concat_blocks_length t) by done; lia).
    rewrite (concat_blocks_length t) by done. rewrite (lookup_total_app_r ls') by lia.
    replace (i / 254 - length ls') with 0 by lia. change ([l] !!! 0) with l.
    unfold sector_data. rewrite lookup_total_drop, used_part_lookup.
    + f_equal. lia.
    + unfold sector_data in Hlen. rewrite drop_length in Hlen. lia.
Qed.

(** Record [i] of a relative file. *)
Lemma rel_record_spec t d c e f i : dev_shape t d -> holds_bytes d -> rel_new d c e = Ok f ->
  rf_record_size f < 256 ->
  if decide (i < rf_records f) then
    rel_record d f i = Ok (slice (i * rf_record_size f) (rf_record_size f) (rel_stream d (rf_data_sectors f)))
    \/ rel_record d f i = Err EInvalidLocation
       /\ exists l, In l (rf_data_sectors f) /\ valid_loc (d_geom d) l = false
  else rel_record d f i = Err EInvalidRecordIndex.
Proof.
  intros Hd Hb Hf Hn. destruct (rel_opens t d c e f Hd Hb Hf) as (side & u & Hx & _ & _ & Hz & _ & _ & Hlast & Hlen).
  unfold rel_record, record_position. case_decide as Hi.
  2:{ rewrite (proj2 (Nat.leb_le _ _)) by lia. done. }
  rewrite (proj2 (Nat.leb_gt _ _)) by lia. cbn [rbind].
  set (n := rf_record_size f) in *. change (BLOCK_SIZE - 2) with 254. change BLOCK_SIZE with 256.
  set (ls := rf_data_sectors f) in *. rewrite (Nat.mul_comm n i). set (o := i * n).
  assert (o + n <= length (rel_stream d ls)) as Ho by (rewrite Hlen; unfold o; nia).
  destruct (stream_lookup t d ls o Hd Hb Hlast) as [Hq _]; [lia|].
  destruct (lookup_lt_is_Some_2 ls (o / 254)) as [l Hl]; [done|]. rewrite Hl.
  assert (forall l b, sector d l = Ok b -> length b = 256) as Hbl by (intros; by eapply sector_Ok_length).
  assert (forall l, In l ls -> (exists b, sector d l = Ok b) \/ (sector d l = Err EInvalidLocation /\ valid_loc (d_geom d) l = false)) as Hcase.
  { intros l' _. destruct (valid_loc (d_geom d) l') eqn:E; [left; by eapply sector_Ok_iff|right; by rewrite sector_invalid]. }
  assert (In l ls) as Hin by (apply elem_of_list_In; by eapply elem_of_list_lookup_2).
  pose proof (list_lookup_total_correct _ _ _ Hl) as Hlt.
  destruct (o mod 254 + 2 + n <=? 256) eqn:Efit.
  - apply Nat.leb_le in Efit. cbn [rbind p_loc p_off p_size]. unfold read_position. cbn [p_loc p_off p_size].
    destruct (Hcase l Hin) as [[b Hs]|[Hs Hv]].
    2:{ rewrite Hs. cbn [rbind]. right. split; [done|by exists l]. }
    rewrite Hs. cbn [rbind]. rewrite (Hbl _ _ Hs), (proj2 (Nat.leb_le _ _)) by lia. cbn [rbind]. left.
    assert (slice (o mod 254 + 2) n b = slice o n (rel_stream d ls)) as ->.
    { apply list_eq_total; [by rewrite !length_slice by (rewrite ?(Hbl _ _ Hs); lia)|]. intros j Hj.
      rewrite length_slice in Hj by (rewrite (Hbl _ _ Hs); lia). rewrite !lookup_total_slice by done.
      destruct (stream_lookup t d ls (o + j) Hd Hb Hlast) as [_ ->]; [lia|].
      replace ((o + j) / 254) with (o / 254) by lia. rewrite Hlt, (block_at_ok _ _ _ Hs). f_equal. lia. }
    rewrite length_slice by done. by rewrite Nat.eqb_refl.
  - apply Nat.leb_gt in Efit.
    destruct (stream_lookup t d ls (o + n - 1) Hd Hb Hlast) as [Hq' _]; [lia|].
    destruct (lookup_lt_is_Some_2 ls (o / 254 + 1)) as [l' Hl']; [lia|]. rewrite Hl'.
    assert (In l' ls) as Hin' by (apply elem_of_list_In; by eapply elem_of_list_lookup_2).
    pose proof (list_lookup_total_correct _ _ _ Hl') as Hlt'.
    cbn [rbind]. unfold read_position. cbn [p_loc p_off p_size].
    destruct (Hcase l Hin) as [[b Hs]|[Hs Hv]].
    2:{ rewrite Hs. cbn [rbind]. right. split; [done|by exists l]. }
    rewrite Hs. cbn [rbind]. rewrite (Hbl _ _ Hs), (proj2 (Nat.leb_le _ _)) by lia. cbn [rbind].
    destruct (Hcase l' Hin') as [[b' Hs']|[Hs' Hv']].
    2:{ rewrite Hs'. cbn [rbind]. right. split; [done|by exists l']. }
    rewrite Hs'. cbn [rbind]. rewrite (Hbl _ _ Hs'), (proj2 (Nat.leb_le _ _)) by lia. cbn [rbind]. left.
    set (m := o mod 254 + 2 + n - 256) in *.
    assert (slice (o mod 254 + 2) (n - m) b ++ slice 2 m b' = slice o n (rel_stream d ls)) as ->.
    { assert (length (slice (o mod 254 + 2) (n - m) b) = n - m) as Hl1 by (rewrite length_slice by (rewrite (Hbl _ _ Hs); lia); done).
      assert (length (slice 2 m b') = m) as Hl2 by (rewrite length_slice by (rewrite (Hbl _ _ Hs'); lia); done).
      apply list_eq_total; [rewrite app_length, Hl1, Hl2, length_slice by lia; lia|]. intros j Hj.
      rewrite app_length, Hl1, Hl2 in Hj.
      rewrite (lookup_total_slice o) by lia.
      destruct (stream_lookup t d ls (o + j) Hd Hb Hlast) as [_ ->]; [lia|].
      destruct (decide (j < n - m)) as [H1|H1].
      - rewrite lookup_total_app_l, lookup_total_slice by lia.
        replace ((o + j) / 254) with (o / 254) by lia. rewrite Hlt, (block_at_ok _ _ _ Hs). f_equal. lia.
      - rewrite lookup_total_app_r, Hl1, lookup_total_slice by lia.
        replace ((o + j) / 254) with (o / 254 + 1) by lia. rewrite Hlt', (block_at_ok _ _ _ Hs'). f_equal. lia. }
    rewrite length_slice by done. by rewrite Nat.eqb_refl.
Qed.
