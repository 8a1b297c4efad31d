(** The directory of any image, sound or not. *)
From Verif Require Import Base ListFacts Layout Block Bam Format Petscii GeosTypes DirEntry Header World Chain Directory Writer Rel GeosFile File
  Spec SpecCodec SpecChain SpecFiles GeomFacts FlatProofs DevFacts CodecProofs EntryProofs ChainProofs RelProofs Evolve Ops Opening.
Ltac Zify.zify_post_hook ::= Z.div_mod_to_equations.

Lemma sector_entries_spec border l data fuel k off :
  length data <= 256 -> (32 * k < length data -> off = 32 * k) ->
  exists es, sector_entries border l off (chunks_fuel fuel 32 (drop (32 * k) data)) = Ok es
    /\ forall e, In e es -> exists j e0, 32 * j + 32 <= length data
         /\ dirent_parse (slice (32 * j) 32 data) (Some (mk_position l (32 * j) 32)) = Ok e0
         /\ e = set_border border e0 /\ is_scratched (de_attr e) = false.
Proof.
  intros Hl. revert k off. induction fuel as [|fuel IH]; intros k off Ho; [by exists []|].
  cbn [chunks_fuel]. destruct (drop (32 * k) data) as [|x rest] eqn:E; [by exists []|]. rewrite <- E.
  assert (32 * k < length data) as Hk.
  { assert (length (drop (32 * k) data) = length (x :: rest)) as H by (by rewrite E). rewrite drop_length in H. cbn in H. lia. }
  rewrite Ho by done. rewrite drop_drop. replace (32 * k + 32) with (32 * S k) by lia.
  cbn [sector_entries]. rewrite take_length, drop_length. change ENTRY_SIZE with 32.
  destruct (Nat.min 32 (length data - 32 * k) =? 32) eqn:Em; cbn [negb].
  - apply Nat.eqb_eq in Em. change (take 32 (drop (32 * k) data)) with (slice (32 * k) 32 data).
    assert (length (slice (32 * k) 32 data) = 32) as Hs by (apply length_slice; lia).
    assert (exists e0, dirent_parse (slice (32 * k) 32 data) (Some (mk_position l (32 * k) 32)) = Ok e0) as [e0 He0].
    { unfold dirent_parse. rewrite Hs. by eexists. }
    rewrite He0. cbn [rbind].
    destruct (IH (S k) ((32 * k + 32) mod 256)) as (es & -> & Hes); [lia|]. cbn [rbind].
    eexists. split; [done|]. intros e.
    destruct (is_scratched (de_attr (set_border border e0))) eqn:Esc; [apply Hes|].
    intros [<-|He]; [|by apply Hes]. exists k, e0. split; [lia|]. done.
  - apply Nat.eqb_neq in Em. apply IH. lia.
Qed.

Lemma entries_of_sectors_spec d h ss r :
  Forall (fun s => exists b, sector d (cs_location s) = Ok b /\ length b = 256 /\ (cs_data s = used_part b \/ cs_data s = b)) ss ->
  exists es, entries_of_sectors h ss r = (es, r) /\ forall e, In e es -> exists l j b, stored d e l j b.
Proof.
  induction 1 as [|s ss (b & Hb & Hlb & Hd) _ (es & IH & Hes)]; cbn [entries_of_sectors]; [by exists []|].
  assert (length (cs_data s) <= 256 /\ forall i n, i + n <= length (cs_data s) -> slice i n (cs_data s) = slice i n b) as [Hl Hsl].
  { destruct Hd as [->| ->]; [|by rewrite Hlb]. unfold used_part. destruct (b !!! 0 =? 0); [|by rewrite Hlb].
    rewrite take_length. split; [lia|]. intros i n Hn. apply list_eq_total; [rewrite !length_slice by (rewrite ?take_length; lia); done|].
    intros k Hk. rewrite length_slice in Hk by (rewrite take_length; lia). rewrite !lookup_total_slice by done.
    apply lookup_total_take. lia. }
  pose proof (sector_entries_spec (on_border h (cs_location s)) (cs_location s) (cs_data s) (length (cs_data s)) 0 0 Hl) as (es1 & H1 & H2).
  { intros. lia. }
  rewrite Nat.mul_0_r, drop_0 in H1. unfold chunks. change ENTRY_SIZE with 32. rewrite H1, IH. eexists. split; [done|].
  intros e [He|He]%in_app_or; [|by apply Hes].
  destruct (H2 e He) as (j & e0 & Hj & Hp & He1 & He2). exists (cs_location s), j, b.
  split; [done|]. split; [lia|]. eexists _, e0. split; [|done]. by rewrite <- Hsl.
Qed.

(** Iterating over the directory of any image. *)
Lemma iter_stored t w e : dev_shape t (w_dev w) -> In e (fst (w_iter w)) -> exists l j b, stored (w_dev w) e l j b.
Proof.
  intros Hd. unfold w_iter. destruct (w_disk_format w) as [f| | |]; [|done..]. destruct (w_get_header w) as [h| | |]; [|done..].
  destruct (directory_sectors (w_dev w) f h) as [ss r] eqn:E.
  assert (Forall (fun s => exists b, sector (w_dev w) (cs_location s) = Ok b /\ length b = 256 /\ (cs_data s = used_part b \/ cs_data s = b)) ss) as Hss.
  { unfold directory_sectors in E. destruct (chain_traversal t (w_dev w) (first_directory_location f) Hd) as (ss' & r' & Ew & _ & _ & _ & _ & _ & Hss & _).
    rewrite Ew in E.
    assert (Forall (fun s => exists b, sector (w_dev w) (cs_location s) = Ok b /\ length b = 256 /\ (cs_data s = used_part b \/ cs_data s = b)) ss') as Hss'.
    { eapply Forall_impl; [exact Hss|]. intros s (b & Hb & Hu). exists b. split; [done|]. split; [by eapply sector_Ok_length|by left]. }
    destruct (h_geos h) as [gh|]; [|injection E as <- <-; done].
    destruct r'; try (injection E as <- <-; done).
    destruct (sector (w_dev w) (gh_border gh)) as [b| | |] eqn:Eb; try (injection E as <- <-; done).
    injection E as <- <-. apply Forall_app. split; [done|]. constructor; [|done]. exists b. cbn.
    split; [done|]. split; [by eapply sector_Ok_length|by right]. }
  destruct (entries_of_sectors_spec (w_dev w) h ss r Hss) as (es & -> & H). cbn [fst]. apply H.
Qed.

Lemma find_stored t w name e : dev_shape t (w_dev w) -> w_find w name = Ok e ->
  de_name e = name /\ In e (fst (w_iter w)) /\ exists l j b, stored (w_dev w) e l j b.
Proof.
  intros Hd. unfold w_find. destruct (w_iter w) as [es r] eqn:E.
  destruct (List.find _ es) as [e'|] eqn:Ef.
  - intros [= ->]. apply find_some in Ef as [Hin Hn%bool_decide_eq_true]. split; [done|]. split; [done|].
    eapply iter_stored; [done|]. by rewrite E.
  - by destruct r.
Qed.

(** Writing an entry back under another name. *)
Lemma splice_name b0 b1 a t s name new x lo hi :
  length name = 16 -> length new = 16 ->
  splice 5 new (entry_bytes b0 b1 a t s name x lo hi) = entry_bytes b0 b1 a t s new x lo hi.
Proof.
  intros Hn Hn'. destruct_list name. destruct_list new. reflexivity.
Qed.

Lemma rename_bytes bytes pos e border new :
  length bytes = 32 -> Forall is_byte bytes -> dirent_parse bytes pos = Ok e -> length new <= 16 ->
  dirent_to_bytes (set_name new (set_border border e)) bytes = Ok (splice 5 (new ++ repeat 160 (16 - length new)) bytes).
Proof.
  intros Hlen Hb He Hn. pose proof (entry_bytes_all bytes Hlen) as Hall.
  set (name := slice 5 16 bytes) in *. set (x := slice 21 9 bytes) in *.
  assert (length name = 16) as Hnl by (apply length_slice; lia).
  assert (length x = 9) as Hx by (apply length_slice; lia).
  pose proof (parse_entry_bytes (bytes !!! 0) (bytes !!! 1) (bytes !!! 2) (bytes !!! 3)
    (bytes !!! 4) name x (bytes !!! 30) (bytes !!! 31) pos Hnl Hx) as Hp.
  rewrite <- Hall, He in Hp. injection Hp as ->.
  pose proof (bytes_lookup_total bytes 30 Hb) as H30. unfold is_byte in H30.
  assert (bytes !!! 2 < 256) as H2 by (by apply bytes_lookup_total).
  set (new' := new ++ repeat 160 (16 - length new)).
  assert (length new' = 16) as Hn' by (unfold new'; rewrite app_length, repeat_length; lia).
  rewrite (dirent_to_bytes_eq _ bytes new' x);
    cbn [set_name set_border de_attr de_first de_name de_extra de_size fst snd]; try done.
  - rewrite attr_byte_roundtrip by done.
    replace ((bytes !!! 31 * 256 + bytes !!! 30) mod 256) with (bytes !!! 30) by lia.
    replace ((bytes !!! 31 * 256 + bytes !!! 30) / 256) with (bytes !!! 31) by lia.
    f_equal. rewrite <- (splice_name (bytes !!! 0) (bytes !!! 1) (bytes !!! 2) (bytes !!! 3) (bytes !!! 4) name new') by done.
    by rewrite <- Hall.
  - unfold write_bytes_with_padding. by rewrite (proj2 (Nat.ltb_ge _ _)).
  - by apply extra_rewrite.
Qed.

(** ** How iterating ends *)

Lemma iter_end t w : dev_shape t (w_dev w) -> snd (w_iter w) = Ok tt \/ exists k, snd (w_iter w) = Err k /\ k <> ENotFound.
Proof.
  intros Hd. unfold w_iter, w_disk_format, w_get_header.
  destruct (w_fmt w) as [f|]; [|right; by exists EUnformatted].
  destruct (w_header w) as [h|]; [|right; by exists EUnformatted].
  unfold directory_sectors.
  destruct (chain_traversal t (w_dev w) (first_directory_location f) Hd) as (ss & r & Ew & _ & _ & _ & _ & _ & Hss & He).
  rewrite Ew.
  assert (Forall (fun s => exists b, sector (w_dev w) (cs_location s) = Ok b /\ length b = 256 /\ (cs_data s = used_part b \/ cs_data s = b)) ss) as Hss'.
  { eapply Forall_impl; [exact Hss|]. intros s (b & Hb & Hu). exists b. split; [done|]. split; [by eapply sector_Ok_length|by left]. }
  assert (r = Ok tt \/ exists k, r = Err k /\ k <> ENotFound) as Hr.
  { destruct He as [[-> _]|[[-> _]|[[-> _]|[-> _]]]]; [by left|right; eexists; done..]. }
  destruct (h_geos h) as [gh|].
  2:{ destruct (entries_of_sectors_spec (w_dev w) h ss r Hss') as (es & -> & _). done. }
  destruct Hr as [->|(k & -> & Hk)].
  2:{ destruct (entries_of_sectors_spec (w_dev w) h ss (Err k) Hss') as (es & -> & _). right. by exists k. }
  destruct (valid_loc (d_geom (w_dev w)) (gh_border gh)) eqn:Ev.
  - apply (sector_Ok_iff t) in Ev as [b Hb]; [|done]. rewrite Hb.
    destruct (entries_of_sectors_spec (w_dev w) h (ss ++ [mk_cs b (gh_border gh)]) (Ok tt)) as (es & -> & _); [|by left].
    apply Forall_app. split; [done|]. constructor; [|done]. exists b. cbn.
    split; [done|]. split; [by eapply sector_Ok_length|by right].
  - rewrite sector_invalid by done.
    destruct (entries_of_sectors_spec (w_dev w) h ss (Err EInvalidLocation) Hss') as (es & -> & _). right. by eexists.
Qed.

Lemma find_cases t w name : dev_shape t (w_dev w) ->
  (In name (map de_name (fst (w_iter w))) /\ exists e, w_find w name = Ok e)
  \/ (~ In name (map de_name (fst (w_iter w))) /\ exists k, w_find w name = Err k
      /\ (snd (w_iter w) = Ok tt /\ k = ENotFound \/ snd (w_iter w) = Err k /\ k <> ENotFound)).
Proof.
  intros Hd. pose proof (iter_end t w Hd) as He. unfold w_find. destruct (w_iter w) as [es r]. cbn [fst snd] in *.
  destruct (List.find _ es) as [e|] eqn:Ef.
  - left. apply find_some in Ef as [Hin Hn%bool_decide_eq_true]. split; [|by eexists]. rewrite <- Hn. by apply in_map.
  - right. split.
    + intros (e & Hn & Hin)%in_map_iff. apply (find_none _ _ Ef) in Hin. by apply bool_decide_eq_false in Hin.
    + destruct He as [->|(k & -> & Hk)]; eexists; (split; [reflexivity|]); [by left|by right].
Qed.

(** ** Renaming *)

Lemma rename_write t w e l j b new : dev_shape t (w_dev w) -> holds_bytes (w_dev w) -> stored (w_dev w) e l j b -> length new <= 16 ->
  write_directory_entry (set_name new e) w
  = if d_writable (w_dev w) then
      (set_dev (upd (w_dev w) l (splice (32 * j + 5) (new ++ repeat 160 (16 - length new)) b)) w, Ok tt)
    else (w, Err EReadOnly).
Proof.
  intros Hd Hb (Hs & Hj & border & e0 & Hp & -> & _) Hn.
  pose proof (sector_Ok_length _ _ _ _ Hd Hs) as Hlb.
  assert (Forall is_byte b) as Hbb by (rewrite <- (block_at_ok _ _ _ Hs); by apply block_at_bytes).
  assert (de_pos e0 = Some (mk_position l (32 * j) 32)) as Hpos.
  { unfold dirent_parse in Hp. destruct (negb _); [done|]. by injection Hp as <-. }
  unfold write_directory_entry, on_dev, zoom, positioned_write. cbn [set_name set_border de_pos].
  rewrite Hpos. cbn [p_loc p_off p_size]. unfold check_writability.
  destruct (d_writable (w_dev w)) eqn:Ew.
  2:{ cbn [rbind]. by destruct w. }
  cbn [rbind]. rewrite Hs. cbn [rbind]. rewrite (proj2 (Nat.ltb_ge _ _)) by lia.
  assert (length (slice (32 * j) 32 b) = 32) as Hsl by (apply length_slice; lia).
  pose proof (rename_bytes (slice (32 * j) 32 b) _ e0 border new Hsl (forall_bytes_slice _ _ _ Hbb) Hp Hn) as Hr.
  unfold set_name, set_border in Hr |- *. rewrite Hr.
  rewrite (sector_mut_upd _ _ _ b) by done. do 3 f_equal.
  unfold splice. set (new' := new ++ repeat 160 (16 - length new)).
  assert (length new' = 16) as Hn' by (unfold new'; rewrite app_length, repeat_length; lia).
  assert (length (take 5 (slice (32 * j) 32 b) ++ new' ++ drop (5 + length new') (slice (32 * j) 32 b)) = 32) as Hl2.
  { rewrite !app_length, take_length, drop_length, Hsl, Hn'. lia. }
  rewrite Hl2, Hn'. unfold slice.
  rewrite take_take. change (5 `min` 32) with 5. rewrite skipn_firstn_comm, drop_drop, <- !app_assoc.
  rewrite (app_assoc (take (32 * j) b)), take_take_drop. do 2 f_equal.
  transitivity (take 11 (drop (32 * j + 21) b) ++ drop 11 (drop (32 * j + 21) b)).
  - f_equal. rewrite drop_drop. f_equal. lia.
  - rewrite take_drop. f_equal. lia.
Qed.

Lemma rename_cases t w old new : dev_shape t (w_dev w) -> holds_bytes (w_dev w) ->
  let names := map de_name (fst (w_iter w)) in
  (~ In old names -> exists k, w_rename old new w = (w, Err k)
     /\ (snd (w_iter w) = Ok tt /\ k = ENotFound \/ snd (w_iter w) = Err k))
  /\ (In old names -> 16 < length new -> w_rename old new w = (w, Err EFilenameTooLong))
  /\ (In old names -> length new <= 16 -> In new names -> w_rename old new w = (w, Err EFileExists))
  /\ (In old names -> length new <= 16 -> ~ In new names -> forall k, snd (w_iter w) = Err k -> w_rename old new w = (w, Err k))
  /\ (In old names -> length new <= 16 -> ~ In new names -> snd (w_iter w) = Ok tt ->
      exists e l j b, In e (fst (w_iter w)) /\ de_name e = old /\ stored (w_dev w) e l j b
        /\ w_rename old new w
           = if d_writable (w_dev w) then
               (set_dev (upd (w_dev w) l (splice (32 * j + 5) (new ++ repeat 160 (16 - length new)) b)) w, Ok tt)
             else (w, Err EReadOnly)).
Proof.
  intros Hd Hb names. unfold w_rename, asks, lift, check_filename_validity, check_filename_availability, sbind.
  destruct (find_cases t w old Hd) as [[Hin [e He]]|[Hin (k & Hk & Hc)]]; fold names in Hin; rewrite ?He, ?Hk.
  2:{ split; [|done]. intros _. exists k. split; [done|]. destruct Hc as [[? ?]|[? ?]]; [by left|by right]. }
  split; [done|].
  destruct (find_stored t w old e Hd He) as (Hn & Hin2 & l & j & b & Hst).
  destruct (ENTRY_FILENAME_LENGTH <? length new) eqn:El; change ENTRY_FILENAME_LENGTH with 16 in El.
  { apply Nat.ltb_lt in El. repeat split; intros; try lia. }
  apply Nat.ltb_ge in El. split; [intros; lia|].
  destruct (find_cases t w new Hd) as [[Hin' [e' He']]|[Hin' (k & Hk & Hc)]]; fold names in Hin'; rewrite ?He', ?Hk.
  { repeat split; intros; done. }
  split; [done|]. split.
  - intros _ _ _ k' Hk'. rewrite Hk' in Hc. destruct Hc as [[? _]|[[= <-] Hne]]; [done|]. by destruct k'.
  - intros _ _ _ Hr. rewrite Hr in Hc. destruct Hc as [[_ ->]|[? _]]; [|done].
    exists e, l, j, b. split; [done|]. split; [done|]. split; [done|]. by apply (rename_write t).
Qed.

(** The record length of a stored entry is a byte, and its scheme fits its extra bytes. *)
Lemma stored_rel t d e l j b : dev_shape t d -> holds_bytes d -> stored d e l j b ->
  forall side len u, de_extra e = XRelative side len u -> len < 256.
Proof.
  intros Hd Hb (Hs & Hj & border & e0 & Hp & -> & _) side len u Hx.
  pose proof (sector_Ok_length _ _ _ _ Hd Hs) as Hlb.
  assert (Forall is_byte b) as Hbb by (rewrite <- (block_at_ok _ _ _ Hs); by apply block_at_bytes).
  unfold dirent_parse in Hp. destruct (negb _); [done|]. injection Hp as <-.
  unfold set_border, de_extra in Hx.
  destruct (entry_scheme _ _); cbn [extra_from_bytes] in Hx; try done.
  injection Hx as _ <- _. apply bytes_lookup_total. by apply forall_bytes_slice, forall_bytes_slice.
Qed.

Lemma rename_effect t w e l j b new : dev_shape t (w_dev w) -> stored (w_dev w) e l j b ->
  let w' := set_dev (upd (w_dev w) l (splice (32 * j + 5) (new ++ repeat 160 (16 - length new)) b)) w in
  sector (w_dev w') l = Ok (splice (32 * j + 5) (new ++ repeat 160 (16 - length new)) b)
  /\ (forall l', l' <> l -> sector (w_dev w') l' = sector (w_dev w) l')
  /\ d_etable (w_dev w') = d_etable (w_dev w) /\ d_geom (w_dev w') = d_geom (w_dev w) /\ set_dev (w_dev w) w' = w.
Proof.
  intros Hd (Hs & _) w'. pose proof (sector_Ok_valid _ _ _ Hs) as Hv. cbn [w' set_dev w_dev].
  split; [by eapply sector_upd_same|]. split; [intros l' Hl; by eapply sector_upd_other|].
  split; [done|]. split; [done|]. by destruct w.
Qed.

(** Renaming on any image, as one statement. *)
Lemma rename_any t w old new : dev_shape t (w_dev w) -> holds_bytes (w_dev w) ->
  let names := map de_name (fst (w_iter w)) in
  (forall w' k, w_rename old new w = (w', Err k) -> w' = w)
  /\ (forall w', w_rename old new w = (w', Ok tt) ->
       In old names /\ length new <= 16 /\ ~ In new names
       /\ exists e l j b, In e (fst (w_iter w)) /\ de_name e = old /\ stored (w_dev w) e l j b
          /\ sector (w_dev w') l = Ok (splice (32 * j + 5) (new ++ repeat 160 (16 - length new)) b)
          /\ (forall l', l' <> l -> sector (w_dev w') l' = sector (w_dev w) l')
          /\ d_etable (w_dev w') = d_etable (w_dev w) /\ d_geom (w_dev w') = d_geom (w_dev w) /\ set_dev (w_dev w) w' = w)
  /\ (snd (w_iter w) = Ok tt -> d_writable (w_dev w) = true ->
       (~ In old names -> snd (w_rename old new w) = Err ENotFound)
       /\ (In old names -> 16 < length new -> snd (w_rename old new w) = Err EFilenameTooLong)
       /\ (In old names -> length new <= 16 -> In new names -> snd (w_rename old new w) = Err EFileExists)
       /\ (In old names -> length new <= 16 -> ~ In new names -> snd (w_rename old new w) = Ok tt)).
Proof.
  intros Hd Hb names. destruct (rename_cases t w old new Hd Hb) as (H1 & H2 & H3 & H4 & H5). fold names in H1, H2, H3, H4, H5.
  pose proof (iter_end t w Hd) as Hend.
  assert (forall n, In n names \/ ~ In n names) as Hdec.
  { intros n. rewrite <- elem_of_list_In. destruct (decide (n ∈ names)); tauto. }
  destruct (Hdec old) as [Hin|Hin].
  2:{ destruct (H1 Hin) as (k & -> & Hk). split; [by intros ? ? [= <- <-]|]. split; [done|]. intros Hr _.
      rewrite Hr in Hk. destruct Hk as [[_ ->]|?]; [|done]. by repeat split; intros. }
  destruct (decide (16 < length new)) as [Hl|Hl].
  { rewrite (H2 Hin Hl). split; [by intros ? ? [= <- <-]|]. split; [done|]. intros _ _. repeat split; intros; (done || lia). }
  destruct (Hdec new) as [Hin'|Hin'].
  { rewrite (H3 Hin) by (done || lia). split; [by intros ? ? [= <- <-]|]. split; [done|]. intros _ _. repeat split; intros; (done || lia). }
  destruct Hend as [Hr|(k & Hk & _)].
  2:{ rewrite (H4 Hin ltac:(lia) Hin' k Hk). split; [by intros ? ? [= <- <-]|]. split; [done|]. by rewrite Hk. }
  destruct (H5 Hin ltac:(lia) Hin' Hr) as (e & l & j & b & He & Hn & Hst & ->).
  destruct (d_writable (w_dev w)) eqn:Ew.
  - split; [done|]. split; [|intros _ _; repeat split; intros; (done || lia)]. intros w' [= <-]. split; [done|]. split; [lia|]. split; [done|].
    exists e, l, j, b. split; [done|]. split; [done|]. split; [done|]. by eapply rename_effect.
  - split; [by intros ? ? [= <- <-]|]. by split.
Qed.

(** The records of a relative file of any image. *)
Lemma rel_records t d name f : dev_shape t d -> holds_bytes d ->
  open_file (open_world t d) name = Ok f -> de_scheme (file_entry f) = SRelative ->
  exists side len u sides datas,
    de_name (file_entry f) = name /\ de_extra (file_entry f) = XRelative side len u /\ 0 < len
    /\ rel_layout d side sides datas
    /\ file_record_count f * len = length (rel_stream d datas)
    /\ (forall i, i < file_record_count f -> Forall (fun l => valid_loc (d_geom d) l = true) datas ->
          file_record d f i = Ok (slice (i * len) len (rel_stream d datas)))
    /\ (forall i x, file_record d f i = Ok x ->
          i < file_record_count f /\ x = slice (i * len) len (rel_stream d datas) /\ length x = len)
    /\ (forall i, file_record_count f <= i -> file_record d f i = Err EInvalidRecordIndex)
    /\ (forall i, file_record d f i <> Panic).
Proof.
  intros Hd Hb Ho Hsch. destruct (open_cases t d Hd) as (_ & Hdev & _).
  unfold open_file in Ho. destruct (w_find (open_world t d) name) as [e| | |] eqn:Ef; [|done..]. cbn [rbind] in Ho.
  pose proof (find_stored t (open_world t d) name e ltac:(by rewrite Hdev) Ef) as (Hn & _ & l & j & b & Hst). rewrite Hdev in Hst.
  unfold open_file_from_entry in Ho. destruct (w_get_bam (open_world t d)) as [c| | |]; [|done..]. cbn [rbind] in Ho. rewrite Hdev in Ho.
  assert (exists rf, f = FRelative rf /\ rel_new d c e = Ok rf) as (rf & -> & Hrf).
  { assert (forall x, geos_new d c e = Ok x -> gf_entry x = e) as Hge.
    { intros x. unfold geos_new. destruct (entry_is_vlir e) as [v| | |]; [|done..]. cbn [rbind]. destruct v; [|by intros [= <-]].
      destruct (sector d (de_first e)); [|done..]. cbn [rbind]. by intros [= <-]. }
    destruct (de_scheme e) eqn:Es.
    - injection Ho as <-. cbn [file_entry] in Hsch. congruence.
    - destruct (rel_new d c e) as [rf| | |]; [|done..]. cbn [rbind] in Ho. injection Ho as <-. by exists rf.
    - destruct (geos_new d c e) as [x| | |] eqn:E; [|done..]. cbn [rbind] in Ho. injection Ho as <-. cbn [file_entry] in Hsch.
      rewrite (Hge x eq_refl) in Hsch. congruence.
    - destruct (geos_new d c e) as [x| | |] eqn:E; [|done..]. cbn [rbind] in Ho. injection Ho as <-. cbn [file_entry] in Hsch.
      rewrite (Hge x eq_refl) in Hsch. congruence. }
  destruct (rel_opens t d c e rf Hd Hb Hrf) as (side & u & Hx & Hlay & _ & Hz & _ & He & _ & Hlen).
  pose proof (stored_rel t d e l j b Hd Hb Hst _ _ _ Hx) as Hlt.
  exists side, (rf_record_size rf), u, (rf_side_sectors rf), (rf_data_sectors rf).
  cbn [file_entry file_record_count file_record]. rewrite He.
  split; [done|]. split; [done|]. split; [lia|]. split; [done|]. split; [done|].
  pose proof (fun i => rel_record_spec t d c e rf i Hd Hb Hrf Hlt) as Hrec.
  split; [|split; [|split]].
  - intros i Hi Hv. specialize (Hrec i). rewrite decide_True in Hrec by done. destruct Hrec as [->|(_ & l' & Hl' & Hv')]; [done|].
    rewrite Forall_forall in Hv. rewrite Hv in Hv' by (by apply elem_of_list_In). done.
  - intros i x Hi. specialize (Hrec i). case_decide as Hc; [|congruence].
    destruct Hrec as [Hr|[Hr _]]; rewrite Hr in Hi; [|done]. injection Hi as <-.
    split; [done|]. split; [done|]. apply length_slice. rewrite Hlen. nia.
  - intros i Hi. specialize (Hrec i). rewrite decide_False in Hrec by lia. done.
  - intros i. specialize (Hrec i). case_decide; [destruct Hrec as [->|[-> _]]|rewrite Hrec]; done.
Qed.
