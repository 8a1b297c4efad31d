(** An image in order that holds a relative file, two GEOS files and a plain file. *)
From Verif Require Import Base ListFacts Layout Block Bam Format Petscii GeosTypes DirEntry Header World Chain Directory Writer Rel GeosFile File Validate
  Spec SpecChain SpecFiles SpecCodec SpecBam CodecMore DevFacts BamState View SpecKinds Session SpecDisk ChainProofs SpecialFiles SoundImage ValidSound Trace Demo DemoImages.
Local Open Scope nat_scope.

Definition mixed_map : list nat :=
  concat (repeat [21; 255; 255; 31] 15) ++ [16; 208; 255; 31; 16; 208; 255; 31; 17; 252; 255; 7; 18; 254; 255; 7]
  ++ concat (repeat [19; 255; 255; 7] 5) ++ concat (repeat [18; 255; 255; 3] 6) ++ concat (repeat [17; 255; 255; 1] 5).

(** "R": three records of 100 bytes; "V": GEOS, with an index, an info block and
    the records one of 264 bytes, none, one of 4 bytes; "S": GEOS, sequential;
    "P": a plain file. *)
Definition mixed_dev : dev :=
  put (17, 5) 0 [0; 19; 0; 100; 17; 5] (put (17, 5) 16 [17; 0; 17; 1]
  (put (17, 0) 0 (17 :: 1 :: repeat 3 254) (put (17, 1) 0 (0 :: 47 :: repeat 4 46)
  (put (17, 2) 0 [0; 4; 7; 8; 9] (put (17, 3) 0 (0 :: 255 :: 3 :: 21 :: 191 :: repeat 5 251)
  (put (16, 0) 0 [0; 255; 16; 1; 0; 255; 16; 2]
  (put (16, 1) 0 (16 :: 3 :: repeat 6 254) (put (16, 3) 0 (0 :: 11 :: repeat 7 10) (put (16, 2) 0 [0; 5; 1; 2; 3; 4]
  (put (16, 5) 0 (0 :: 255 :: 3 :: 21 :: 191 :: repeat 9 251)
  (put (19, 0) 0 [0; 4; 1; 2; 3]
  (put (18, 1) 2 ([132; 17; 0; 82] ++ repeat 160 15 ++ [17; 5; 100; 0; 0; 0; 0; 0; 0; 3; 0])
  (put (18, 1) 34 ([131; 16; 0; 86] ++ repeat 160 15 ++ [16; 5; 1; 7; 99; 1; 2; 3; 4; 5; 0])
  (put (18, 1) 66 ([131; 17; 2; 83] ++ repeat 160 15 ++ [17; 3; 0; 3; 99; 1; 2; 3; 4; 2; 0])
  (put (18, 1) 98 ([130; 19; 0; 80] ++ repeat 160 15 ++ [0; 0; 0; 0; 0; 0; 0; 0; 0; 1; 0])
  (put (18, 0) 0 ([18; 1; 65; 0] ++ mixed_map ++ [77; 73; 88; 69; 68] ++ repeat 160 22)
  (put (18, 1) 0 [0; 255] (blank_dev D64 true)))))))))))))))))).

Lemma mixed_shape : dev_shape D64 mixed_dev.
Proof.
  unfold mixed_dev. repeat (apply put_shape; [|rewrite ?app_length; cbn [length]; rewrite ?app_length, ?repeat_length; cbn; lia]).
  apply blank_dev_shape.
Qed.
Local Opaque mixed_dev.
Lemma mixed_bytes : holds_bytes mixed_dev.
Proof. apply bytes_check. vm_compute. reflexivity. Qed.

(** The map of an image is in order. *)
Definition consistent_b (t : disk_type) (b : bam) : bool :=
  negb (b_invalidated b) && (length (b_entries b) =? spec_tracks t)
  && forallb (fun e => (e_map e <? 2 ^ (8 * N.of_nat (bitmap_size t)))%N && (e_free e <? 256)) (b_entries b)
  && forallb (fun tr => (N.size (e_map (track_entry b tr)) <=? N.of_nat (spec_sectors t tr))%N
                        && (e_free (track_entry b tr) =? free_bits (e_map (track_entry b tr)))) (seq 1 (spec_tracks t)).
Lemma consistent_check t b g : b_format b = set_geos g (native_format t) -> consistent_b t b = true -> bam_consistent t b.
Proof.
  unfold consistent_b. rewrite !andb_true_iff, !forallb_forall. intros Hf [[[Hi Hl] Hm] Ht].
  assert (forall tr, 1 <= tr <= spec_tracks t -> In tr (seq 1 (spec_tracks t))) as Hin by (intros tr Htr; apply in_seq; lia).
  split.
  - split; [by exists g|by destruct (b_invalidated b)|by apply Nat.eqb_eq|].
    apply Forall_forall. intros e He%elem_of_list_In%Hm. apply andb_true_iff in He as [H1%N.ltb_lt H2%Nat.ltb_lt]. done.
  - intros tr s Htr Hs. pose proof (Ht _ (Hin tr Htr)) as H. apply andb_true_iff in H as [H%N.leb_le _].
    unfold is_free in Hs. cbn [fst snd] in Hs. destruct (Nat.lt_ge_cases s (spec_sectors t tr)) as [Hlt|Hge]; [done|].
    rewrite N.bits_above_log2 in Hs; [done|]. destruct (N.eq_dec (e_map (track_entry b tr)) 0) as [E|E]; [by rewrite E, N.bits_0 in Hs|].
    pose proof (N.size_log2 _ E). lia.
  - intros tr Htr. pose proof (Ht _ (Hin tr Htr)) as H. by apply andb_true_iff in H as [_ H%Nat.eqb_eq].
Qed.

(** The kind of a file, from what its calls answer. *)
Lemma pin_records d y k rs :
  reads_as d y k -> linked d y -> file_writer d y = Err ENonLinearFile -> file_record_count y = length rs ->
  map (file_record d y) (seq 0 (length rs)) = map Ok rs -> k = KRecords true rs.
Proof.
  intros Hk Hlk Hw Hc Hr. destruct k as [|td rs'|data]; [done| |destruct Hk as (_ & _ & _ & Hk); by rewrite Hk in Hw].
  destruct Hk as (Hc' & Hr' & _ & _ & Htd). f_equal; [by apply Htd|]. apply list_eq. intros i.
  destruct (Nat.lt_ge_cases i (length rs)) as [Hi|Hi].
  - assert (map (file_record d y) (seq 0 (length rs)) !! i = map Ok rs !! i) as H by (by rewrite Hr).
    rewrite !list_lookup_fmap, lookup_seq_lt in H by done. cbn [fmap option_fmap option_map Nat.add] in H. rewrite Hr' in H.
    destruct (lookup_lt_is_Some_2 rs i Hi) as [r Er]. rewrite Er in *. cbn in H. injection H as H. by destruct (rs' !! i); inversion H.
  - rewrite !lookup_ge_None_2; [done|lia..].
Qed.
Lemma pin_stream d y k data : reads_as d y k -> file_writer d y = Err EReadOnly -> file_record d y 0 = Ok data -> k = KStream data.
Proof.
  intros Hk Hw Hr. destruct k as [|td rs'|data']; [done|destruct Hk as (_ & _ & _ & Hk & _); by rewrite Hk in Hw|].
  destruct Hk as (_ & Hr' & _). rewrite Hr' in Hr. by injection Hr as ->.
Qed.

Definition mixed_es : list dirent := match w_directory (open_world D64 mixed_dev) with Ok es => es | _ => [] end.
Local Opaque mixed_es.
Definition mixed_e (n : nat) : dirent := default no_entry (mixed_es !! n).
Lemma mixed_listed : w_directory (open_world D64 mixed_dev) = Ok mixed_es.
Proof. vm_compute. reflexivity. Qed.
Lemma mixed_length : length mixed_es = 4.
Proof. vm_compute. reflexivity. Qed.
Lemma mixed_in n : n < 4 -> In (mixed_e n) mixed_es.
Proof.
  intros Hn. destruct (lookup_lt_is_Some_2 mixed_es n) as [e He]; [rewrite mixed_length; exact Hn|].
  unfold mixed_e. rewrite He. cbn [default from_option id]. exact (proj1 (elem_of_list_In mixed_es e) (elem_of_list_lookup_2 _ _ _ He)).
Qed.
Definition ok_or {A} (x : A) (r : res A) : A := match r with Ok y => y | _ => x end.
Definition mixed_occupied (e : dirent) : list location :=
  ok_or [] (let? y := file_at mixed_dev 0 e in file_occupied mixed_dev y).
Definition in_data_area (t : disk_type) (l : location) : bool :=
  (1 <=? fst l) && (fst l <=? spec_tracks t) && (snd l <? spec_sectors t (fst l)) && negb (fst l =? dir_track t).
Lemma in_data_area_spec t l : in_data_area t l = true -> bam_sector t l /\ fst l <> dir_track t.
Proof.
  unfold in_data_area, bam_sector, on_disk. rewrite !andb_true_iff, negb_true_iff.
  rewrite !Nat.leb_le, Nat.ltb_lt, Nat.eqb_neq. lia.
Qed.
Definition entry_b (e : dirent) : bool :=
  match de_scheme e with
  | SLinear => match chain_locations mixed_dev (de_first e) with
               | Ok ls => (de_size e =? length ls) && (length ls =? blocks_for 1 (length (data_of mixed_dev ls)))
                          && forallb (in_data_area D64) ls
               | _ => false
               end
  | _ => let ls := mixed_occupied e in (de_size e =? length ls) && forallb (in_data_area D64) ls
  end.
Lemma mixed_entries : forallb entry_b mixed_es = true.
Proof. vm_compute. reflexivity. Qed.
Lemma mixed_map_b : match current_map (open_world D64 mixed_dev) with
                    | Ok b => consistent_b D64 b = true /\ b_format b = set_geos false (native_format D64) | _ => False end.
Proof. vm_compute. split; reflexivity. Qed.
Lemma mixed_border : border_of D64 mixed_dev = [].
Proof. vm_compute. reflexivity. Qed.
Lemma mixed_end : exists b, sector mixed_dev (18, 1) = Ok b /\ b !!! 0 = 0 /\ b !!! 1 = 255.
Proof. eexists. split; [vm_compute; reflexivity|]. split; reflexivity. Qed.

Lemma mixed_plain : plain_image D64 mixed_dev [(18, 1)] mixed_es.
Proof.
  pose proof mixed_entries as He. rewrite forallb_forall in He.
  split.
  - intros l Hl. rewrite mixed_border in Hl. destruct Hl.
  - intros b Hb. pose proof mixed_map_b as H. rewrite Hb in H. destruct H as [H1 H2]. by apply (consistent_check D64 b false).
  - intros l [<-|[]]. split; [|done]. unfold bam_sector, on_disk. cbn. lia.
  - by intros l [<-|[]].
  - exists (18, 1). split; [done|]. destruct mixed_end as (b & Hb & H0 & H1). exists b. exact (conj Hb (conj H0 (conj H1 (Nat.neq_succ_0 254)))).
  - assert (map de_name mixed_es = [[82]; [86]; [83]; [80]]) as -> by (vm_compute; reflexivity).
    apply (bool_decide_unpack _). vm_compute. exact I.
  - intros e ls Hin Hs Hc. pose proof (He e Hin) as Hb. unfold entry_b in Hb. rewrite Hs, (locations_sound _ _ _ _ mixed_shape Hc) in Hb.
    apply andb_true_iff in Hb as [[H1%Nat.eqb_eq H2%Nat.eqb_eq]%andb_true_iff H3]. split; [exact H1|]. split; [exact H2|].
    intros l Hl. apply in_data_area_spec. rewrite forallb_forall in H3. exact (H3 l Hl).
  - intros e ls Hin (Hs & y & Hy & Ho). pose proof (He e Hin) as Hb. unfold entry_b, mixed_occupied in Hb.
    rewrite Hy in Hb. cbn [rbind] in Hb. rewrite Ho in Hb. cbn [ok_or] in Hb.
    destruct (de_scheme e); [destruct (Hs eq_refl)|..]; apply andb_true_iff in Hb as [H1%Nat.eqb_eq H3]; (split; [exact H1|]);
      intros l Hl; apply in_data_area_spec; rewrite forallb_forall in H3; exact (H3 l Hl).
Qed.

Lemma mixed_sound : exists chains a, sound_image D64 mixed_dev [(18, 1)] chains a /\ listing a = map entry_line mixed_es.
Proof.
  apply validated_sound; [exact mixed_shape|exact mixed_bytes|reflexivity|vm_compute; reflexivity| |exact mixed_listed|exact mixed_plain].
  split; [apply NoDup_singleton|]. split; [reflexivity|]. split.
  - intros [|i] l l' _ H; by rewrite lookup_nil in H || done.
  - exists (18, 1), 255. split; [reflexivity|]. destruct mixed_end as (b & Hb & H0 & H1). exists b. exact (conj Hb (conj H0 (conj H1 (Nat.neq_succ_0 254)))).
Qed.

(** What the image shows of its files. *)
Definition mixed_records : list (list nat) := [repeat 3 100; repeat 3 100; repeat 3 54 ++ repeat 4 46].
Definition mixed_vlir : list (list nat) := [[]; repeat 6 254 ++ repeat 7 10; []; [1; 2; 3; 4]].
Definition mixed_bytes_of (ls : list location) : list nat := concat (map (bytes_of_sector mixed_dev) ls).
Definition mixed_file (n : nat) (k : kind) : afile :=
  let e := mixed_e n in
  mk_afile (de_name e) (de_attr e) (de_size e) (mixed_bytes_of (mixed_occupied e)) k.
Definition mixed_R : afile := mixed_file 0 (KRecords true mixed_records).
Definition mixed_V : afile := mixed_file 1 (KRecords true mixed_vlir).
Definition mixed_S : afile := mixed_file 2 (KStream [7; 8; 9]).

Lemma mixed_shows n k y : let e := mixed_e n in
  n < 4 -> de_scheme e <> SLinear -> open_file (open_world D64 mixed_dev) (de_name e) = Ok y -> file_occupied mixed_dev y = Ok (mixed_occupied e) ->
  (forall c f, y <> FLinear c f) -> reads_as mixed_dev y k ->
  shows (open_world D64 mixed_dev) (mixed_file n k).
Proof.
  intros e Hn Hs Ho Hoc Hl Hk.
  assert (w_dev (open_world D64 mixed_dev) = mixed_dev) as Hd by (vm_compute; reflexivity).
  split.
  - exists y. split; [exact Ho|]. rewrite Hd. unfold has_contents. cbn [a_kind a_data mixed_file].
    destruct y as [c f|f|f|f]; [destruct (Hl c f eq_refl)|..]; (split; [exact Hk|]); exists (mixed_occupied e); exact (conj Hoc eq_refl).
  - exists mixed_es. split; [exact mixed_listed|]. change (In (entry_line e) (map entry_line mixed_es)). apply in_map. exact (mixed_in n Hn).
Qed.

Definition valid_b (ls : list location) : bool := forallb (valid_loc (d_geom mixed_dev)) ls.
Lemma mixed_reads e y c : file_at mixed_dev c e = Ok y -> de_scheme e <> SLinear -> 
  (forall side n u, de_extra e = XRelative side n u -> n < 256) ->
  forall ls, file_occupied mixed_dev y = Ok ls -> valid_b ls = true -> exists k, reads_as mixed_dev y k.
Proof.
  intros Hy Hs Hx ls Ho Hv. apply (file_reads D64 mixed_dev c e y ls mixed_shape mixed_bytes Hx Hs Hy Ho).
  unfold valid_b in Hv. rewrite forallb_forall in Hv. intros l Hl%elem_of_list_In. exact (Hv l Hl).
Qed.

Definition mixed_y (n : nat) : file := ok_or (FLinear 0 (mixed_e n)) (open_file (open_world D64 mixed_dev) (de_name (mixed_e n))).
Lemma mixed_y_all : forall n, n < 3 ->
  open_file (open_world D64 mixed_dev) (de_name (mixed_e n)) = Ok (mixed_y n)
  /\ file_at mixed_dev 0 (mixed_e n) = Ok (mixed_y n)
  /\ file_occupied mixed_dev (mixed_y n) = Ok (mixed_occupied (mixed_e n)) /\ valid_b (mixed_occupied (mixed_e n)) = true.
Proof. intros [|[|[|n]]] Hn; [| | |lia]; vm_compute; (split; [reflexivity|]); (split; [reflexivity|]); split; reflexivity. Qed.

Lemma mixed_shows_R : shows (open_world D64 mixed_dev) mixed_R.
Proof.
  destruct (mixed_y_all 0) as (H1 & H2 & H3 & H4); [lia|].
  assert (de_scheme (mixed_e 0) <> SLinear) as Hs by (vm_compute; discriminate).
  destruct (fun H => mixed_reads _ _ _ H2 Hs H _ H3 H4) as [k Hk].
  { intros side n u Hx. vm_compute in Hx. injection Hx as _ <- _. lia. }
  apply (mixed_shows 0 _ (mixed_y 0)); [lia|exact Hs|exact H1|exact H3|intros c f; vm_compute; discriminate|].
  replace (KRecords true mixed_records) with k; [exact Hk|].
  apply (pin_records _ _ _ _ Hk); vm_compute; reflexivity.
Qed.
Lemma mixed_shows_V : shows (open_world D64 mixed_dev) mixed_V.
Proof.
  destruct (mixed_y_all 1) as (H1 & H2 & H3 & H4); [lia|].
  assert (de_scheme (mixed_e 1) <> SLinear) as Hs by (vm_compute; discriminate).
  destruct (fun H => mixed_reads _ _ _ H2 Hs H _ H3 H4) as [k Hk].
  { intros side n u Hx. vm_compute in Hx. discriminate. }
  apply (mixed_shows 1 _ (mixed_y 1)); [lia|exact Hs|exact H1|exact H3|intros c f; vm_compute; discriminate|].
  replace (KRecords true mixed_vlir) with k; [exact Hk|].
  apply (pin_records _ _ _ _ Hk); vm_compute; reflexivity.
Qed.
Lemma mixed_shows_S : shows (open_world D64 mixed_dev) mixed_S.
Proof.
  destruct (mixed_y_all 2) as (H1 & H2 & H3 & H4); [lia|].
  assert (de_scheme (mixed_e 2) <> SLinear) as Hs by (vm_compute; discriminate).
  destruct (fun H => mixed_reads _ _ _ H2 Hs H _ H3 H4) as [k Hk].
  { intros side n u Hx. vm_compute in Hx. discriminate. }
  apply (mixed_shows 2 _ (mixed_y 2)); [lia|exact Hs|exact H1|exact H3|intros c f; vm_compute; discriminate|].
  replace (KStream [7; 8; 9]) with k; [exact Hk|].
  apply (pin_stream _ _ _ _ Hk); vm_compute; reflexivity.
Qed.


(** The table of its files. *)
Definition mixed_P : afile := mk_afile [80] (de_attr (mixed_e 3)) 1 [1; 2; 3] KPlain.
Definition mixed_a : astate :=
  mk_astate [77; 73; 88; 69; 68; 160; 160; 160; 160; 160; 160; 160; 160; 160; 160; 160] 1 NoBorder
    ([Some mixed_R; Some mixed_V; Some mixed_S; Some mixed_P; None; None; None; None]) [] [] true.
Definition mixed_bytes_at (i : nat) : list nat := slice (32 * i) 32 (ok_or [] (sector mixed_dev (18, 1))).
Definition slot_entry (i : nat) : dirent := ok_or (mixed_e 0) (dirent_parse (mixed_bytes_at i) None).
Lemma mixed_parse : forall i, i < 8 -> dirent_parse (mixed_bytes_at i) None = Ok (slot_entry i).
Proof. intros [|[|[|[|[|[|[|[|i]]]]]]]] Hi; [| | | | | | | |lia]; vm_compute; reflexivity. Qed.
Lemma slot_none ls o : forall i, 4 <= i < 8 -> slot_holds mixed_dev (mixed_bytes_at i) ls o -> o = None.
Proof.
  intros i Hi (e & He & H). rewrite (mixed_parse i) in He by lia. apply Ok_inj in He. subst e. destruct o as [f|]; [|done].
  destruct H as [H _]. assert (is_scratched (de_attr (slot_entry i)) = true); [|congruence].
  destruct i as [|[|[|[|[|[|[|[|i]]]]]]]]; try lia; vm_compute; reflexivity.
Qed.
Lemma slot_some ls o : forall i, i < 4 -> slot_holds mixed_dev (mixed_bytes_at i) ls o ->
  exists f, o = Some f /\ a_name f = de_name (mixed_e i).
Proof.
  intros i Hi (e & He & H). rewrite (mixed_parse i) in He by lia. apply Ok_inj in He. subst e.
  assert (is_scratched (de_attr (slot_entry i)) = false /\ de_name (slot_entry i) = de_name (mixed_e i)) as [H1 H2].
  { destruct i as [|[|[|[|i]]]]; try lia; vm_compute; split; reflexivity. }
  destruct o as [f|]; [|exfalso; destruct H as [H _]; rewrite H1 in H; discriminate H].
  exists f. split; [reflexivity|]. destruct H as (_ & _ & H). rewrite <- H2.
  destruct (a_special f); [destruct H as (_ & _ & ->)|destruct H as (_ & _ & -> & _)]; reflexivity.
Qed.
Lemma mixed_shows_P : shows (open_world D64 mixed_dev) mixed_P.
Proof.
  split.
  - exists (FLinear 0 (mixed_e 3)). split; [vm_compute; reflexivity|]. split; [reflexivity|vm_compute; reflexivity].
  - exists mixed_es. split; [exact mixed_listed|]. vm_compute. right. right. right. left. reflexivity.
Qed.
Lemma mixed_table : exists chains, sound_image D64 mixed_dev [(18, 1)] chains mixed_a.
Proof.
  destruct mixed_sound as (chains & a & H & _). exists chains. enough (a = mixed_a) as <- by exact H.
  assert (reached D64 a (start D64 mixed_dev)) as Hr by (by apply (reached_open D64 a (start D64 mixed_dev) mixed_dev [(18, 1)] chains a [] [])).
  destruct (si_lengths _ _ _ _ _ H) as [L1 L2]. rewrite mixed_border in L1, L2. cbn [app length] in L1, L2.
  destruct (si_fresh _ _ _ _ _ H) as (F1 & F0 & F2 & F3 & F4). unfold border_at in F0. rewrite mixed_border in F0. destruct (si_header _ _ _ _ _ H) as (h & Hh & Hl).
  assert (forall i, i < 8 -> exists o ls, as_slots a !! i = Some o /\ slot_holds mixed_dev (mixed_bytes_at i) ls o) as Hs.
  { intros i Hi. destruct (lookup_lt_is_Some_2 (as_slots a) i) as [o Ho]; [lia|]. destruct (lookup_lt_is_Some_2 chains i) as [ls Hls]; [lia|].
    destruct (si_slots _ _ _ _ _ H i o ls Ho Hls) as (l & b & Hd & Hb & Hx). exists o, ls. split; [exact Ho|].
    rewrite Nat.div_small, mixed_border in Hd by lia. injection Hd as <-. rewrite Nat.mod_small in Hx by lia.
    unfold mixed_bytes_at. rewrite Hb. exact Hx. }
  assert (forall i f, i < 4 -> shows (open_world D64 mixed_dev) f -> a_name f = de_name (mixed_e i) -> as_slots a !! i = Some (Some f)) as Hp.
  { intros i f Hi Hf Hn. destruct (proj1 (reached_shows D64 a (start D64 mixed_dev) f Hr) Hf) as [j Hj].
    destruct (Hs i) as (o & ls & Ho & Hx); [lia|]. destruct (slot_some ls o i Hi Hx) as (g & -> & Hg).
    assert (i = j) as <- by (apply (si_names _ _ _ _ _ H i j g f Ho Hj); rewrite Hg, Hn; reflexivity). exact Hj. }
  assert (forall i, 4 <= i < 8 -> as_slots a !! i = Some None) as Hq.
  { intros i Hi. destruct (Hs i) as (o & ls & Ho & Hx); [lia|]. rewrite Ho, (slot_none ls o i Hi Hx). reflexivity. }
  assert (as_slots a = as_slots mixed_a) as Hslots.
  { apply list_eq. intros i. destruct (Nat.lt_ge_cases i 8) as [Hi|Hi]; [|rewrite !lookup_ge_None_2; [done|cbn; lia|lia]].
    destruct i as [|[|[|[|i]]]].
    - apply (Hp 0); [lia|exact mixed_shows_R|reflexivity].
    - apply (Hp 1); [lia|exact mixed_shows_V|reflexivity].
    - apply (Hp 2); [lia|exact mixed_shows_S|reflexivity].
    - apply (Hp 3); [lia|exact mixed_shows_P|vm_compute; reflexivity].
    - rewrite Hq by lia. destruct i as [|[|[|[|i]]]]; try lia; reflexivity. }
  assert (as_label a = as_label mixed_a) as Hlab.
  { assert (h_disk_name <$> w_header (open_world D64 mixed_dev) = Some (as_label mixed_a)) as E by (vm_compute; reflexivity).
    rewrite Hh in E. cbn [fmap option_fmap option_map] in E. rewrite <- Hl. injection E as E. exact E. }
  destruct a as [a1 a2 a0 a3 a4 a5 a6]. cbn [as_label as_dirs as_border as_slots as_handles as_writers as_synced] in *. subst. rewrite Hlab. reflexivity.
Qed.
Lemma mixed_reached : reached D64 mixed_a (start D64 mixed_dev).
Proof. destruct mixed_table as [chains H]. by apply (reached_open D64 mixed_a (start D64 mixed_dev) mixed_dev [(18, 1)] chains mixed_a [] []). Qed.

(** A session with it: the relative file is opened, files are made, written,
    renamed and deleted (the GEOS file "S" too), the image is reopened, and then the relative file is
    given another name. *)
Definition mixed_ops : list op :=
  [OOpen [82]; ORecord 0 2; OCreate [78] PRG; OWriter 1; OWrite 0 (repeat 9 600); OClose 0; OOpen [80]; ODelete 2;
   OOpen [83]; ODelete 3; OCreate [79] SEQ; OWriter 4; OWrite 1 [1; 2]; OClose 1; ORename [78] [77]; ORecord 0 2; OWriter 0; ORead 0 [1]; OValidate].
Definition mixed_more : list op := [OReopen; OOpen [82]; ORename [82] [81]; ORecord 0 0; OList].

(** Checks that the calls of a session leave a file, or a handle, alone. *)
Fixpoint spare_b (t : disk_type) (a : astate) (name : list nat) (os : list op) : bool :=
  match os with
  | [] => true
  | o :: os =>
      negb (is_format o)
      && match o with
         | ORename old _ => negb (bool_decide (old = name))
         | ODelete h => match held a h with Some (_, g) => negb (bool_decide (a_name g = name)) | None => true end
         | _ => true
         end
      && match astep t a o with Some (a', _) => spare_b t a' name os | None => true end
  end.
Lemma spare_b_ok t f os : forall a, spare_b t a (a_name f) os = true -> all_spare t a f os.
Proof.
  induction os as [|o os IH]; intros a; cbn [spare_b all_spare]; [done|]. intros [[H1 H2]%andb_true_iff H3]%andb_true_iff.
  split; [|destruct (astep t a o) as [[a' r]|]; [by apply IH|done]]. apply negb_true_iff in H1. split; [done|]. split.
  - intros new ->. apply negb_true_iff, bool_decide_eq_false in H2. done.
  - intros h i -> E. rewrite E in H2. apply negb_true_iff, bool_decide_eq_false in H2. done.
Qed.
Fixpoint handle_b (t : disk_type) (a : astate) (h : nat) (os : list op) : bool :=
  match os with
  | [] => true
  | o :: os =>
      match o with
      | OFormat _ _ | OReopen => false
      | ODelete h' => negb (bool_decide (as_handles a !! h' = as_handles a !! h))
      | _ => true
      end && match astep t a o with Some (a', _) => handle_b t a' h os | None => true end
  end.
Lemma handle_b_ok t h os : forall a, handle_b t a h os = true -> handle_spared t a h os.
Proof.
  induction os as [|o os IH]; intros a; cbn [handle_b handle_spared]; [done|]. intros [H1 H2]%andb_true_iff.
  split; [|destruct (astep t a o) as [[a' r]|]; [by apply IH|done]].
  destruct o as [name ft|name|h'|k buf|k|k|h' ns|h' j|h'|old new| | | | | | |name id]; try done.
  split; [done|]. split; [done|]. intros h2 [= <-]. by apply negb_true_iff, bool_decide_eq_false in H1.
Qed.

(** The same image, but the entry of the relative file names the first sector of
    the file "S" as its own. *)
Definition astray_dev : dev := put (18, 1) 2 [132; 17; 2] mixed_dev.
Lemma astray_shape : dev_shape D64 astray_dev.
Proof. unfold astray_dev. apply put_shape; [exact mixed_shape|cbn; lia]. Qed.
Lemma astray_bytes : holds_bytes astray_dev.
Proof. apply bytes_check. vm_compute. reflexivity. Qed.
Lemma astray_loss : exists d s,
  dev_shape D64 d /\ holds_bytes d /\ d_writable d = true /\ validate (open_world D64 d) = Ok []
  /\ calls (start D64 d) [OOpen [83]; ORecord 0 0; OOpen [82]; ODelete 1; OCreate [78] PRG; OWriter 2; OWrite 0 [1]; OClose 0; OOpen [83]; ORecord 3 0]
     = (s, [AIndex 0; ABytes [7; 8; 9]; AIndex 1; ADone; AIndex 2; AIndex 0; ACount 1; ADone; AIndex 3; ABytes [1]]).
Proof.
  exists astray_dev. eexists. split; [exact astray_shape|]. split; [exact astray_bytes|]. split; [vm_compute; reflexivity|].
  split; vm_compute; reflexivity.
Qed.
