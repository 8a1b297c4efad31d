(** An image of a GEOS disk in order: one file in the directory, and one file in
    the border sector, which lies among the sectors for files. *)
From Verif Require Import Base ListFacts Layout Block Bam Format Petscii GeosTypes DirEntry Header World Chain Directory Writer Rel GeosFile File Validate
  Spec SpecChain SpecFiles SpecCodec SpecBam CodecMore DevFacts BamState View SpecKinds Session SpecDisk ChainProofs SpecialFiles SoundImage ValidSound Trace
  Demo DemoImages DemoMixed.
Local Open Scope nat_scope.

(** "A" is in the directory, with its data in (17, 0); "B" is in the border
    sector (19, 8), with its data in (17, 1). *)
Definition geos_map : list nat :=
  concat (repeat [21; 255; 255; 31] 16) ++ [19; 252; 255; 31; 17; 252; 255; 7; 18; 255; 254; 7]
  ++ concat (repeat [19; 255; 255; 7] 5) ++ concat (repeat [18; 255; 255; 3] 6) ++ concat (repeat [17; 255; 255; 1] 5).
Definition geos_disk : dev :=
  put (17, 0) 0 [0; 4; 1; 2; 3] (put (17, 1) 0 [0; 5; 9; 8; 7; 6]
  (put (19, 8) 2 ([130; 17; 1; 66] ++ repeat 160 15 ++ [0; 0; 0; 0; 0; 0; 0; 0; 0; 1; 0])
  (put (18, 1) 2 ([130; 17; 0; 65] ++ repeat 160 15 ++ [0; 0; 0; 0; 0; 0; 0; 0; 0; 1; 0])
  (put (18, 0) 173 (geos_signature ++ [32; 86; 49; 46; 48])
  (put (18, 0) 171 [19; 8]
  (put (18, 0) 0 ([18; 1; 65; 0] ++ geos_map ++ [71; 68; 73; 83; 75] ++ repeat 160 22)
  (put (18, 1) 0 [0; 255] (blank_dev D64 true)))))))).

Lemma geos_shape : dev_shape D64 geos_disk.
Proof.
  unfold geos_disk. repeat (apply put_shape; [|rewrite ?app_length; cbn [length]; rewrite ?app_length, ?repeat_length; cbn; lia]).
  apply blank_dev_shape.
Qed.
Local Opaque geos_disk.
Lemma geos_bytes : holds_bytes geos_disk.
Proof. apply bytes_check. vm_compute. reflexivity. Qed.
Lemma geos_border : border_of D64 geos_disk = [(19, 8)].
Proof. vm_compute. reflexivity. Qed.

Definition geos_es : list dirent := match w_directory (open_world D64 geos_disk) with Ok es => es | _ => [] end.
Local Opaque geos_es.
Definition geos_e (n : nat) : dirent := default no_entry (geos_es !! n).
Lemma geos_listed : w_directory (open_world D64 geos_disk) = Ok geos_es.
Proof. vm_compute. reflexivity. Qed.
Definition geos_entry_b (e : dirent) : bool :=
  match de_scheme e with
  | SLinear => match chain_locations geos_disk (de_first e) with
               | Ok ls => (de_size e =? length ls) && (length ls =? blocks_for 1 (length (data_of geos_disk ls)))
                          && forallb (in_data_area D64) ls
               | _ => false
               end
  | _ => false
  end.
Lemma geos_entries : forallb geos_entry_b geos_es = true.
Proof. vm_compute. reflexivity. Qed.
Lemma geos_map_b : match current_map (open_world D64 geos_disk) with
                   | Ok b => consistent_b D64 b = true /\ b_format b = set_geos true (native_format D64) | _ => False end.
Proof. vm_compute. split; reflexivity. Qed.
Lemma geos_end : exists b, sector geos_disk (18, 1) = Ok b /\ b !!! 0 = 0 /\ b !!! 1 = 255.
Proof. eexists. split; [vm_compute; reflexivity|]. split; reflexivity. Qed.

Lemma geos_plain : plain_image D64 geos_disk [(18, 1)] geos_es.
Proof.
  pose proof geos_entries as He. rewrite forallb_forall in He.
  split.
  - intros l Hl. rewrite geos_border in Hl. destruct Hl as [<-|[]]. split; [unfold bam_sector, on_disk; cbn; lia|].
    split; [intros H; vm_compute in H; intuition discriminate|]. intros [H|[]]. discriminate H.
  - intros b Hb. pose proof geos_map_b as H. rewrite Hb in H. destruct H as [H1 H2]. by apply (consistent_check D64 b true).
  - intros l [<-|[]]. split; [|done]. unfold bam_sector, on_disk. cbn. lia.
  - by intros l [<-|[]].
  - exists (18, 1). split; [done|]. destruct geos_end as (b & Hb & H0 & H1). exists b. exact (conj Hb (conj H0 (conj H1 (Nat.neq_succ_0 254)))).
  - assert (map de_name geos_es = [[65]; [66]]) as -> by (vm_compute; reflexivity).
    apply (bool_decide_unpack _). vm_compute. exact I.
  - intros e ls Hin Hs Hc. pose proof (He e Hin) as Hb. unfold geos_entry_b in Hb. rewrite Hs, (locations_sound _ _ _ _ geos_shape Hc) in Hb.
    apply andb_true_iff in Hb as [[H1%Nat.eqb_eq H2%Nat.eqb_eq]%andb_true_iff H3]. split; [exact H1|]. split; [exact H2|].
    intros l Hl. apply in_data_area_spec. rewrite forallb_forall in H3. exact (H3 l Hl).
  - intros e ls Hin (Hs & y & Hy & Ho). pose proof (He e Hin) as Hb. unfold geos_entry_b in Hb.
    destruct (de_scheme e); [destruct (Hs eq_refl)|discriminate Hb..].
Qed.

Lemma geos_sound : exists chains a, sound_image D64 geos_disk [(18, 1)] chains a /\ listing a = map entry_line geos_es.
Proof.
  apply validated_sound; [exact geos_shape|exact geos_bytes|reflexivity|vm_compute; reflexivity| |exact geos_listed|exact geos_plain].
  split; [apply NoDup_singleton|]. split; [reflexivity|]. split.
  - intros [|i] l l' _ H; by rewrite lookup_nil in H || done.
  - exists (18, 1), 255. split; [reflexivity|]. destruct geos_end as (b & Hb & H0 & H1). exists b. exact (conj Hb (conj H0 (conj H1 (Nat.neq_succ_0 254)))).
Qed.

(** The table of its files: first the slots of the border sector. *)
Definition geos_A : afile := mk_afile [65] (de_attr (geos_e 0)) 1 [1; 2; 3] KPlain.
Definition geos_B : afile := mk_afile [66] (de_attr (geos_e 1)) 1 [9; 8; 7; 6] KPlain.
Definition geos_a : astate :=
  mk_astate [71; 68; 73; 83; 75; 160; 160; 160; 160; 160; 160; 160; 160; 160; 160; 160] 1 BorderInFiles
    (Some geos_B :: repeat None 7 ++ Some geos_A :: repeat None 7) [] [] true.
Lemma geos_shows_A : shows (open_world D64 geos_disk) geos_A.
Proof.
  split.
  - exists (FLinear 0 (geos_e 0)). split; [vm_compute; reflexivity|]. split; [reflexivity|vm_compute; reflexivity].
  - exists geos_es. split; [exact geos_listed|]. vm_compute. left. reflexivity.
Qed.
Lemma geos_shows_B : shows (open_world D64 geos_disk) geos_B.
Proof.
  split.
  - exists (FLinear 0 (geos_e 1)). split; [vm_compute; reflexivity|]. split; [reflexivity|vm_compute; reflexivity].
  - exists geos_es. split; [exact geos_listed|]. vm_compute. right. left. reflexivity.
Qed.
Definition geos_bytes_at (i : nat) : list nat :=
  slice (32 * (i mod 8)) 32 (ok_or [] (sector geos_disk (if i <? 8 then (19, 8) else (18, 1)))).
Definition geos_slot (i : nat) : dirent := ok_or (geos_e 0) (dirent_parse (geos_bytes_at i) None).
Definition geos_used (i : nat) : bool := (i =? 0) || (i =? 8).
Lemma geos_parse : forall i, i < 16 ->
  dirent_parse (geos_bytes_at i) None = Ok (geos_slot i) /\ is_scratched (de_attr (geos_slot i)) = negb (geos_used i)
  /\ (geos_used i = true -> de_name (geos_slot i) = if i =? 0 then [66] else [65]).
Proof.
  intros i Hi. assert (forallb (fun i => match dirent_parse (geos_bytes_at i) None with
    | Ok e => Bool.eqb (is_scratched (de_attr e)) (negb (geos_used i)) && (negb (geos_used i) || bool_decide (de_name e = if i =? 0 then [66] else [65]))
    | _ => false end) (seq 0 16) = true) as H by (vm_compute; reflexivity).
  rewrite forallb_forall in H. specialize (H i). unfold geos_slot. destruct (dirent_parse (geos_bytes_at i) None) as [e|x| |];
    [|discriminate (H (proj2 (in_seq 16 0 i) (conj (Nat.le_0_l i) Hi)))..].
  cbn [ok_or]. specialize (H (proj2 (in_seq 16 0 i) (conj (Nat.le_0_l i) Hi))). apply andb_true_iff in H as [H1%eqb_prop H2].
  split; [reflexivity|]. split; [exact H1|]. intros Hu. rewrite Hu in H2. exact (bool_decide_eq_true_1 _ H2).
Qed.
Lemma geos_slot_held ls o : forall i, i < 16 -> slot_holds geos_disk (geos_bytes_at i) ls o ->
  if geos_used i then exists f, o = Some f /\ a_name f = (if i =? 0 then [66] else [65]) else o = None.
Proof.
  intros i Hi (e & He & H). destruct (geos_parse i Hi) as (H1 & H2 & H3). rewrite H1 in He. apply Ok_inj in He. subst e.
  destruct (geos_used i); destruct o as [f|].
  - exists f. split; [reflexivity|]. destruct H as (_ & _ & H). rewrite <- H3 by reflexivity.
    destruct (a_special f); [destruct H as (_ & _ & ->)|destruct H as (_ & _ & -> & _)]; reflexivity.
  - exfalso. destruct H as [H _]. rewrite H2 in H. discriminate H.
  - exfalso. destruct H as [H _]. rewrite H2 in H. discriminate H.
  - reflexivity.
Qed.

Lemma geos_table : exists chains, sound_image D64 geos_disk [(18, 1)] chains geos_a.
Proof.
  destruct geos_sound as (chains & a & H & _). exists chains. enough (a = geos_a) as <- by exact H.
  assert (reached D64 a (start D64 geos_disk)) as Hr by (by apply (reached_open D64 a (start D64 geos_disk) geos_disk [(18, 1)] chains a [] [])).
  destruct (si_lengths _ _ _ _ _ H) as [L1 L2]. rewrite geos_border in L1, L2. cbn [app length] in L1, L2.
  destruct (si_fresh _ _ _ _ _ H) as (F1 & F0 & F2 & F3 & F4). unfold border_at in F0. rewrite geos_border in F0. destruct (si_header _ _ _ _ _ H) as (h & Hh & Hl).
  assert (forall i, i < 16 -> exists o ls, as_slots a !! i = Some o /\ slot_holds geos_disk (geos_bytes_at i) ls o) as Hs.
  { intros i Hi. destruct (lookup_lt_is_Some_2 (as_slots a) i) as [o Ho]; [lia|]. destruct (lookup_lt_is_Some_2 chains i) as [ls Hls]; [lia|].
    destruct (si_slots _ _ _ _ _ H i o ls Ho Hls) as (l & b & Hd & Hb & Hx). exists o, ls. split; [exact Ho|].
    rewrite geos_border in Hd. unfold geos_bytes_at.
    assert (l = if i <? 8 then (19, 8) else (18, 1)) as <-; [|rewrite Hb; exact Hx].
    destruct (Nat.ltb_spec i 8) as [Hi8|Hi8]; [rewrite Nat.div_small in Hd by lia|replace (i / 8) with 1 in Hd]; [injection Hd as <-; reflexivity..|].
    apply (Nat.div_unique i 8 1 (i - 8)); lia. }
  assert (forall i f, i < 16 -> geos_used i = true -> shows (open_world D64 geos_disk) f -> a_name f = (if i =? 0 then [66] else [65]) ->
            as_slots a !! i = Some (Some f)) as Hp.
  { intros i f Hi Hu Hf Hn. destruct (proj1 (reached_shows D64 a (start D64 geos_disk) f Hr) Hf) as [j Hj].
    destruct (Hs i Hi) as (o & ls & Ho & Hx). pose proof (geos_slot_held ls o i Hi Hx) as Hx'. rewrite Hu in Hx'. destruct Hx' as (g & -> & Hg).
    assert (i = j) as <- by (apply (si_names _ _ _ _ _ H i j g f Ho Hj); rewrite Hg, Hn; reflexivity). exact Hj. }
  assert (forall i, i < 16 -> geos_used i = false -> as_slots a !! i = Some None) as Hq.
  { intros i Hi Hu. destruct (Hs i Hi) as (o & ls & Ho & Hx). pose proof (geos_slot_held ls o i Hi Hx) as Hx'. rewrite Hu in Hx'.
    rewrite Ho, Hx'. reflexivity. }
  assert (as_slots a = as_slots geos_a) as Hslots.
  { apply list_eq. intros i. destruct (Nat.lt_ge_cases i 16) as [Hi|Hi]; [|rewrite !lookup_ge_None_2; [done|cbn; lia|lia]].
    destruct i as [|i]; [exact (Hp 0 geos_B Hi eq_refl geos_shows_B eq_refl)|].
    do 7 (destruct i as [|i]; [rewrite Hq by (lia || reflexivity); reflexivity|]).
    destruct i as [|i]; [exact (Hp 8 geos_A Hi eq_refl geos_shows_A eq_refl)|].
    do 7 (destruct i as [|i]; [rewrite Hq by (lia || reflexivity); reflexivity|]). lia. }
  assert (as_label a = as_label geos_a) as Hlab.
  { assert (h_disk_name <$> w_header (open_world D64 geos_disk) = Some (as_label geos_a)) as E by (vm_compute; reflexivity).
    rewrite Hh in E. cbn [fmap option_fmap option_map] in E. rewrite <- Hl. injection E as E. exact E. }
  destruct a as [a1 a2 a0 a3 a4 a5 a6]. cbn [as_label as_dirs as_border as_slots as_handles as_writers as_synced] in *. subst. rewrite Hlab. reflexivity.
Qed.
Lemma geos_reached : reached D64 geos_a (start D64 geos_disk).
Proof. destruct geos_table as [chains H]. by apply (reached_open D64 geos_a (start D64 geos_disk) geos_disk [(18, 1)] chains geos_a [] []). Qed.

(** A session with it: the file of the border sector is read, one is made, the
    file of the border sector is given another name and deleted, and another file
    is made, which goes in the directory. *)
Definition geos_ops : list op :=
  [OOpen [66]; ORead 0 [10]; OCreate [78] PRG; OWriter 1; OWrite 0 (repeat 9 600); OClose 0; ORename [66] [67];
   OList; OOpen [67]; ODelete 2; OCreate [79] SEQ; OWriter 3; OWrite 1 [1; 2]; OClose 1; OList; OValidate; OFree].
