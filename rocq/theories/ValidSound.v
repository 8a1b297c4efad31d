(** An image that validates clean, and is in order where validate() does not
    look, is in order. *)
From Verif Require Import Base ListFacts Layout Block Bam Format Petscii GeosTypes DirEntry Header World Chain Directory Rel GeosFile File Validate
  Spec SpecCodec GeomFacts FlatProofs DevFacts CodecProofs EntryProofs SpecChain ChainProofs SpecBam AllocProofs BamState Evolve Holds
  View Dirs Ops SpecFiles RelProofs SpecValidate ValidateProofs Opening SpecKinds Session SpecDisk Refine Tables SectorProofs OpFile SpecialFiles OpenSound Trace.
Ltac Zify.zify_post_hook ::= Z.div_mod_to_equations.

Definition no_entry : dirent := mk_dirent (attr_from_byte 0) (0, 0) [] (XLinear []) 0 None SLinear false.

Definition linear (e : dirent) : bool := match de_scheme e with SLinear => true | _ => false end.

Section directory.
  Context (t : disk_type) (d : dev) (bs dirs : list location).
  Context (Hd : dev_shape t d) (Hdirs : sound_chain d (first_dir t) dirs).
  Context (Hend : exists l, last dirs = Some l /\ ends d l 255).
  Context (Hbv : forall l, In l bs -> valid_loc (d_geom d) l = true) (Hba : forall l, In l bs -> ~ In l dirs).
  Notation secs := (bs ++ dirs).

  (** The entry in slot [i], the slots of the border sector [bs] first. *)
  Definition raw_entry (i : nat) : dirent :=
    match dirent_parse (slice (32 * (i mod 8)) 32 (block_of d (secs !!! (i / 8))))
            (Some (mk_position (secs !!! (i / 8)) (32 * (i mod 8)) 32)) with
    | Ok e => set_border (i <? 8 * length bs) e
    | _ => no_entry
    end.
  Definition raw_slot (i : nat) : list dirent :=
    if is_scratched (de_attr (raw_entry i)) then [] else [raw_entry i].

  Lemma dir_sector k l : dirs !! k = Some l -> sector d l = Ok (block_of d l) /\ length (block_of d l) = 256 /\ used_part (block_of d l) = block_of d l.
  Proof.
    intros Hl. destruct (sound_links t d _ dirs Hd Hdirs) as (e & He & Hlk & Hen).
    destruct (Hlk k l Hl) as (b & Hb & H0 & H1). unfold block_of. rewrite Hb. split; [done|].
    pose proof (sector_Ok_length _ _ _ _ Hd Hb) as Hlb. split; [done|]. unfold used_part.
    destruct (Nat.eqb_spec (b !!! 0) 0) as [E|E]; [|done].
    destruct (dirs !! S k) as [l'|] eqn:E'; cbn [default] in H0, H1.
    - destruct Hdirs as (_ & _ & Hp & _). destruct (Hp k l l' Hl E') as (b' & _ & _ & _ & Hne). cbn in *. congruence.
    - destruct Hend as (x & Hx & Hx255). assert (x = l) as ->.
      { rewrite last_lookup in Hx. assert (k = pred (length dirs)) as ->; [|congruence].
        apply lookup_lt_Some in Hl. apply lookup_ge_None in E'. lia. }
      destruct Hx255 as (b' & Hb' & _ & H255 & _). rewrite Hb in Hb'. apply Ok_inj in Hb'. subst b'.
      apply take_ge. lia.
  Qed.
  Lemma any_sector k l : secs !! k = Some l -> sector d l = Ok (block_of d l) /\ length (block_of d l) = 256.
  Proof.
    intros Hl. apply lookup_app_Some in Hl as [Hl|[_ Hl]].
    - destruct (sector_valid t d l Hd (Hbv l (proj1 (elem_of_list_In _ _) (elem_of_list_lookup_2 _ _ _ Hl)))) as (b & _ & Hb & Hlb). unfold block_of. by rewrite Hb.
    - by destruct (dir_sector _ _ Hl) as (? & ? & _).
  Qed.

  Lemma raw_parse i : i < 8 * length secs ->
    exists e, dirent_parse (slice (32 * (i mod 8)) 32 (block_of d (secs !!! (i / 8))))
      (Some (mk_position (secs !!! (i / 8)) (32 * (i mod 8)) 32)) = Ok e /\ raw_entry i = set_border (i <? 8 * length bs) e.
  Proof.
    intros Hi. destruct (lookup_lt_is_Some_2 secs (i / 8)) as [l Hl]; [lia|].
    destruct (any_sector _ _ Hl) as (_ & Hlen). rewrite <- (list_lookup_total_correct _ _ _ Hl) in Hlen.
    unfold raw_entry. unfold dirent_parse. rewrite length_slice by lia. by eexists.
  Qed.

  Lemma raw_record_size i side c u : holds_bytes d -> i < 8 * length secs -> de_extra (raw_entry i) = XRelative side c u -> c < 256.
  Proof.
    intros Hb Hi. destruct (raw_parse i Hi) as (e & Hp & ->). destruct (lookup_lt_is_Some_2 secs (i / 8)) as [l Hl]; [lia|].
    rewrite (list_lookup_total_correct _ _ _ Hl) in Hp. destruct (any_sector _ _ Hl) as (Hs & Hlen).
    pose proof (sector_bytes d l _ Hb Hs) as Hbb.
    assert (Forall is_byte (slice (32 * (i mod 8)) 32 (block_of d l))) as Hsb by (unfold slice; by apply Forall_take, Forall_drop).
    set (x := slice (32 * (i mod 8)) 32 (block_of d l)) in *.
    unfold dirent_parse in Hp. destruct (negb _) in Hp; [done|]. apply Ok_inj in Hp. rewrite <- Hp. cbn [set_border de_extra].
    assert (is_byte (slice ENTRY_EXTRA_OFFSET EXTRA_SIZE x !!! 2)) as H2.
    { apply bytes_lookup_total. unfold slice. by apply Forall_take, Forall_drop. }
    unfold extra_from_bytes. destruct (entry_scheme _ _); try done. intros E. injection E as _ <- _. exact H2.
  Qed.

  Lemma raw_sector_entries k l n j :
    secs !! k = Some l -> j + n = 8 ->
    sector_entries (k <? length bs) l ((32 * j) mod 256) (map (fun j => slice (32 * j) 32 (block_of d l)) (seq j n))
    = Ok (concat (map raw_slot (seq (8 * k + j) n))).
  Proof.
    intros Hl. revert j. induction n as [|n IH]; intros j Hjn; [done|].
    destruct (any_sector _ _ Hl) as (_ & Hlen).
    cbn [seq map sector_entries concat]. rewrite length_slice by lia.
    change (negb (32 =? ENTRY_SIZE)) with false. cbn match.
    rewrite (Nat.mod_small (32 * j)) by lia.
    replace ((32 * j + ENTRY_SIZE) mod 256) with ((32 * S j) mod 256) by (unfold ENTRY_SIZE; f_equal; lia).
    destruct (raw_parse (8 * k + j)) as (e & Hp & Hre); [apply lookup_lt_Some in Hl; lia|]. rewrite slot_div in Hp by lia.
    replace ((8 * k + j) mod 8) with j in Hp by lia. rewrite (list_lookup_total_correct _ _ _ Hl) in Hp.
    change ENTRY_SIZE with 32. rewrite Hp. cbn [rbind].
    rewrite (IH (S j)) by lia. cbn [rbind]. replace (S (8 * k + j)) with (8 * k + S j) by lia.
    assert (raw_slot (8 * k + j) = if is_scratched (de_attr (set_border (8 * k + j <? 8 * length bs) e)) then [] else [set_border (8 * k + j <? 8 * length bs) e]) as ->
      by (unfold raw_slot; by rewrite Hre).
    assert ((8 * k + j <? 8 * length bs) = (k <? length bs)) as -> by (apply eq_true_iff_eq; rewrite !Nat.ltb_lt; lia).
    by destruct (is_scratched (de_attr (set_border (k <? length bs) e))).
  Qed.

  Lemma raw_iter h ls k :
    (forall l, In l dirs -> on_border h l = false) -> dirs = take k dirs ++ ls -> length (take k dirs) = k ->
    entries_of_sectors h (map (fun l => mk_cs (used_part (block_of d l)) l) ls) (Ok tt)
    = (concat (map raw_slot (seq (8 * length bs + 8 * k) (8 * length ls))), Ok tt).
  Proof.
    intros Hg. revert k. induction ls as [|l ls IH]; intros k E Hk.
    { by rewrite Nat.mul_0_r. }
    cbn [map entries_of_sectors cs_location cs_data].
    assert (dirs !! k = Some l) as Hl. { rewrite E, lookup_app_r by lia. by rewrite Hk, Nat.sub_diag. }
    destruct (dir_sector k l Hl) as (_ & Hlen & ->).
    rewrite (Hg l) by (apply elem_of_list_In; by eapply elem_of_list_lookup_2).
    rewrite chunks_block by done.
    assert (secs !! (length bs + k) = Some l) as Hl' by (rewrite lookup_app_r by lia; rewrite <- Hl; f_equal; lia).
    pose proof (raw_sector_entries _ l 8 0 Hl' eq_refl) as Hse. rewrite (proj2 (Nat.ltb_ge (length bs + k) (length bs))) in Hse by lia.
    change ((32 * 0) mod 256) with 0 in Hse. rewrite Hse.
    rewrite (IH (S k)).
    - f_equal. cbn [length]. replace (8 * S (length ls)) with (8 + 8 * length ls) by lia.
      rewrite seq_app, map_app, concat_app. rewrite Nat.add_0_r. f_equal; do 3 f_equal; lia.
    - rewrite (take_S_r _ _ l) by done. by rewrite <- app_assoc.
    - rewrite (take_S_r _ _ l) by done. rewrite app_length, Hk. simpl. lia.
  Qed.

  Definition raw_order : list nat := seq (8 * length bs) (8 * length dirs) ++ seq 0 (8 * length bs).
  Lemma raw_order_perm : raw_order ≡ₚ seq 0 (8 * length secs).
  Proof. unfold raw_order. rewrite app_length, Nat.mul_add_distr_l, seq_app, Permutation_app_comm. done. Qed.

  Lemma raw_w_iter w h f : w_dev w = d -> w_fmt w = Some f -> first_directory_location f = first_dir t -> w_header w = Some h ->
    bs = match h_geos h with Some gh => [gh_border gh] | None => [] end ->
    w_iter w = (concat (map raw_slot raw_order), Ok tt).
  Proof.
    intros Hw Hf Hfd Hh Hg. unfold w_iter, w_disk_format, w_get_header. rewrite Hf, Hh, Hw.
    unfold directory_sectors. rewrite Hfd, (walk_sound t d _ dirs Hd Hdirs).
    assert (forall l, In l dirs -> on_border h l = false) as Hon.
    { intros l Hl. unfold on_border. destruct (h_geos h) as [gh|]; [|done]. apply bool_decide_eq_false. intros <-.
      apply (Hba (gh_border gh)); [|done]. rewrite Hg. by left. }
    pose proof (raw_iter h dirs 0 Hon eq_refl eq_refl) as Hdir. rewrite Nat.mul_0_r, Nat.add_0_r in Hdir. unfold raw_order.
    pose proof raw_sector_entries as Hse. pose proof any_sector as Has.
    destruct (h_geos h) as [gh|] eqn:Eg.
    - destruct (Has 0 (gh_border gh)) as (Hb & Hlb); [by rewrite Hg|]. rewrite Hb.
      rewrite (entries_app (mk_mdisk h [] []) _ _ _ _ Hdir). cbn [md_header entries_of_sectors cs_location cs_data].
      assert (on_border h (gh_border gh) = true) as -> by (unfold on_border; rewrite Eg; by apply bool_decide_eq_true).
      rewrite chunks_block by done. specialize (Hse 0 (gh_border gh) 8 0). rewrite Hg in Hse at 1 2. specialize (Hse eq_refl eq_refl).
      change ((32 * 0) mod 256) with 0 in Hse. cbn [length Nat.ltb Nat.leb] in Hse. rewrite Hse. cbn [fst snd].
      rewrite map_app, concat_app, app_nil_r. do 4 f_equal. rewrite Hg. done.
    - rewrite Hdir. rewrite Hg. cbn [length]. by rewrite app_nil_r.
  Qed.
End directory.

Lemma NoDup_concat_perm {A} (xs ys : list (list A)) : Forall2 Permutation xs ys -> NoDup (concat xs) -> NoDup (concat ys).
Proof. intros H. assert (concat xs ≡ₚ concat ys) as ->; [|done]. induction H as [|x y xs ys Hxy _ IH]; [done|]. cbn. by rewrite Hxy, IH. Qed.

Lemma Forall2_map_both {A B C} (P : A -> Prop) (R : B -> C -> Prop) f g l :
  Forall P l -> (forall x, P x -> R (f x) (g x)) -> Forall2 R (map f l) (map g l).
Proof. intros H HR. induction H; cbn; constructor; auto. Qed.

Lemma map_seq_lookup {A} (f : nat -> A) n i x : map f (seq 0 n) !! i = Some x -> i < n /\ x = f i.
Proof.
  intros H. apply list_lookup_fmap_Some in H as (k & Hk & ->). apply lookup_seq in Hk as [-> Hi]. done.
Qed.

Lemma concat_apart {A B C} (f : B -> C) (g : A -> list B) (xs : list A) i j x y a b :
  NoDup (map f (concat (map g xs))) -> xs !! i = Some x -> xs !! j = Some y -> i < j -> In a (g x) -> In b (g y) -> f a <> f b.
Proof.
  revert i j. induction xs as [|z xs IH]; intros i j Hnd Hi Hj Hlt Ha Hb; [by rewrite lookup_nil in Hi|].
  cbn [map concat] in Hnd. rewrite map_app in Hnd. apply NoDup_app in Hnd as (_ & Hd & Hnd).
  destruct j as [|j]; [lia|]. cbn in Hj. destruct i as [|i]; cbn in Hi.
  - injection Hi as ->. intros E. apply (Hd (f a)).
    + apply elem_of_list_In. by apply in_map.
    + apply elem_of_list_In. rewrite E. apply in_map. apply in_concat. exists (g y). split; [|done].
      apply in_map. apply elem_of_list_In. by eapply elem_of_list_lookup_2.
  - eapply IH; [done|done|done|lia|done|done].
Qed.

Lemma validated_sound t d dirs es :
  dev_shape t d -> holds_bytes d -> d_writable d = true ->
  validate (open_world t d) = Ok [] -> sound_chain d (first_dir t) dirs -> w_directory (open_world t d) = Ok es ->
  plain_image t d dirs es ->
  exists chains a, sound_image t d dirs chains a /\ listing a = map entry_line es.
Proof.
  intros Hd Hby Hwr Hval Hdirs Hes P.
  apply (validate_any_clean t d Hd) in Hval
    as (h & b & dirs' & es' & base & Hh & Hb & Hloc & Hiter & Hsys & Hsec & Hnd & Hdisj & Hfree).
  rewrite (locations_sound t d _ dirs Hd Hdirs) in Hloc. apply Ok_inj in Hloc. subst dirs'.
  unfold w_directory, all_or_error in Hes. rewrite Hiter in Hes. cbn in Hes. apply Ok_inj in Hes. subst es'.
  assert (border_of t d = match h_geos h with Some gh => [gh_border gh] | None => [] end) as Hbo by (unfold border_of; by rewrite Hh).
  assert (border_room (border_at t d) = 8 * length (border_of t d)) as Hroom.
  { unfold border_at. rewrite Hbo. destruct (h_geos h); [|done]. by destruct (_ =? _). }
  assert (forall l, In l (border_of t d) -> valid_loc (d_geom d) l = true) as Hbv.
  { intros l Hl. apply (bam_sector_valid t d l Hd). by apply (pi_border _ _ _ _ P). }
  assert (forall l, In l (border_of t d) -> ~ In l dirs) as Hba by (intros l Hl; by apply (pi_border _ _ _ _ P)).
  set (bs := border_of t d) in *.
  destruct (open_cases t d Hd) as (Hty & Hdev & [(_ & Hno & _)|(h' & b' & Hhr & Hbr & Hwb & Hop)]); [congruence|].
  assert (h' = h) as ->. { pose proof (op_header _ _ _ _ _ Hop). congruence. }
  pose proof (op_fmt _ _ _ _ _ Hop) as Hfmt.
  rewrite (raw_w_iter t d bs dirs Hd Hdirs (pi_dir_end _ _ _ _ P) Hbv Hba (open_world t d) h _ Hdev Hfmt ltac:(by destruct t) Hh Hbo) in Hiter.
  injection Hiter as Hes. pose proof (raw_order_perm bs dirs) as Hord.
  set (n := 8 * length (bs ++ dirs)) in *. set (re := raw_entry d bs dirs) in *.
  assert (forall A (f : nat -> list A), concat (map f (raw_order bs dirs)) ≡ₚ concat (map f (seq 0 n))) as Hperm.
  { intros A f. rewrite <- !flat_map_concat_map. by apply Permutation_flat_map. }
  assert (forall i, i < n -> is_scratched (de_attr (re i)) = false -> In (re i) es) as Hin.
  { intros i Hi Hs. rewrite <- Hes. apply in_concat. exists (raw_slot d bs dirs i). split.
    - apply in_map. apply elem_of_list_In. rewrite Hord. apply elem_of_list_In, in_seq. lia.
    - unfold raw_slot. fold re. rewrite Hs. by left. }
  set (chain i := if linear (re i) then match chain_locations d (de_first (re i)) with Ok ls => ls | _ => [] end
                  else match (let? x := file_at d 0 (re i) in file_occupied d x) with Ok ls => ls | _ => [] end).
  set (claim i := if linear (re i) then loc_dedup (loc_sort (chain i)) else chain i).
  assert (forall e, In e es -> if linear e
            then exists ls, sound_chain d (de_first e) ls /\ chain_locations d (de_first e) = Ok ls
                   /\ sectors_of (open_world t d) e = Ok (loc_dedup (loc_sort ls))
            else exists ls, sectors_found d e ls /\ sectors_of (open_world t d) e = Ok ls) as Hfile.
  { intros e He. destruct (Hsec e He) as [ls Hls]. unfold linear, sectors_found, file_at, sectors_of, open_file_from_entry in *.
    unfold w_get_bam in *. rewrite Hwb in *. cbn [rbind] in *. rewrite Hdev in *. destruct (de_scheme e) eqn:Esc.
    - cbn [rbind file_occupied] in *. unfold chain_locations, all_or_error in *.
      destruct (chain_walk d (de_first e)) as [ss r] eqn:Ew. destruct r as [[]| | |]; try done. cbn in *.
      exists (map cs_location ss). split; [by eapply sound_walk|]. done.
    - destruct (rel_new d 0 e) as [x| | |]; try done. cbn [rbind file_occupied] in *. exists ls. split; [|done]. split; [done|]. by exists (FRelative x).
    - destruct (geos_new d 0 e) as [x| | |]; try done. cbn [rbind file_occupied] in *. exists ls. split; [|done]. split; [done|]. by exists (FGEOSSequential x).
    - destruct (geos_new d 0 e) as [x| | |]; try done. cbn [rbind file_occupied] in *. exists ls. split; [|done]. split; [done|]. by exists (FGEOSVLIR x). }
  assert (forall i, i < n -> is_scratched (de_attr (re i)) = false ->
            if linear (re i) then sound_chain d (de_first (re i)) (chain i) else sectors_found d (re i) (chain i)) as Hchain.
  { intros i Hi Hs. pose proof (Hfile _ (Hin i Hi Hs)) as Hf. unfold chain. destruct (linear (re i)) eqn:El.
    - destruct Hf as (ls & Hls & Hcl & _). by rewrite Hcl.
    - destruct Hf as (ls & (Hns & x & Hx & Hls) & _). rewrite Hx. cbn [rbind]. rewrite Hls. split; [done|]. by exists x. }
  assert (forall i, i < n -> is_scratched (de_attr (re i)) = false -> de_size (re i) = length (chain i)
            /\ forall l, In l (chain i) -> bam_sector t l /\ fst l <> dir_track t) as Hsize.
  { intros i Hi Hs. pose proof (Hchain i Hi Hs) as Hc. destruct (linear (re i)) eqn:El.
    - assert (de_scheme (re i) = SLinear) as E by (unfold linear in El; by destruct (de_scheme (re i))).
      by destruct (pi_files _ _ _ _ P _ _ (Hin i Hi Hs) E Hc) as (? & _ & ?).
    - by apply (pi_special _ _ _ _ P _ _ (Hin i Hi Hs)). }
  assert (exists ks, length ks = n /\ forall i k, ks !! i = Some k -> is_scratched (de_attr (re i)) = false ->
            if linear (re i) then k = KPlain
            else de_scheme (re i) <> SLinear /\ exists x, file_at d 0 (re i) = Ok x /\ file_occupied d x = Ok (chain i) /\ reads_as d x k) as (ks & Hks & Hkind).
  { apply list_choice. intros i Hi. destruct (is_scratched (de_attr (re i))) eqn:Es; [by exists KPlain|].
    pose proof (Hchain i Hi Es) as Hc. destruct (linear (re i)); [by exists KPlain|]. destruct Hc as (Hns & x & Hx & Hox).
    destruct (file_reads t d 0 (re i) x (chain i)) as [k Hk]; try done.
    - intros side c u. exact (raw_record_size t d bs dirs Hd Hdirs (pi_dir_end _ _ _ _ P) Hbv Hba i side c u Hby Hi).
    - intros l Hl%elem_of_list_In. destruct (Hsize i Hi Es) as [_ Hva]. apply (bam_sector_valid t d l Hd). by apply Hva.
    - exists k. intros _. split; [done|]. by exists x. }
  set (file i := mk_afile (de_name (re i)) (de_attr (re i)) (length (chain i))
                   (if linear (re i) then data_of d (chain i) else concat (map (bytes_of_sector d) (chain i))) (default KPlain (ks !! i))).
  set (chains := map (fun i => if is_scratched (de_attr (re i)) then [] else chain i) (seq 0 n)).
  set (slots := map (fun i => if is_scratched (de_attr (re i)) then None else Some (file i)) (seq 0 n)).
  set (a := mk_astate (h_disk_name h) (length dirs) (border_at t d) slots [] [] true).
  assert (map fst (file_claims (open_world t d) es)
          ≡ₚ concat (map (fun i => if is_scratched (de_attr (re i)) then [] else claim i) (seq 0 n))) as Hclaims.
  { rewrite <- Hes. unfold file_claims.
    assert (forall is, (forall i, In i is -> i < n) ->
      map fst (concat (map (fun e => match sectors_of (open_world t d) e with
                 | Ok ls => map (fun l => (l, de_name e)) ls | _ => [] end) (concat (map (raw_slot d bs dirs) is))))
      = concat (map (fun i => if is_scratched (de_attr (re i)) then [] else claim i) is)) as H.
    { induction is as [|i is IH]; intros His; [done|]. cbn [map concat]. rewrite map_app, concat_app, map_app, IH by (intros; apply His; by right).
      f_equal. unfold raw_slot. fold re. destruct (is_scratched (de_attr (re i))) eqn:Es; [done|].
      cbn [map concat]. rewrite app_nil_r. pose proof (Hfile _ (Hin i (His i (or_introl eq_refl)) Es)) as Hf.
      unfold claim, chain. destruct (linear (re i)).
      - destruct Hf as (ls & Hls & Hcl & ->). rewrite Hcl, map_map. cbn. by rewrite map_id.
      - destruct Hf as (ls & (_ & x & -> & Hls) & ->). cbn [rbind]. rewrite Hls, map_map. cbn. by rewrite map_id. }
    rewrite H; [apply Hperm|]. intros i Hi%elem_of_list_In. rewrite Hord in Hi. apply elem_of_list_In, in_seq in Hi. lia. }
  assert (forall i l, In l (claim i) <-> In l (chain i)) as Hcc.
  { intros i l. unfold claim. destruct (linear (re i)); [apply occupied_in|done]. }
  assert (forall l, claimed (file_claims (open_world t d) es) l <-> In l (concat chains)) as Hcl.
  { intros l. transitivity (In l (map fst (file_claims (open_world t d) es))).
    - unfold claimed. rewrite in_map_iff. split; [intros [x Hx]; by exists (l, x)|intros ([l' x] & <- & Hx); by exists x].
    - rewrite <- elem_of_list_In, Hclaims, elem_of_list_In. unfold chains. rewrite !in_concat. split.
      + intros (x & Hx & Hl). apply in_map_iff in Hx as (i & <- & Hi).
        exists (if is_scratched (de_attr (re i)) then [] else chain i). split; [by apply in_map_iff; exists i|].
        destruct (is_scratched (de_attr (re i))) eqn:Es; [destruct Hl|]. by apply Hcc.
      + intros (x & Hx & Hl). apply in_map_iff in Hx as (i & <- & Hi).
        exists (if is_scratched (de_attr (re i)) then [] else claim i). split; [by apply in_map_iff; exists i|].
        destruct (is_scratched _); [destruct Hl|]. by apply Hcc. }
  assert (NoDup (concat chains)) as Hndc.
  { rewrite Hclaims in Hnd. eapply NoDup_concat_perm; [|exact Hnd].     unfold chains. apply (Forall2_map_both (fun i => i < n)); [apply Forall_forall; intros i Hi%elem_of_list_In; apply in_seq in Hi; lia|].
    intros i Hi. cbn. destruct (is_scratched (de_attr (re i))) eqn:Es; [done|].
    unfold claim. pose proof (Hchain i Hi Es) as Hc. destruct (linear (re i)); [|done]. apply occupied_perm. apply Hc. }
  assert (forall l, claimed base l <-> system_sector t l \/ In l (bs ++ dirs)) as Hbase.
  { intros l. unfold claimed. setoid_rewrite (Hsys l). split.
    - intros (x & _ & [H|[H|(gh & Hgh & ->)]]); [by left|right; apply in_app_iff; by right|].
      right. apply in_app_iff. left. rewrite Hbo, Hgh. by left.
    - intros H. exists dos_name. split; [done|]. rewrite in_app_iff in H. destruct H as [H|[H|H]]; [tauto| |tauto].
      right. right. rewrite Hbo in H. destruct (h_geos h) as [gh|]; [|done]. destruct H as [<-|[]]. by exists gh. }
  assert (forall i ls, chains !! i = Some ls -> i < n /\ ls = if is_scratched (de_attr (re i)) then [] else chain i) as Hlook.
  { intros i ls Hi. by apply map_seq_lookup in Hi. }
  assert (forall i o, slots !! i = Some o -> i < n /\ o = if is_scratched (de_attr (re i)) then None else Some (file i)) as Hslook.
  { intros i o Hi. by apply map_seq_lookup in Hi. }
  exists chains, a. split.
  { split; cbn [a as_label as_dirs as_border as_slots as_handles as_writers as_synced]; try done.
    - by exists h.
    - intros l Hl. by destruct (pi_border _ _ _ _ P l Hl) as (? & ? & _).
    - apply P.
    - apply P.
    - intros l Hl. pose proof Hl as Hl'. apply in_concat in Hl' as (x & Hx & Hlx).
      apply elem_of_list_In, elem_of_list_lookup in Hx as [i Hi]. destruct (Hlook i x Hi) as [Hin' ->].
      destruct (is_scratched (de_attr (re i))) eqn:Es; [done|].
      destruct (Hsize i Hin' Es) as (_ & Har). destruct (Har l Hlx) as [H1 H2].
      split; [done|]. split; [done|]. intros Hres. apply (Hdisj l); [apply Hbase; left; split; [done|by right]|by apply Hcl].
    - fold bs. rewrite app_assoc. apply NoDup_app. split; [|split; [|done]].
      { apply NoDup_app. split; [|split; [|apply Hdirs]].
        - rewrite Hbo. destruct (h_geos h); [apply NoDup_singleton|apply NoDup_nil_2].
        - intros l Hl%elem_of_list_In Hl'%elem_of_list_In. by apply (Hba l). }
      intros l Hl Hl'. apply (Hdisj l); [apply Hbase; right; by apply elem_of_list_In|apply Hcl; by apply elem_of_list_In].
    - apply P.
    - unfold slots, chains. by rewrite !map_length, !seq_length.
    - intros i o ls Ho Hls. destruct (Hlook i ls Hls) as [Hi ->]. destruct (Hslook i o Ho) as [_ ->].
      destruct (lookup_lt_is_Some_2 (bs ++ dirs) (i / 8)) as [l Hl]; [lia|].
      destruct (any_sector t d bs dirs Hd Hdirs (pi_dir_end _ _ _ _ P) Hbv Hba _ _ Hl) as (Hsl & Hlen).
      exists l, (block_of d l). split; [done|]. split; [done|].
      destruct (raw_parse t d bs dirs Hd Hdirs (pi_dir_end _ _ _ _ P) Hbv Hba i Hi) as (e0 & Hp & Hre). fold re in Hre.
      rewrite (list_lookup_total_correct _ _ _ Hl) in Hp.
      assert (exists e, dirent_parse (slice (32 * (i mod 8)) 32 (block_of d l)) None = Ok e /\ de_attr e = de_attr (re i)
                /\ de_first e = de_first (re i) /\ de_name e = de_name (re i) /\ de_size e = de_size (re i) /\ de_scheme e = de_scheme (re i)
                /\ de_extra e = de_extra (re i)) as (e & He & E1 & E2 & E3 & E4 & E5 & E6).
      { unfold dirent_parse in *. rewrite length_slice in * by lia. cbn [ENTRY_SIZE Nat.eqb negb] in *.
        rewrite Hre. apply Ok_inj in Hp. rewrite <- Hp. by eexists. }
      exists e. split; [done|]. rewrite E1, E2, E3, E4, E5.
      destruct (is_scratched (de_attr (re i))) eqn:Es; [done|]. split; [done|].
      split; [by apply Hsize|]. pose proof (Hchain i Hi Es) as Hc. destruct (lookup_lt_is_Some_2 ks i) as [k Hk]; [lia|]. specialize (Hkind i k Hk Es). unfold file. rewrite Hk. cbn [default].
      destruct (linear (re i)) eqn:El.
      + assert (de_scheme (re i) = SLinear) as E by (unfold linear in El; by destruct (de_scheme (re i))).
        destruct (pi_files _ _ _ _ P _ _ (Hin i Hi Es) E Hc) as (H1 & H2 & _). by subst k.
      + destruct Hkind as [Hns Hx]. destruct k as [|td rs|data]; [by destruct Hx as (? & _ & _ & [])|..]; unfold a_special; cbn [a_kind];
          (split; [congruence|]; split; [|done]; by apply (found_same d (re i))).
    - intros i j f g Hf Hg' En. destruct (Hslook i _ Hf) as [Hi Ef]. destruct (Hslook j _ Hg') as [Hj Eg].
      destruct (is_scratched (de_attr (re i))) eqn:Ei; [done|]. destruct (is_scratched (de_attr (re j))) eqn:Ej; [done|].
      injection Ef as ->. injection Eg as ->. cbn in En. pose proof (pi_names _ _ _ _ P) as Hnm. rewrite <- Hes, Hperm in Hnm.
      assert (forall k, k < n -> is_scratched (de_attr (re k)) = false -> In (re k) (raw_slot d bs dirs k)) as Hraw.
      { intros k _ Hk. unfold raw_slot. fold re. rewrite Hk. by left. }
      assert (forall k, k < n -> seq 0 n !! k = Some k) as Hseq by (intros k Hk; by apply lookup_seq_lt).
      destruct (Nat.lt_trichotomy i j) as [Hlt|[?|Hlt]]; [exfalso|done|exfalso].
      + by eapply (concat_apart de_name (raw_slot d bs dirs) (seq 0 n) i j); eauto.
      + by eapply (concat_apart de_name (raw_slot d bs dirs) (seq 0 n) j i); eauto.
    - exists b. split; [done|]. split; [by apply P|]. intros l Hl. rewrite (Hfree l Hl), Hbase, Hcl. tauto. }
  unfold listing. cbn [a as_slots as_border]. rewrite <- Hes, Hroom. unfold lines.
  assert (forall is, (forall i, In i is -> i < n) ->
    concat (map (fun o => match o with Some f => [(a_name f, a_attr f, a_blocks f)] | None => [] end)
      (map (fun i => if is_scratched (de_attr (re i)) then None else Some (file i)) is))
    = map entry_line (concat (map (raw_slot d bs dirs) is))) as H.
  { induction is as [|i is IH]; intros His; [done|]. cbn [map concat]. rewrite map_app, IH by (intros; apply His; by right).
    f_equal. unfold raw_slot. fold re. destruct (is_scratched (de_attr (re i))) eqn:Es; [done|]. cbn. unfold entry_line.
    destruct (Hsize i (His i (or_introl eq_refl)) Es) as (-> & _). done. }
  assert (n = 8 * length bs + 8 * length dirs) as En by (unfold n; rewrite app_length; lia).
  unfold slots. rewrite En, seq_app, map_app. rewrite drop_app_alt, take_app_alt by (by rewrite map_length, seq_length).
  unfold raw_order. rewrite map_app, concat_app, map_app. rewrite !H by (intros i Hi%in_seq; lia). done.
Qed.

Lemma sound_validates t d dirs chains a :
  sound_image t d dirs chains a ->
  validate (open_world t d) = Ok [] /\ exists es, w_directory (open_world t d) = Ok es /\ listing a = map entry_line es
    /\ plain_image t d dirs es.
Proof.
  intros Hi. assert (reached t a (start t d)) as Hr by (by apply (reached_open t a _ d dirs chains a [] [] Hi)).
  split; [by apply (reached_clean t a (start t d))|].
  destruct (sound_related t d dirs chains a Hi) as (m & b & R & Htidy).
  exists (m_entries m). pose proof (dir_entries t a _ m 0 b R) as Hes. split; [done|].
  split; [symmetry; apply (listing_entries t _ a m (rl_view t a _ m 0 b R)); apply R|].
  destruct (open_world_cells t d) as (_ & _ & Hdev). pose proof (rl_view t a _ m 0 b R) as V. cbn [start s_world] in V. rewrite Hdev in V.
  destruct (si_header _ _ _ _ _ Hi) as (h & Hh & _). destruct (si_map _ _ _ _ _ Hi) as (b' & Hb & Hcon & _).
  split.
  - intros l Hl. destruct (si_border _ _ _ _ _ Hi l Hl) as [H1 H2]. split; [done|]. split; [done|].
    pose proof (si_apart _ _ _ _ _ Hi) as Hap. apply NoDup_app in Hap as (_ & Hap & _). intros Hl'.
    apply (Hap l); [by apply elem_of_list_In|]. apply elem_of_app. left. by apply elem_of_list_In.
  - intros x Hx. rewrite Hb in Hx. by apply Ok_inj in Hx as <-.
  - apply Hi.
  - apply Hi.
  - apply Hi.
  - by apply (reached_names t a (start t d)).
  - intros e ls He Hsch Hs. apply (in_entries t d m e V) in He as (i & f & Hf & ->). cbn [entry_at de_first de_size de_scheme] in *.
    pose proof (proj1 (slot_at_Some m i f) Hf) as Hf'.
    destruct (v_files _ _ _ V i f Hf') as (_ & Hda & Hh').
    assert (mf_special f = None) as Ef.
    { unfold contents in Hh'. unfold mf_scheme in Hsch. destruct (mf_special f); [by destruct Hh'|done]. }
    apply contents_plain in Hh'; [|done]. unfold mf_first in Hs. rewrite Ef in Hs.
    assert (Forall (fun l => fst l <> 0) (mf_chain f)) as Htr.
    { eapply Forall_impl; [exact Hda|]. intros l Hl. by apply (plain_track t), data_plain. }
    assert (ls = mf_chain f) as ->.
    { eapply (sound_unique t d); [apply V|exact Hs|]. apply (holds_sound d _ (mf_data f)); [|done|done|].
      - eapply used_nodup_chain; [apply V|done].
      - destruct Hh' as [Hne _]. by destruct (mf_chain f). }
    rewrite (holds_data t d _ _ (v_shape _ _ _ V) Htr Hh').
    split; [by apply (rl_sizes _ _ _ _ _ _ R i)|]. split.
    + apply (ti_free a Htidy i (abs_file f)).
      * rewrite (rl_slots _ _ _ _ _ _ R). by apply abs_lookup.
      * unfold a_special. cbn [abs_file a_kind]. unfold mf_kind. by rewrite Ef.
      * destruct (si_fresh _ _ _ _ _ Hi) as (_ & _ & _ & Hw & _). unfold writer_on. by rewrite Hw.
    + intros l Hl. rewrite Forall_forall in Hda. by destruct (Hda l (proj2 (elem_of_list_In _ _) Hl)) as (?&?&?).
  - intros e ls He Hs. apply (in_entries t d m e V) in He as (i & f & Hf & ->).
    pose proof (proj1 (slot_at_Some m i f) Hf) as Hf'. destruct (v_files _ _ _ V i f Hf') as (_ & Hda & Hh').
    destruct Hs as (H1 & x & Hx & H2). cbn [entry_at de_scheme] in H1. unfold mf_scheme in H1.
    destruct (mf_special f) as [y|] eqn:Ef; [|done].
    destruct (contents_opens t d m i f 0 y (v_shape _ _ _ V) Hh' Ef) as (x' & Hx' & Hox & _).
    rewrite Hx in Hx'. apply Ok_inj in Hx'. subst x'. rewrite H2 in Hox. apply Ok_inj in Hox. subst ls. cbn [entry_at de_size].
    split; [by apply (rl_sizes _ _ _ _ _ _ R i)|].
    intros l Hl. rewrite Forall_forall in Hda. by destruct (Hda l (proj2 (elem_of_list_In _ _) Hl)) as (?&?&?).
Qed.
