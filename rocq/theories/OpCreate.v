(** Creating files. *)
From Verif Require Import Base ListFacts Layout Block Bam Format Chain GeosTypes Petscii DirEntry Header World Directory Writer
  Rel File Spec SpecCodec SpecChain SpecBam GeomFacts FlatProofs DevFacts CodecProofs EntryProofs HeaderProofs ChainProofs
  BamProofs AllocProofs BamState Evolve Holds View Dirs Ops Count OpWrite OpFile.
Ltac Zify.zify_post_hook ::= Z.div_mod_to_equations.

Section op.
  Context (t : disk_type).

  Lemma slot_at_grow m n j : slot_at (grow_dir n m) j = slot_at m j.
  Proof.
    unfold slot_at. cbn [grow_dir md_slots]. destruct (decide (j < length (md_slots m))) as [Hj|Hj].
    - by rewrite lookup_app_l.
    - rewrite lookup_app_r by lia. rewrite (lookup_ge_None_2 (md_slots m)) by lia.
      destruct (repeat None 8 !! (j - length (md_slots m))) as [o|] eqn:E; [|done].
      apply elem_of_list_lookup_2 in E. apply elem_of_list_In, repeat_spec in E. by subst.
  Qed.

  Lemma frame_grow i n m : frame i m (grow_dir n m).
  Proof.
    split; [done|]. split; [by exists [n]|]. split; [cbn [grow_dir md_slots]; rewrite app_length; lia|].
    intros j _. apply slot_at_grow.
  Qed.

  Lemma names_ok_grow n m : names_ok m -> names_ok (grow_dir n m).
  Proof. intros Hn i j f g. rewrite !slot_at_grow. apply Hn. Qed.
  Lemma sizes_ok_grow n m : sizes_ok m -> sizes_ok (grow_dir n m).
  Proof. intros Hn i f. rewrite !slot_at_grow. apply Hn. Qed.

  Lemma used_grow n m : used (grow_dir n m) ≡ₚ n :: used m.
  Proof.
    unfold used. rewrite secs_grow. cbn [grow_dir md_slots]. rewrite files_used_app, files_used_none, app_nil_r.
    rewrite <- app_assoc. symmetry. apply Permutation_middle.
  Qed.

  Lemma files_grow n m : files_used (md_slots (grow_dir n m)) = files_used (md_slots m).
  Proof. cbn [grow_dir md_slots]. by rewrite files_used_app, files_used_none, app_nil_r. Qed.

  Lemma fresh_dir_block (x : list nat) :
    length x = 256 ->
    length (fresh_directory_sector x) = 256 /\ fresh_directory_sector x !!! 0 = 0 /\ fresh_directory_sector x !!! 1 = 255
    /\ (forall k, k < 8 -> is_scratched (attr_from_byte (fresh_directory_sector x !!! (32 * k + 2))) = true)
    /\ (forall p, exists e, dirent_parse (slice 0 ENTRY_SIZE (fresh_directory_sector x)) p = Ok e /\ de_pos e = p).
  Proof.
    intros H. unfold fresh_directory_sector. rewrite H. split; [done|]. split; [done|]. split; [done|].
    split.
    - intros k Hk. do 8 (destruct k as [|k]; [done|]). lia.
    - intros p. eexists. split; [vm_compute; reflexivity|]. done.
  Qed.

  (** Finding a slot for a new entry. *)
  Lemma next_free_view w m c b :
    wok t w m c b [] -> names_ok m ->
    (exists i e w' m' b', next_free_directory_entry w = (w', Ok e)
       /\ de_pos e = Some (slot_pos m' i) /\ slot_at m' i = None /\ i < length (md_slots m')
       /\ wok t w' m' c b' [] /\ (forall j, moved t j w m w' m') /\ disk_bam t (w_dev w') = disk_bam t (w_dev w)
       /\ ((free_slot m = Some i /\ w' = w /\ m' = m /\ b' = b)
           \/ (free_slot m = None /\ length (border_on t m) + length (md_dir m) < dir_capacity t /\ i = length (md_slots m)
               /\ exists n, m' = grow_dir n m)))
    \/ (free_slot m = None /\ length (border_on t m) + length (md_dir m) = dir_capacity t
        /\ next_free_directory_entry w = (w, Err EDiskFull)).
  Proof.
    intros W Hn. pose proof (wo_view _ _ _ _ _ _ W) as V.
    unfold next_free_directory_entry.
    rewrite (sbind_ok (asks w_disk_format) _ w w (m_format t m)).
    2: { unfold asks, w_disk_format. by rewrite (wo_fmt _ _ _ _ _ _ W). }
    rewrite (m_first_dir t m).
    pose proof (free_slot_view t (w_dev w) m V) as Hfs.
    destruct (chain_walk (w_dev w) (first_dir t)) as [ss r] eqn:Hcw.
    destruct (free_slot m) as [i|] eqn:Hfn.
    - destruct Hfs as (e & He & Hpe). left. exists i, e, w, m, b.
      apply free_slot_Some in Hfn as Hfn'. destruct Hfn' as [Hi _].
      split; [|split; [done|split; [|split; [by eapply lookup_lt_Some|split; [done|split; [|split; [done|]]]]]]].
      + unfold sbind, asks. by rewrite Hcw, He.
      + unfold slot_at. by rewrite Hi.
      + intros j. by apply moved_refl.
      + by left.
    - destruct Hfs as (la & He & Hla).
      rewrite (sbind_ok _ _ w w (inr la)). 2: { unfold asks. by rewrite Hcw, He. }
      rewrite (sbind_ok (asks w_get_bam) _ w w c). 2: { unfold asks, w_get_bam. by rewrite (wo_bam _ _ _ _ _ _ W). }
      assert (la ∈ md_dir m) as Hlin by (by apply last_in).
      assert (dir_loc t la) as Hld.
      { pose proof (v_dirs _ _ _ V) as Hd. rewrite Forall_forall in Hd. by apply Hd. }
      destruct (alloc_dir t b m [] la (wo_alloc _ _ _ _ _ _ W) Hld) as [(n & b' & Hnf & Hdn & Hnu & _ & Hal & Hb')|[Hnf Hno]].
      + left.
        rewrite (sbind_ok _ _ w w n).
        2: { unfold asks, cell. rewrite (wo_cell _ _ _ _ _ _ W). cbn [rbind]. by rewrite Hnf. }
        pose proof (view_plain_valid _ _ _ V _ (dir_plain _ _ Hdn)) as Hvn.
        destruct (sector_valid t (w_dev w) _ (v_shape _ _ _ V) Hvn) as (x & _ & Hsx & Hlx).
        rewrite (sbind_ok _ _ _ _ _ (on_dev_mut w n fresh_directory_sector x (v_writable _ _ _ V) Hsx)).
        destruct (fresh_dir_block x Hlx) as (Hfl & Hf0 & Hf1 & Hfs & Hfp).
        set (fresh := fresh_directory_sector x) in *.
        pose proof (view_write_unused t (w_dev w) m n fresh V (dir_plain _ _ Hdn) Hnu Hfl) as V1.
        set (w1 := set_dev (upd (w_dev w) n fresh) w).
        assert (sector (w_dev w1) n = Ok fresh) as Hsn by (by eapply (sector_upd_same t); [apply V|]).
        rewrite (sbind_ok _ _ w1 w1 fresh). 2: { unfold asks. by rewrite Hsn. }
        destruct (Hfp (Some (mk_position n 0 ENTRY_SIZE))) as (e & Hpe & Hde).
        rewrite Hpe. rewrite (sbind_ok (lift (Ok e)) _ w1 w1 e eq_refl).
        assert (wok t w1 m c b []) as W1 by (eapply wok_dev; [exact W|done|done|apply W]).
        rewrite (sbind_ok _ _ _ _ _ (update_cell_run w1 c b _ b' (wo_cell _ _ _ _ _ _ W1) Hal)).
        set (w2 := set_cell c b' w1).
        assert (wok t w2 m c b' [n]) as W2 by (by eapply wok_cell).
        assert (plain t la) as Hpl by (by apply dir_plain).
        pose proof (view_plain_valid _ _ _ V1 _ Hpl) as Hvl.
        destruct (sector_valid t (w_dev w1) _ (v_shape _ _ _ V1) Hvl) as (y & _ & Hsy & Hly).
        rewrite (sbind_ok _ _ _ _ _ (on_dev_mut w2 la (write_loc n) y (v_writable _ _ _ V1) Hsy)).
        pose proof (view_write_dir t (w_dev w1) m la n y fresh V1 Hla Hdn Hnu Hsy Hsn Hf0 Hf1 Hfs) as V3.
        exists (length (md_slots m)), e, (set_dev (upd (w_dev w2) la (write_loc n y)) w2), (grow_dir n m), b'.
        split; [done|]. split; [|split; [|split; [|split; [|split; [|split]]]]].
        * rewrite Hde. f_equal. unfold slot_pos, slot_loc, slot_off, ENTRY_SIZE. rewrite (v_slots _ _ _ V).
          rewrite secs_grow. replace (8 * length (md_secs m) / 8) with (length (md_secs m)) by lia.
          replace (32 * ((8 * length (md_secs m)) mod 8)) with 0 by lia. f_equal.
          rewrite lookup_total_app_r by lia. by rewrite Nat.sub_diag.
        * rewrite slot_at_grow. unfold slot_at. by rewrite lookup_ge_None_2.
        * cbn [grow_dir md_slots]. rewrite app_length. simpl. lia.
        * eapply wok_dev; [exact W2|done|done|]. eapply bam_ok_used; [apply W2|done|].
          intros l. rewrite used_grow, elem_of_cons, elem_of_nil, elem_of_list_singleton. tauto.
        * intros j. eapply moved_trans; [|eapply moved_trans].
          -- eapply (moved_upd t j w m w1 m); [exact V|done|reflexivity|exact V1|done|apply frame_refl].
          -- eapply (moved_same t j w1 m w2); [exact V1|done|done].
          -- eapply (moved_upd t j w2 m); [exact V1|done|reflexivity|exact V3|by apply names_ok_grow|apply frame_grow].
        * cbn [set_dev w_dev w2 set_cell w1]. rewrite disk_bam_plain by (done || apply V1).
          apply disk_bam_plain; [apply V|by apply dir_plain].
        * right. split; [done|]. split; [|split; [done|by exists n]].
          pose proof (dirs_fit t _ _ V3) as Hdf. change (border_on t (grow_dir n m)) with (border_on t m) in Hdf. cbn [grow_dir md_dir] in Hdf. rewrite app_length in Hdf. simpl in Hdf. lia.
      + right. split; [done|]. split; [by apply (dir_full_iff t _ m V)|].
        unfold sbind, asks, cell. rewrite (wo_cell _ _ _ _ _ _ W). cbn [rbind]. by rewrite Hnf.
  Qed.

  Definition new_file (name : list nat) (ft : file_type) (n : location) : mfile :=
    mk_mfile (mk_attr ft false false false true) name (repeat 0 9) 1 [n] [] None.

  Lemma new_file_ok name ft n :
    type_ok ft -> ft <> REL -> length name <= 16 -> last name <> Some PADDING_BYTE -> data_loc t n ->
    file_ok (new_file name ft n).
  Proof.
    intros Ht Hr Hl Hla [Hn _]. split.
    - split; try done.
      + by apply (bam_sector_byte t).
      + cbn. lia.
      + cbn. split; [done|]. split; [done|]. right. left. done.
    - cbn [new_file mf_attr]. unfold is_scratched. cbn [fa_closed negb]. apply andb_false_r.
  Qed.

  (** Creating a file. *)
  Lemma create_view w m c b name ft :
    wok t w m c b [] -> names_ok m -> sizes_ok m ->
    type_ok ft -> ft <> REL -> length name <= 16 -> last name <> Some PADDING_BYTE ->
    (forall i f, slot_at m i = Some f -> mf_name f <> name) ->
    (* a slot, and a block *)
    (exists i n m1 w' b' x, create_file name ft w = (w', Ok x)
       /\ wok t w' (set_slot i (Some (new_file name ft n)) m1) c b' []
       /\ handle_ok (set_slot i (Some (new_file name ft n)) m1) c i x
       /\ slot_at m1 i = None /\ i < length (md_slots m1) /\ data_loc t n /\ n ∉ used m
       /\ moved t i w m w' (set_slot i (Some (new_file name ft n)) m1)
       /\ sizes_ok (set_slot i (Some (new_file name ft n)) m1)
       /\ disk_bam t (w_dev w') = disk_bam t (w_dev w)
       /\ ((free_slot m = Some i /\ m1 = m)
           \/ (free_slot m = None /\ length (border_on t m) + length (md_dir m) < dir_capacity t /\ i = length (md_slots m)
               /\ exists k, m1 = grow_dir k m)))
    (* no block *)
    \/ (exists m1 w' b', create_file name ft w = (w', Err EDiskFull)
       /\ length (border_off t m) + length (files_used (md_slots m)) = data_capacity t
       /\ wok t w' m1 c b' [] /\ (forall i, moved t i w m w' m1) /\ sizes_ok m1
       /\ disk_bam t (w_dev w') = disk_bam t (w_dev w)
       /\ ((free_slot m <> None /\ m1 = m /\ w' = w /\ b' = b)
           \/ (free_slot m = None /\ length (border_on t m) + length (md_dir m) < dir_capacity t /\ exists k, m1 = grow_dir k m)))
    (* no slot *)
    \/ (free_slot m = None /\ length (border_on t m) + length (md_dir m) = dir_capacity t
       /\ create_file name ft w = (w, Err EDiskFull)).
  Proof.
    intros W Hn Hs Hft Hrel Hlen Hend Hno. unfold create_file.
    rewrite (valid_name name Hlen). rewrite (sbind_ok (lift (Ok tt)) _ w w tt eq_refl).
    rewrite (sbind_ok _ _ w w tt). 2: { unfold asks. by rewrite (available_free t w m c b name W Hno). }
    destruct (next_free_view w m c b W Hn)
      as [(i & e & w1 & m1 & b1 & Hrun & Hpe & Hsl & Hilt & W1 & M1 & D1 & Hcase)|(Hfn & Hcap & Hrun)].
    2: { right. right. split; [done|]. split; [done|]. by rewrite (sbind_err _ _ _ _ _ Hrun). }
    rewrite (sbind_ok _ _ _ _ _ Hrun).
    rewrite (sbind_ok (asks w_get_bam) _ w1 w1 c). 2: { unfold asks, w_get_bam. by rewrite (wo_bam _ _ _ _ _ _ W1). }
    pose proof (wo_view _ _ _ _ _ _ W1) as V1.
    assert (sizes_ok m1) as Hs1.
    { destruct Hcase as [(_ & _ & -> & _)|(_ & _ & _ & k & ->)]; [done|by apply sizes_ok_grow]. }
    assert (files_used (md_slots m1) = files_used (md_slots m)) as Hfu.
    { destruct Hcase as [(_ & _ & -> & _)|(_ & _ & _ & k & ->)]; [done|apply files_grow]. }
    destruct (alloc_data t b1 m1 [] (wo_alloc _ _ _ _ _ _ W1)) as [(n & b' & Hnf & Hdn & Hnu & _ & Hal & Hb')|[Hnf Hall]].
    2: { right. left. exists m1, w1, b1. split; [|split; [|split; [done|split; [done|split; [done|split; [done|]]]]]].
      - erewrite sbind_err; [reflexivity|]. unfold asks, cell. rewrite (wo_cell _ _ _ _ _ _ W1). cbn [rbind]. by rewrite Hnf.
      - apply (full_iff t _ m1 V1) in Hall. rewrite <- Hfu.
        destruct Hcase as [(_ & _ & -> & _)|(_ & _ & _ & k & ->)]; [done|exact Hall].
      - destruct Hcase as [(Hf & -> & -> & ->)|(Hf & Hd & _ & Hk)]; [left; by rewrite Hf|right; done]. }
    left.
    rewrite (sbind_ok _ _ w1 w1 n).
    2: { unfold asks, cell. rewrite (wo_cell _ _ _ _ _ _ W1). cbn [rbind]. by rewrite Hnf. }
    rewrite (sbind_ok _ _ _ _ _ (update_cell_run w1 c b1 _ b' (wo_cell _ _ _ _ _ _ W1) Hal)).
    set (w2 := set_cell c b' w1).
    assert (wok t w2 m1 c b' [n]) as W2 by (by eapply wok_cell).
    pose proof (view_plain_valid _ _ _ V1 _ (data_plain _ _ Hdn)) as Hvn.
    destruct (sector_valid t (w_dev w1) _ (v_shape _ _ _ V1) Hvn) as (x & _ & Hsx & Hlx).
    rewrite (sbind_ok _ _ _ _ _ (on_dev_mut w2 n (splice 0 [0; 1]) x (v_writable _ _ _ V1) Hsx)).
    set (bn := splice 0 [0; 1] x).
    assert (length bn = 256) as Hlbn by (unfold bn; rewrite length_splice; simpl; lia).
    pose proof (view_write_unused t (w_dev w1) m1 n bn V1 (data_plain _ _ Hdn) Hnu Hlbn) as V3.
    set (w3 := set_dev (upd (w_dev w1) n bn) w2).
    assert (wok t w3 m1 c b' [n]) as W3 by (eapply (wok_dev t w2); [exact W2|done|done|apply W2]).
    set (f := new_file name ft n).
    set (e' := set_size 1 _).
    assert (i < 8 * length (md_secs m1)) as Hi8 by (by rewrite <- (v_slots _ _ _ V1)).
    destruct (lookup_lt_is_Some_2 _ _ Hilt) as [o Ho].
    assert (o = None) as -> by (unfold slot_at in Hsl; rewrite Ho in Hsl; by destruct o).
    assert (NoDup (used (set_slot i (Some f) m1))) as Hnd.
    { pose proof (v_nodup _ _ _ V1) as Hu. unfold used in *. change (md_secs (set_slot i (Some f) m1)) with (md_secs m1). cbn [set_slot md_slots].
      rewrite files_used_insert by done. rewrite (files_used_split _ _ _ Ho) in Hu, Hnu. cbn [chain_of] in *.
      change (NoDup (md_secs m1 ++ files_used (take i (md_slots m1)) ++ [n] ++ files_used (drop (S i) (md_slots m1)))).
      assert (md_secs m1 ++ files_used (take i (md_slots m1)) ++ [n] ++ files_used (drop (S i) (md_slots m1))
        ≡ₚ n :: (md_secs m1 ++ files_used (take i (md_slots m1)) ++ [] ++ files_used (drop (S i) (md_slots m1)))) as HP
        by solve_Permutation.
      rewrite HP. by constructor. }
    destruct (entry_write_view t (w_dev w3) m1 i e' f) as (bk & Hwr & Hlb & V4).
    { exact V3. } { done. } { done. }
    { done. }
    { by apply new_file_ok. }
    { by constructor. }
    { split; [done|]. intros j l Hj. destruct j as [|j]; [|done]. injection Hj as <-. exists bn.
      split; [by eapply (sector_upd_same t); [apply V1|]|]. unfold block_is. cbn [f new_file mf_chain mf_data lookup list_lookup].
      unfold bn. do 2 (destruct x as [|? x]; [done|]). split; [done|]. split; [done|]. split; [done|]. simpl. lia. }
    { by left. }
    { done. }
    assert (n ∉ used m) as Hnum.
    { destruct Hcase as [(_ & _ & -> & _)|(_ & _ & _ & k & ->)]; [done|].
      intros Hx. apply Hnu. rewrite used_grow, elem_of_cons. by right. }
    exists i, n, m1, (set_dev (upd (w_dev w3) (slot_loc m1 i) bk) w3), b', (FLinear c e').
    split; [|split; [|split; [|split; [done|split; [done|split; [done|split; [done|split; [|split; [|split]]]]]]]]].
    - change (set_dev (upd (w_dev w2) n bn) w2) with w3. unfold sbind at 1. rewrite (on_dev_run _ _ _ _ Hwr). done.
    - eapply wok_dev; [exact W3|done|done|]. eapply bam_ok_used; [apply W3|done|].
      intros l. rewrite (used_set_in m1 i None) by (done || apply V1). 
      change (chain_of (Some (new_file name ft n))) with [n]. change (chain_of None) with (@nil location).
      rewrite !elem_of_list_singleton, !elem_of_nil. tauto.
    - split. exists f, e', (repeat 0 9). split; [by apply slot_at_set|]. split; [done|]. split; [done|]. split; [done|].
      split; [done|]. done.
    - eapply moved_trans; [apply M1|]. eapply moved_trans; [|eapply moved_trans].
      + apply (moved_same t i w1 m1 w2); [done|apply (M1 i)|done].
      + apply (moved_upd t i w2 m1 w3 m1 n bn); [done|apply (M1 i)|done|done|apply (M1 i)|apply frame_refl].
      + eapply (moved_upd t i w3 m1); [exact V3|apply (M1 i)|reflexivity|done| |apply frame_set_slot].
        apply names_ok_set; [apply (M1 i)|done|]. intros g [= <-] j y Hj Hy. cbn [f new_file mf_name].
        destruct (M1 j) as [_ (_ & _ & _ & _) _].
        destruct Hcase as [(_ & _ & -> & _)|(_ & _ & _ & k & ->)]; [by eapply Hno|].
        rewrite slot_at_grow in Hy. by eapply Hno.
    - by apply sizes_ok_set.
    - cbn [set_dev w_dev]. rewrite disk_bam_plain; [|apply V3|].
      + cbn [w3 set_dev w_dev]. rewrite disk_bam_plain; [done|apply V1|by apply data_plain].
      + apply (view_used_plain _ _ _ V1), used_in. left. by apply slot_loc_elem.
    - destruct Hcase as [(Hf & _ & Hm & _)|(Hf & Hd & Hi & Hk)]; [by left|by right].
  Qed.

  Lemma create_too_long w name ft : 16 < length name -> create_file name ft w = (w, Err EFilenameTooLong).
  Proof. intros H. unfold create_file. by rewrite invalid_name. Qed.
  Lemma create_taken w m c b i f ft :
    wok t w m c b [] -> names_ok m -> slot_at m i = Some f ->
    create_file (mf_name f) ft w = (w, Err EFileExists).
  Proof.
    intros W Hn Hi. unfold create_file. rewrite valid_name.
    - unfold sbind, lift, asks. by rewrite (available_taken t w m c b i f).
    - destruct (v_files _ _ _ (wo_view _ _ _ _ _ _ W) i f) as ((Hok & _) & _); [by apply slot_at_Some|apply Hok].
  Qed.
End op.
