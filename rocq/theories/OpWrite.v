(** Writing to an open file. *)
From Verif Require Import Base ListFacts Layout Block Bam Format Chain GeosTypes Petscii DirEntry Header World Directory Writer
  Rel File Spec SpecCodec SpecChain SpecBam GeomFacts FlatProofs DevFacts CodecProofs EntryProofs HeaderProofs ChainProofs
  BamProofs AllocProofs BamState Evolve Holds View Dirs Ops Count.
Ltac Zify.zify_post_hook ::= Z.div_mod_to_equations.

(** ** Moves: what an operation on slot [i] does *)

Record moved (t : disk_type) (i : nat) (w : world) (m : mdisk) (w' : world) (m' : mdisk) : Prop := {
  mv_evolves : evolves (safe t i m) (w_dev w) (w_dev w');
  mv_frame : frame i m m';
  mv_names : names_ok m'
}.

Lemma moved_refl t i w m : view t (w_dev w) m -> names_ok m -> moved t i w m w m.
Proof.
  intros V Hn. split; [|apply frame_refl|done]. apply evolves_refl. exists m. split; [done|]. split; [done|]. apply frame_refl.
Qed.

Lemma moved_trans t i w m w1 m1 w2 m2 :
  moved t i w m w1 m1 -> moved t i w1 m1 w2 m2 -> moved t i w m w2 m2.
Proof.
  intros [E1 F1 N1] [E2 F2 N2]. split; [|by eapply frame_trans|done].
  eapply evolves_trans; [exact E1|]. eapply evolves_impl; [|exact E2]. intros d. by apply safe_weaken.
Qed.

Lemma moved_upd t i w m w' m' l b :
  view t (w_dev w) m -> names_ok m -> w_dev w' = upd (w_dev w) l b ->
  view t (upd (w_dev w) l b) m' -> names_ok m' -> frame i m m' -> moved t i w m w' m'.
Proof.
  intros V Hn E V' Hn' Hf. split; [|done|done]. rewrite E. apply evolves_one.
  - eapply safe_intro; [exact V|done|apply frame_refl].
  - by eapply safe_intro.
Qed.

Lemma moved_same t i w m w' : view t (w_dev w) m -> names_ok m -> w_dev w' = w_dev w -> moved t i w m w' m.
Proof.
  intros V Hn E. split; [|apply frame_refl|done]. rewrite E. apply evolves_refl.
  eapply safe_intro; [exact V|done|apply frame_refl].
Qed.

(** ** The state of a writer *)

Record writer_ok (m : mdisk) (c i : nat) (k : writer) (f : mfile) (pend : list nat) : Prop := {
  wk_slot : slot_at m i = Some f;
  wk_cell : cw_bam k = c;
  wk_pos : de_pos (cw_entry k) = Some (slot_pos m i);
  wk_last : last (mf_chain f) = Some (cw_loc k);
  wk_size : length (cw_block k) = 256;
  wk_0 : cw_block k !!! 0 = 0;
  wk_1 : cw_block k !!! 1 = S (length (mf_data f ++ pend) - 254 * (length (mf_chain f) - 1));
  wk_bytes : slice 2 (length (mf_data f ++ pend) - 254 * (length (mf_chain f) - 1)) (cw_block k)
             = drop (254 * (length (mf_chain f) - 1)) (mf_data f ++ pend);
  wk_len : length (mf_data f ++ pend) <= 254 * length (mf_chain f);
  wk_dirty : cw_dirty k = false -> pend = [];
  wk_plain : mf_special f = None
}.

Definition sizes_ok (m : mdisk) : Prop :=
  forall i f, slot_at m i = Some f -> mf_size f = length (mf_chain f).

Lemma sizes_ok_set i f m :
  sizes_ok m -> mf_size f = length (mf_chain f) -> i < length (md_slots m) -> sizes_ok (set_slot i (Some f) m).
Proof.
  intros Hs Hf Hi j g Hj. destruct (decide (j = i)) as [->|Hne].
  - rewrite slot_at_set in Hj by done. by injection Hj as <-.
  - rewrite slot_at_set_ne in Hj by done. by eapply Hs.
Qed.

Lemma slot_at_lt m i f : slot_at m i = Some f -> i < length (md_slots m).
Proof. intros H. apply slot_at_Some in H. by eapply lookup_lt_Some. Qed.

Section op.
  Context (t : disk_type).

  Lemma view_slot_holds d m i f :
    view t d m -> slot_at m i = Some f -> mf_special f = None ->
    254 * (length (mf_chain f) - 1) <= length (mf_data f) <= 254 * length (mf_chain f) /\ 1 <= length (mf_chain f).
  Proof.
    intros V Hi Hk. apply slot_at_Some in Hi. destruct (v_files _ _ _ V i f Hi) as (_ & _ & Hh).
    eapply holds_length. by eapply contents_plain.
  Qed.

  (** The file of a writer once its block has been written. *)
  Definition settled (f : mfile) (pend : list nat) : mfile := set_chain (mf_chain f) (mf_data f ++ pend) f.

  Lemma chain_loc_plain d m i f l : view t d m -> slot_at m i = Some f -> l ∈ mf_chain f -> plain t l.
  Proof.
    intros V Hi Hl. apply slot_at_Some in Hi. apply (view_used_plain _ _ _ V). apply used_in. right. eauto.
  Qed.

  Lemma last_in {A} (l : list A) x : last l = Some x -> x ∈ l.
  Proof. intros H. rewrite last_lookup in H. by eapply elem_of_list_lookup_2. Qed.

  Lemma write_current_view w m c b i k f pend :
    wok t w m c b [] -> names_ok m -> writer_ok m c i k f pend ->
    exists w', write_current_block (w, k) = ((w', k), Ok tt)
      /\ wok t w' (set_slot i (Some (settled f pend)) m) c b []
      /\ moved t i w m w' (set_slot i (Some (settled f pend)) m)
      /\ writer_ok (set_slot i (Some (settled f pend)) m) c i k (settled f pend) []
      /\ disk_bam t (w_dev w') = disk_bam t (w_dev w)
      /\ w_dev w' = upd (w_dev w) (cw_loc k) (cw_block k).
  Proof.
    intros W Hn K. pose proof (wo_view _ _ _ _ _ _ W) as V. destruct K as [Hi Hc Hp Hla Hsz H0 H1 H2 Hlen Hdi Hk].
    destruct (view_slot_holds _ _ _ _ V Hi Hk) as [[Hl1 Hl2] Hl3].
    pose proof (chain_loc_plain _ _ _ _ _ V Hi (last_in _ _ Hla)) as Hpl.
    pose proof (view_plain_valid _ _ _ V _ Hpl) as Hv.
    destruct (sector_valid t (w_dev w) _ (v_shape _ _ _ V) Hv) as (x & _ & Hsx & _).
    pose proof (slot_at_lt _ _ _ Hi) as Hilt.
    set (m' := set_slot i (Some (settled f pend)) m).
    assert (view t (upd (w_dev w) (cw_loc k) (cw_block k)) m') as V'.
    { apply view_write_tail; try done; [by apply slot_at_Some| |].
      - rewrite take_app_le by lia. done.
      - rewrite app_length in *. lia. }
    assert (names_ok m') as Hn' by (by eapply names_ok_same).
    exists (set_dev (upd (w_dev w) (cw_loc k) (cw_block k)) w). split; [|split; [|split; [|split; [|split]]]].
    - unfold write_current_block, the_writer, sbind, gets. cbn [snd]. apply on_world_run.
      apply (on_dev_mut w _ _ x); [apply V|done].
    - eapply wok_dev; [done|done|done|]. eapply bam_ok_used; [apply W|done|].
      intros l. unfold m'. by rewrite (used_same_chain m i f).
    - eapply moved_upd; try done. apply frame_set_slot.
    - split; try done.
      + by apply slot_at_set.
      + by rewrite app_nil_r.
      + by rewrite app_nil_r.
      + by rewrite app_nil_r.
    - simpl. by apply disk_bam_plain; [apply V|].
    - done.
  Qed.

  Definition resize (n : nat) (f : mfile) : mfile :=
    mk_mfile (mf_attr f) (mf_name f) (mf_extra f) n (mf_chain f) (mf_data f) (mf_special f).

  Lemma increment_view w m c b ex i k f :
    wok t w m c b ex -> names_ok m -> slot_at m i = Some f -> de_pos (cw_entry k) = Some (slot_pos m i) ->
    mf_size f + 1 < N.to_nat 65536 ->
    exists w' e', increment_entry_blocks (w, k) = ((w', set_entry e' k), Ok tt)
      /\ de_pos e' = Some (slot_pos m i)
      /\ wok t w' (set_slot i (Some (resize (mf_size f + 1) f)) m) c b ex
      /\ moved t i w m w' (set_slot i (Some (resize (mf_size f + 1) f)) m)
      /\ disk_bam t (w_dev w') = disk_bam t (w_dev w)
      /\ forall l, l ∉ md_secs m -> sector (w_dev w') l = sector (w_dev w) l.
  Proof.
    intros W Hn Hi Hp Hsz. pose proof (wo_view _ _ _ _ _ _ W) as V. pose proof (slot_at_lt _ _ _ Hi) as Hilt.
    pose proof Hi as Hi'. apply slot_at_Some in Hi'. destruct (v_files _ _ _ V i f Hi') as (Hok & Hc & Hh).
    set (f' := resize (mf_size f + 1) f). set (e1 := mf_entry f (Some (slot_pos m i))).
    set (e2 := set_size (de_size e1 + 1) e1).
    destruct (entry_write_view t (w_dev w) m i e2 f' V Hilt) as (b' & Hwr & Hlb & V').
    - done.
    - done.
    - destruct Hok as [Hok Hsc]. split; [|done]. destruct Hok. split; try done.
    - done.
    - done.
    - right. by exists f.
    - rewrite (used_same_chain m i f f') by done. apply V.
    - exists (set_dev (upd (w_dev w) (slot_loc m i) b') w), e2.
      assert (plain t (slot_loc m i)) as Hpl.
      { apply (view_used_plain _ _ _ V), used_in. left. apply slot_loc_elem. by rewrite <- (v_slots _ _ _ V). }
      split; [|split; [done|split; [|split; [|split]]]].
      + unfold increment_entry_blocks. unfold the_writer, sbind at 1, gets. cbn [snd].
        erewrite sbind_ok; [|apply on_world_run; unfold asks; rewrite (entry_read_view _ _ _ _ _ _ V Hi Hp); reflexivity].
        unfold on_writer, modify. unfold sbind at 1. cbn [fst snd]. fold e1. unfold lift. unfold sbind at 1.
        change (de_size e1) with (mf_size f).
        destruct (Nat.ltb_spec (mf_size f + 1) (N.to_nat 65536)) as [_|]; [|lia].
        cbn [fst snd]. unfold sbind. cbn [fst snd].
        change (set_size (mf_size f + 1) e1) with e2.
        change (set_entry e2 (set_entry e1 k)) with (set_entry e2 k).
        apply on_world_run, on_dev_run. exact Hwr.
      + eapply wok_dev; [done|done|done|]. eapply bam_ok_used; [apply W|done|].
        intros l. by rewrite (used_same_chain m i f f').
      + eapply moved_upd; try done; [by eapply names_ok_same|apply frame_set_slot].
      + simpl. by apply disk_bam_plain; [apply V|].
      + intros l Hl. apply (sector_upd_other t); [apply V| |by apply (view_plain_valid _ _ _ V)]. intros <-. apply Hl.
        apply slot_loc_elem. by rewrite <- (v_slots _ _ _ V).
  Qed.

  Lemma set_slot_twice i o o' m : set_slot i o (set_slot i o' m) = set_slot i o m.
  Proof. unfold set_slot. simpl. by rewrite list_insert_insert. Qed.

  Lemma files_count m i o f :
    slot_at m i = Some f ->
    length (files_used (md_slots (set_slot i o m))) + length (mf_chain f)
    = length (files_used (md_slots m)) + length (chain_of o).
  Proof.
    intros Hi. apply slot_at_Some in Hi. cbn [set_slot md_slots].
    rewrite files_used_insert by (by eapply lookup_lt_Some). rewrite (files_used_split _ _ _ Hi).
    rewrite !app_length. simpl. lia.
  Qed.

  Definition extended (f : mfile) (n : location) (pend : list nat) : mfile :=
    mk_mfile (mf_attr f) (mf_name f) (mf_extra f) (mf_size f + 1) (mf_chain f ++ [n]) (mf_data f ++ pend) (mf_special f).

  Lemma fresh_block (x : list nat) :
    2 <= length x ->
    exists fresh, link_to_bytes (Tail 2) (take 2 x ++ repeat 0 (BLOCK_SIZE - 2)) = Ok fresh
      /\ length fresh = 256 /\ fresh !!! 0 = 0 /\ fresh !!! 1 = 1.
  Proof.
    intros H. do 2 (destruct x as [|? x]; [simpl in H; lia|]). eexists. split; [reflexivity|]. done.
  Qed.

  Lemma capacity_small : data_capacity t + 1 < N.to_nat 65536.
  Proof. destruct t; cbn [data_capacity]; lia. Qed.

  Lemma allocate_view w m c b i k f pend :
    wok t w m c b [] -> names_ok m -> sizes_ok m -> writer_ok m c i k f pend ->
    length (mf_data f ++ pend) = 254 * length (mf_chain f) ->
    (exists w' k' b' n, allocate_next_block (w, k) = ((w', k'), Ok 254)
       /\ data_loc t n /\ n ∉ used m
       /\ wok t w' (set_slot i (Some (extended f n pend)) m) c b' []
       /\ moved t i w m w' (set_slot i (Some (extended f n pend)) m)
       /\ writer_ok (set_slot i (Some (extended f n pend)) m) c i k' (extended f n pend) []
       /\ cw_dirty k' = cw_dirty k /\ disk_bam t (w_dev w') = disk_bam t (w_dev w))
    \/ (exists w', allocate_next_block (w, k) = ((w', k), Err EDiskFull)
       /\ length (border_off t m) + length (files_used (md_slots m)) = data_capacity t
       /\ wok t w' (set_slot i (Some (settled f pend)) m) c b []
       /\ moved t i w m w' (set_slot i (Some (settled f pend)) m)
       /\ writer_ok (set_slot i (Some (settled f pend)) m) c i k (settled f pend) []
       /\ disk_bam t (w_dev w') = disk_bam t (w_dev w)).
  Proof.
    intros W Hn Hs K Hfull. pose proof (wk_slot _ _ _ _ _ _ K) as Hi. pose proof (slot_at_lt _ _ _ Hi) as Hilt.
    destruct (write_current_view _ _ _ _ _ _ _ _ W Hn K) as (w1 & Hrun1 & W1 & M1 & K1 & D1 & _).
    set (f1 := settled f pend) in *. set (m1 := set_slot i (Some f1) m) in *.
    pose proof (wo_view _ _ _ _ _ _ W1) as V1.
    assert (slot_at m1 i = Some f1) as Hi1 by (by apply slot_at_set).
    assert (used m1 = used m) as Hu1 by (by apply (used_same_chain m i f)).
    unfold allocate_next_block. rewrite (sbind_ok _ _ _ _ _ Hrun1).
    rewrite (sbind_ok the_writer _ (w1, k) (w1, k) k eq_refl).
    destruct (alloc_data t b m1 [] (wo_alloc _ _ _ _ _ _ W1)) as [(n & b' & Hnf & Hdn & Hnu & _ & Hal & Hb')|[Hnf Hno]].
    2: { right. exists w1. split; [|split; [|done]].
      - erewrite sbind_err; [reflexivity|]. apply on_world_run. unfold asks, cell.
        rewrite (wk_cell _ _ _ _ _ _ K1), (wo_cell _ _ _ _ _ _ W1). cbn [rbind]. by rewrite Hnf.
      - apply (full_iff t _ m1 V1) in Hno. pose proof (files_count m i (Some f1) f Hi) as Hfc.
        change (chain_of (Some f1)) with (mf_chain f) in Hfc. fold m1 in Hfc. change (border_off t m1) with (border_off t m) in Hno. lia. }
    left.
    erewrite sbind_ok; [|apply on_world_run; unfold asks, cell; rewrite (wk_cell _ _ _ _ _ _ K1), (wo_cell _ _ _ _ _ _ W1);
      cbn [rbind]; rewrite Hnf; reflexivity].
    destruct (fresh_block (cw_block k)) as (fresh & Hfr & Hlf & Hf0 & Hf1).
    { rewrite (wk_size _ _ _ _ _ _ K). lia. }
    rewrite Hfr. rewrite (sbind_ok (lift (Ok fresh)) _ (w1, k) (w1, k) fresh eq_refl).
    rewrite (sbind_ok (on_writer (set_block fresh)) _ (w1, k) (w1, set_block fresh k) tt eq_refl).
    (* the new block *)
    pose proof (view_plain_valid _ _ _ V1 _ (data_plain _ _ Hdn)) as Hvn.
    destruct (sector_valid t (w_dev w1) _ (v_shape _ _ _ V1) Hvn) as (x & _ & Hsx & _).
    erewrite sbind_ok; [|apply on_world_run; apply (on_dev_mut w1 _ _ x); [apply V1|done]].
    pose proof (view_write_unused t (w_dev w1) m1 n fresh V1 (data_plain _ _ Hdn) Hnu Hlf) as V2.
    set (w2 := set_dev (upd (w_dev w1) n fresh) w1).
    assert (wok t w2 m1 c b []) as W2 by (eapply wok_dev; [exact W1|done|done|apply W1]).
    assert (moved t i w1 m1 w2 m1) as M2.
    { eapply moved_upd; [exact V1|apply M1|reflexivity|done|apply M1|apply frame_refl]. }
    assert (disk_bam t (w_dev w2) = disk_bam t (w_dev w1)) as D2.
    { apply disk_bam_plain; [apply V1|by apply data_plain]. }
    erewrite sbind_ok; [|apply on_world_run; rewrite (wk_cell _ _ _ _ _ _ K); apply (update_cell_run w2 c b _ b'); [apply W2|done]].
    set (w3 := set_cell c b' w2).
    assert (wok t w3 m1 c b' [n]) as W3 by (by eapply wok_cell).
    (* the size of the entry *)
    destruct (increment_view w3 m1 c b' [n] i (set_block fresh k) f1 W3) as (w4 & e' & Hrun4 & Hpe & W4 & M4 & D4 & S4).
    { apply M1. }
    { done. }
    { apply (wk_pos _ _ _ _ _ _ K1). }
    { change (mf_size f1) with (mf_size f). rewrite (Hs i f Hi).
      pose proof (chain_bound t _ m1 V1 i f1 ltac:(by apply slot_at_Some)) as Hcb.
      change (mf_chain f1) with (mf_chain f) in Hcb. pose proof capacity_small. lia. }
    rewrite (sbind_ok _ _ _ _ _ Hrun4). change (mf_size f1) with (mf_size f) in *.
    set (f4 := resize (mf_size f + 1) f1) in *. set (m4 := set_slot i (Some f4) m1) in *.
    pose proof (wo_view _ _ _ _ _ _ W4) as V4.
    assert (slot_at m4 i = Some f4) as Hi4 by (apply slot_at_set; unfold m1; cbn [set_slot md_slots]; by rewrite insert_length).
    assert (used m4 = used m1) as Hu4 by (by apply (used_same_chain m1 i f1)).
    (* the link *)
    pose proof (wk_last _ _ _ _ _ _ K1) as Hla. change (mf_chain f1) with (mf_chain f) in Hla.
    pose proof (chain_loc_plain _ _ _ _ _ V4 Hi4 (last_in _ _ Hla)) as Hpl.
    pose proof (view_plain_valid _ _ _ V4 _ Hpl) as Hvl.
    destruct (sector_valid t (w_dev w4) _ (v_shape _ _ _ V4) Hvl) as (y & _ & Hsy & _).
    assert (sector (w_dev w4) n = Ok fresh) as Hsn.
    { rewrite S4; [|intros Hin; apply Hnu, used_in; by left]. by eapply (sector_upd_same t); [apply V1|]. }
    pose proof (view_write_link t (w_dev w4) m4 i f4 (cw_loc k) n y fresh []) as V5.
    assert (view t (upd (w_dev w4) (cw_loc k) (write_loc n y))
        (set_slot i (Some (set_chain (mf_chain f4 ++ [n]) (mf_data f4 ++ []) f4)) m4)) as V5'.
    { apply V5; try done; [by apply slot_at_Some|apply (wk_plain _ _ _ _ _ _ K)| |simpl; lia]. by rewrite Hu4. }
    clear V5. unfold m4, m1 in V5'. rewrite !set_slot_twice in V5'.
    rewrite app_nil_r in V5'. change (set_chain (mf_chain f4 ++ [n]) (mf_data f4) f4) with (extended f n pend) in V5'.
    set (m5 := set_slot i (Some (extended f n pend)) m) in *.
    set (w5 := set_dev (upd (w_dev w4) (cw_loc k) (write_loc n y)) w4).
    assert (names_ok m5) as Hn5 by (by eapply names_ok_same).
    exists w5, (set_loc n (set_entry e' (set_block fresh k))), b', n.
    split; [|split; [done|split; [by rewrite <- Hu1|split; [|split; [|split; [|split; [done|]]]]]]].
    - unfold sbind at 1. erewrite on_world_run; [|apply (on_dev_mut w4 _ _ y); [apply V4|done]].
      unfold sbind, on_writer, modify, ret. done.
    - eapply wok_dev; [exact W4|done|done|]. eapply bam_ok_used; [apply W4|done|].
      intros l. unfold m5. rewrite (used_set_in m i (Some f)) by (done || apply (v_nodup _ _ _ (wo_view _ _ _ _ _ _ W))).
      rewrite Hu4, Hu1. cbn [chain_of extended mf_chain]. rewrite elem_of_app, elem_of_list_singleton, elem_of_nil.
      assert (l ∈ mf_chain f -> l ∈ used m).
      { intros Hl. apply used_in. right. exists i, f. split; [by apply slot_at_Some|done]. }
      destruct (decide (l ∈ mf_chain f)); tauto.
    - eapply moved_trans; [exact M1|]. eapply moved_trans; [exact M2|].
      eapply moved_trans; [|eapply moved_trans; [exact M4|]].
      + apply moved_same; [apply W2|apply M1|done].
      + eapply moved_upd; [exact V4|apply M4|reflexivity|done|done|].
        unfold m5. rewrite <- (set_slot_twice i _ (Some f1) m). rewrite <- (set_slot_twice i _ (Some f4) _).
        apply frame_set_slot.
    - destruct K as [_ Hc _ _ _ _ _ _ _ _ Hk]. split; try done.
      + by apply slot_at_set.
      + cbn [extended mf_chain]. by rewrite last_snoc.
      + cbn [extended mf_chain mf_data set_loc set_entry set_block cw_block]. rewrite app_nil_r, Hf1, Hfull, app_length.
        simpl. lia.
      + cbn [extended mf_chain mf_data set_loc set_entry set_block cw_block]. rewrite app_nil_r, Hfull, app_length.
        cbn [length]. rewrite drop_ge by (rewrite Hfull; lia).
        replace (254 * length (mf_chain f) - 254 * (length (mf_chain f) + 1 - 1)) with 0 by lia. done.
      + cbn [extended mf_chain mf_data]. rewrite app_nil_r, Hfull, app_length. lia.
    - cbn [w5 set_dev w_dev]. rewrite disk_bam_plain by (done || apply V4). rewrite D4.
      change (w_dev w3) with (w_dev w2). by rewrite D2, D1.
  Qed.

  Lemma slice_app {A} o a n (l : list A) : slice o (a + n) l = slice o a l ++ slice (o + a) n l.
  Proof. unfold slice. by rewrite <- drop_drop, take_take_drop. Qed.

  (** Putting bytes into the block of the writer. *)
  Lemma append_block m c i k f pend (x : list nat) q :
    writer_ok m c i k f pend -> cw_dirty k = true ->
    254 * (length (mf_chain f) - 1) <= length (mf_data f) -> 1 <= length (mf_chain f) ->
    q = length (mf_data f ++ pend) - 254 * (length (mf_chain f) - 1) -> q + length x <= 254 ->
    exists block, link_to_bytes (Tail (q + 2 + length x)) (splice (q + 2) x (cw_block k)) = Ok block
      /\ writer_ok m c i (set_block block k) f (pend ++ x).
  Proof.
    intros [Hi Hc Hp Hla Hsz H0 H1 H2 Hlen Hdi Hk] Hdk Hl1 Hl2 Hq Hx.
    assert (length (splice (q + 2) x (cw_block k)) = 256) as Hls by (rewrite length_splice; lia).
    unfold link_to_bytes. rewrite Hls. change (256 <? 2) with false. cbv iota.
    destruct (Nat.leb_spec 2 (q + 2 + length x)); [|lia]. destruct (Nat.leb_spec (q + 2 + length x) 256); [|lia].
    cbn [andb]. eexists. split; [reflexivity|].
    assert (length ((mf_data f ++ pend) ++ x) - 254 * (length (mf_chain f) - 1) = q + length x) as Hq'.
    { rewrite app_length. rewrite app_length in Hq |- *. lia. }
    split; cbn [set_block cw_bam cw_entry cw_loc cw_block cw_dirty]; try done.
    - rewrite length_splice; [done|]. rewrite Hls. simpl. lia.
    - rewrite app_assoc, Hq'. rewrite lookup_total_splice by (rewrite Hls; simpl; lia).
      case_decide; [|simpl in *; lia]. simpl. lia.
    - rewrite app_assoc, Hq'. rewrite slice_splice_other by (rewrite ?Hls; simpl; lia).
      rewrite slice_app. rewrite slice_splice_other by lia.
      replace (2 + q) with (q + 2) by lia. rewrite slice_splice_same by lia.
      rewrite Hq, H2. rewrite (drop_app_le (mf_data f ++ pend)); [done|]. rewrite app_length. lia.
    - rewrite app_assoc, app_length. lia.
    - by rewrite Hdk.
  Qed.

  (** The result of writing: the file and the writer afterwards. *)
  Record wrote (m : mdisk) (f f' : mfile) (pend pend' F : list nat) (r : res unit) : Prop := {
    wr_attr : mf_attr f' = mf_attr f;
    wr_name : mf_name f' = mf_name f;
    wr_extra : mf_extra f' = mf_extra f;
    wr_special : mf_special f' = mf_special f;
    wr_size : mf_size f' + length (mf_chain f) = mf_size f + length (mf_chain f');
    wr_chain : exists ls, mf_chain f' = mf_chain f ++ ls;
    wr_result :
      (length F <= 254 * (length (mf_chain f) + (data_capacity t - (length (border_off t m) + length (files_used (md_slots m)))))
       /\ r = Ok tt /\ mf_data f' ++ pend' = F
       /\ (length (mf_chain f') = length (mf_chain f) \/ 254 * (length (mf_chain f') - 1) < length F)
       /\ mf_data f' = if length (mf_chain f') =? length (mf_chain f) then mf_data f
                       else take (254 * (length (mf_chain f') - 1)) F)
      \/ (254 * (length (mf_chain f) + (data_capacity t - (length (border_off t m) + length (files_used (md_slots m))))) < length F
         /\ r = Err EDiskFull
         /\ length (mf_chain f') = length (mf_chain f) + (data_capacity t - (length (border_off t m) + length (files_used (md_slots m))))
         /\ mf_data f' = take (254 * length (mf_chain f')) F /\ pend' = [])
  }.

  Lemma write_loop_view fuel buf w m c b i k f pend :
    length buf <= fuel ->
    wok t w m c b [] -> names_ok m -> sizes_ok m -> writer_ok m c i k f pend -> cw_dirty k = true ->
    exists w' k' b' f' pend' r, write_loop fuel buf (w, k) = ((w', k'), r)
      /\ wok t w' (set_slot i (Some f') m) c b' [] /\ moved t i w m w' (set_slot i (Some f') m)
      /\ sizes_ok (set_slot i (Some f') m)
      /\ writer_ok (set_slot i (Some f') m) c i k' f' pend' /\ cw_dirty k' = true
      /\ disk_bam t (w_dev w') = disk_bam t (w_dev w)
      /\ (mf_chain f' = mf_chain f -> b' = b)
      /\ wrote m f f' pend pend' (mf_data f ++ pend ++ buf) r.
  Proof.
    revert buf w m b k f pend. induction fuel as [fuel IH] using lt_wf_ind.
    intros buf w m b k f pend Hfuel W Hn Hs K Hdk.
    pose proof (wk_slot _ _ _ _ _ _ K) as Hi. pose proof (slot_at_lt _ _ _ Hi) as Hilt.
    pose proof (wo_view _ _ _ _ _ _ W) as V.
    destruct (view_slot_holds _ _ _ _ V Hi (wk_plain _ _ _ _ _ _ K)) as [[Hl1 Hl2] Hl3].
    assert (set_slot i (Some f) m = m) as Hsame.
    { unfold set_slot. rewrite list_insert_id by (by apply slot_at_Some). by destruct m. }
    destruct buf as [|y ys].
    { exists w, k, b, f, pend, (Ok tt). rewrite Hsame. split; [by destruct fuel|]. split; [done|].
      split; [by apply moved_refl|]. split; [done|]. split; [done|]. split; [done|]. split; [done|]. split; [done|].
      split; try done; [exists []; by rewrite app_nil_r|]. left. rewrite app_nil_r.
      pose proof (wk_len _ _ _ _ _ _ K). split; [lia|]. split; [done|]. split; [done|]. split; [by left|].
      by rewrite Nat.eqb_refl. }
    destruct fuel as [|fuel]; [simpl in Hfuel; lia|]. cbn [write_loop]. set (buf := y :: ys) in *.
    assert (1 <= length buf) as Hbuf by (simpl; lia).
    rewrite (sbind_ok the_writer _ (w, k) (w, k) k eq_refl).
    set (q := length (mf_data f ++ pend) - 254 * (length (mf_chain f) - 1)).
    pose proof (wk_len _ _ _ _ _ _ K) as Hlen.
    assert (q <= 254) as Hq by (unfold q; rewrite app_length in *; lia).
    assert (link_new (cw_block k) = Ok (Tail (q + 2))) as Hlk.
    { unfold link_new. rewrite (wk_0 _ _ _ _ _ _ K), (wk_1 _ _ _ _ _ _ K). fold q. simpl. do 2 f_equal. lia. }
    rewrite Hlk. rewrite (sbind_ok (lift (Ok (Tail (q + 2)))) _ (w, k) (w, k) (Tail (q + 2)) eq_refl).
    destruct (Nat.eqb_spec (q + 2) BLOCK_SIZE) as [Heq|Hne].
    - (* a new block *)
      unfold BLOCK_SIZE in Heq.
      assert (length (mf_data f ++ pend) = 254 * length (mf_chain f)) as Hfull by (unfold q in *; lia).
      destruct (allocate_view w m c b i k f pend W Hn Hs K Hfull)
        as [(w1 & k1 & b1 & n & Hrun & Hdn & Hnu & W1 & M1 & K1 & Hd1 & D1)|(w1 & Hrun & Hcap & W1 & M1 & K1 & D1)].
      + set (f1 := extended f n pend) in *. set (m1 := set_slot i (Some f1) m) in *.
        rewrite (sbind_ok _ _ (w, k) (w1, k1) (2, 254)).
        2: { rewrite (sbind_ok _ _ _ _ _ Hrun). reflexivity. }
        set (nb := Nat.min 254 (length buf)).
        rewrite (sbind_ok the_writer _ (w1, k1) (w1, k1) k1 eq_refl).
        assert (length (take nb buf) = nb) as Htk by (rewrite take_length; lia).
        pose proof (wo_view _ _ _ _ _ _ W1) as V1. pose proof (wk_slot _ _ _ _ _ _ K1) as Hi1.
        destruct (view_slot_holds _ _ _ _ V1 Hi1 (wk_plain _ _ _ _ _ _ K1)) as [[Hl1' Hl2'] Hl3'].
        destruct (append_block m1 c i k1 f1 [] (take nb buf) 0 K1) as (block & Hblk & K2).
        { congruence. } { done. } { done. }
        { unfold f1, extended. cbn [mf_data mf_chain]. rewrite app_nil_r, Hfull, app_length. simpl. lia. }
        { lia. }
        rewrite Htk in Hblk. change (0 + 2 + nb) with (2 + nb) in Hblk. change (0 + 2) with 2 in Hblk.
        rewrite Hblk. rewrite (sbind_ok (lift (Ok block)) _ (w1, k1) (w1, k1) block eq_refl).
        rewrite (sbind_ok (on_writer (set_block block)) _ (w1, k1) (w1, set_block block k1) tt eq_refl).
        assert (sizes_ok m1) as Hs1.
        { apply sizes_ok_set; [done| |done]. cbn [f1 extended mf_size mf_chain]. rewrite (Hs i f Hi), app_length. done. }
        destruct (IH fuel ltac:(lia) (drop nb buf) w1 m1 b1 (set_block block k1) f1 ([] ++ take nb buf))
          as (w' & k' & b' & f' & pend' & r & Hrun' & W' & M' & Hs' & K' & Hd' & D' & Hb' & Hw').
        { rewrite drop_length. unfold nb. lia. }
        { done. } { apply M1. } { done. } { done. } { cbn [set_block cw_dirty]. congruence. }
        unfold m1 in W', M', Hs', K'. rewrite set_slot_twice in W', M', Hs', K'.
        exists w', k', b', f', pend', r. split; [done|]. split; [done|]. split; [by eapply moved_trans|].
        split; [done|]. split; [done|]. split; [done|]. split; [congruence|].
        destruct Hw' as [Ha1 Ha2 Ha3 Ha3' Ha4 [ls Ha5] Ha6].
        assert (length (mf_chain f1) = length (mf_chain f) + 1) as Hlc by (cbn [f1 extended mf_chain]; rewrite app_length; done).
        pose proof (files_count m i (Some f1) f Hi) as Hfc. cbn [chain_of] in Hfc. fold m1 in Hfc.
        pose proof (files_fit t _ m1 V1) as Hff. rewrite Hlc in Hfc. change (border_off t m1) with (border_off t m) in Hff, Ha6.
        assert (mf_data f1 ++ ([] ++ take nb buf) ++ drop nb buf = mf_data f ++ pend ++ buf) as HF.
        { cbn [app]. rewrite take_drop. cbn [f1 extended mf_data]. by rewrite <- app_assoc. }
        rewrite HF in Ha6. rewrite Hlc in Ha6, Ha4. change (mf_size f1) with (mf_size f + 1) in Ha4.
        assert (length (mf_data f ++ pend ++ buf) = 254 * length (mf_chain f) + length buf) as HlF.
        { rewrite app_assoc, app_length, Hfull. lia. }
        assert (mf_data f ++ pend = take (254 * length (mf_chain f)) (mf_data f ++ pend ++ buf)) as Htake.
        { rewrite app_assoc, <- Hfull. by rewrite take_app. }
        assert (length (mf_chain f') = length (mf_chain f) + 1 + length ls) as Hlc'.
        { rewrite Ha5, app_length, Hlc. done. }
        split.
        { intros E. rewrite E in Hlc'. lia. }
        split; try done.
        * lia.
        * exists ([n] ++ ls). rewrite Ha5. cbn [f1 extended mf_chain]. by rewrite <- app_assoc.
        * destruct Ha6 as [(H1 & H2 & H3 & H4 & H5)|(H1 & H2 & H3 & H4 & H5)].
          -- left. split; [lia|]. split; [done|]. split; [done|]. split; [right; lia|].
             destruct (Nat.eqb_spec (length (mf_chain f')) (length (mf_chain f))); [lia|].
             destruct (Nat.eqb_spec (length (mf_chain f')) (length (mf_chain f) + 1)) as [E|_]; [|done].
             rewrite H5, E. replace (length (mf_chain f) + 1 - 1) with (length (mf_chain f)) by lia. done.
          -- right. split; [lia|]. split; [done|]. split; [lia|]. done.
      + rewrite (sbind_err _ _ (w, k) (w1, k) EDiskFull).
        2: { by rewrite (sbind_err _ _ _ _ _ Hrun). }
        exists w1, k, b, (settled f pend), [], (Err EDiskFull).
        split; [done|]. split; [done|]. split; [done|]. split; [apply sizes_ok_set; [done|by apply Hs in Hi|done]|].
        split; [done|]. split; [done|]. split; [done|]. split; [done|].
        split; try done.
        * exists []. by rewrite app_nil_r.
        * right. cbn [settled set_chain mf_chain mf_data]. rewrite Hcap.
          assert (length (mf_data f ++ pend ++ buf) = 254 * length (mf_chain f) + length buf) as HlF.
          { rewrite app_assoc, app_length, Hfull. lia. }
          split; [lia|]. split; [done|]. split; [lia|]. split; [|done].
          rewrite app_assoc, <- Hfull. by rewrite take_app.
    - (* room in the block *)
      unfold BLOCK_SIZE in Hne.
      rewrite (sbind_ok _ _ (w, k) (w, k) (q + 2, BLOCK_SIZE - (q + 2)) eq_refl).
      rewrite (sbind_ok the_writer _ (w, k) (w, k) k eq_refl).
      set (nb := Nat.min (BLOCK_SIZE - (q + 2)) (length buf)).
      assert (1 <= nb <= 254 - q) as Hnb by (unfold nb, BLOCK_SIZE; lia).
      assert (length (take nb buf) = nb) as Htk by (rewrite take_length; lia).
      destruct (append_block m c i k f pend (take nb buf) q K) as (block & Hblk & K2); try done.
      { lia. }
      rewrite Htk in Hblk. rewrite Hblk. rewrite (sbind_ok (lift (Ok block)) _ (w, k) (w, k) block eq_refl).
      rewrite (sbind_ok (on_writer (set_block block)) _ (w, k) (w, set_block block k) tt eq_refl).
      destruct (IH fuel ltac:(lia) (drop nb buf) w m b (set_block block k) f (pend ++ take nb buf))
        as (w' & k' & b' & f' & pend' & r & Hrun' & W' & M' & Hs' & K' & Hd' & D' & Hb' & Hw').
      { rewrite drop_length. unfold nb in *. lia. }
      { done. } { done. } { done. } { done. } { done. }
      rewrite <- app_assoc, take_drop in Hw'.
      exists w', k', b', f', pend', r. split; [done|]. split; [done|]. split; [done|].
      split; [done|]. split; [done|]. split; [done|]. split; [done|]. split; [done|].
      destruct Hw'. split; done.
  Qed.
End op.
