(** Consequences of the refinement for every history. *)
From Verif Require Import Base ListFacts Layout Block Bam Format Petscii GeosTypes DirEntry Header World Chain Directory Writer Rel
  GeosFile File Validate Spec SpecCodec GeomFacts FlatProofs DevFacts SpecChain ChainProofs SpecBam AllocProofs BamState Evolve Holds
  View Dirs Ops Count OpWrite OpFile OpDelete SpecialFiles OpCreate FormatProofs SpecValidate ValidateProofs SpecKinds Session SpecDisk Refine Tables Opening OpenSound.
Ltac Zify.zify_post_hook ::= Z.div_mod_to_equations.

(** ** The first call *)

Lemma open_world_cells t d : cell_there (open_world t d) /\ w_type (open_world t d) = t /\ w_dev (open_world t d) = d.
Proof.
  unfold open_world, initialize. split; [|split].
  - intros c. unfold set_bam, set_fmt, set_header. cbn [w_bam w_cells native w_type w_dev].
    destruct (match match res_ok _ with Some _ => _ | None => _ end with Some _ => _ | None => _ end);
      cbn [w_bam w_cells w_type w_dev w_header w_fmt app length]; [|done]. intros [= <-]. lia.
  - unfold set_bam, set_fmt, set_header. cbn [w_bam w_cells native w_type w_dev].
    destruct (match match res_ok _ with Some _ => _ | None => _ end with Some _ => _ | None => _ end); done.
  - unfold set_bam, set_fmt, set_header. cbn [w_bam w_cells native w_type w_dev].
    destruct (match match res_ok _ with Some _ => _ | None => _ end with Some _ => _ | None => _ end); done.
Qed.

Lemma start_format t d name id :
  dev_shape t d -> d_writable d = true -> length name <= 16 ->
  exists s c b, call (start t d) (OFormat name id) = (s, ADone)
    /\ related t (formatted name 0 0) s (empty_disk t (fresh_header t name id)) c b
    /\ disk_bam t (w_dev (s_world s)) = Ok b.
Proof.
  intros Hd Hw Hn. destruct (open_world_cells t d) as (Hc & Ht & Hdev).
  destruct (format_view t (open_world t d) name id) as (w' & c & b & Hf & W & Hdb & _); [done|by rewrite Hdev..|done|done|].
  exists (mk_session w' [] []), c, b. cbn [call start s_world]. rewrite Hf. split; [done|]. split; [|done].
  split; cbn [s_world s_handles s_writers formatted as_slots as_dirs as_label as_handles as_writers as_synced]; try done.
  - apply empty_names.
  - apply empty_sizes.
  - apply List.Forall2_nil.
  - apply List.Forall2_nil.
Qed.

Lemma reached_related t a s : reached t a s -> exists m c b, related t a s m c b.
Proof.
  intros [d name id os rs Hd Hw Hn Ha Hs|d dirs chains a0 os rs Hi Ha Hs].
  - destruct (start_format t d name id Hd Hw Hn) as (s0 & c & b & Hf & R & _).
    destruct (run_refines t os _ _ _ _ _ _ _ R Ha) as (s' & m' & c' & b' & Hc & R').
    cbn [calls] in Hs. rewrite Hf, Hc in Hs. cbn [fst] in Hs. subst s'. by exists m', c', b'.
  - destruct (sound_related t d dirs chains a0 Hi) as (m & b & R & _).
    destruct (run_refines t os _ _ _ _ _ _ _ R Ha) as (s' & m' & c' & b' & Hc & R').
    rewrite Hc in Hs. cbn [fst] in Hs. subst s'. by exists m', c', b'.
Qed.

Lemma reached_run t a s os a' rs :
  reached t a s -> arun t a os = Some (a', rs) -> exists s', calls s os = (s', rs) /\ reached t a' s'.
Proof.
  intros Hr Ha'. destruct (reached_related _ _ _ Hr) as (m & c & b & R).
  destruct (run_refines t os _ _ _ _ _ _ _ R Ha') as (s' & m' & c' & b' & Hc & _).
  exists s'. split; [done|]. destruct Hr as [d name id os0 rs0 Hd Hw Hn Ha Hs|d dirs chains a0 os0 rs0 Hi Ha Hs].
  - eapply (reached_by t a' s' d name id (os0 ++ os)); [done|done|done| |].
    + rewrite arun_app, Ha, Ha'. done.
    + change (OFormat name id :: os0 ++ os) with ((OFormat name id :: os0) ++ os). rewrite calls_app.
      destruct (calls (start t d) (OFormat name id :: os0)) as [s1 r1]. cbn [fst] in Hs. subst s1. by rewrite Hc.
  - eapply (reached_open t a' s' d dirs chains a0 (os0 ++ os)); [done| |].
    + rewrite arun_app, Ha, Ha'. done.
    + rewrite calls_app. destruct (calls (start t d) os0) as [s1 r1]. cbn [fst] in Hs. subst s1. by rewrite Hc.
Qed.

Lemma reached_step t a s o a' r :
  reached t a s -> astep t a o = Some (a', r) -> exists s', call s o = (s', r) /\ reached t a' s'.
Proof.
  intros Hr Ha. destruct (reached_run t a s [o] a' [r] Hr) as (s' & Hc & Hr').
  - cbn [arun]. by rewrite Ha.
  - exists s'. split; [|done]. cbn [calls] in Hc. destruct (call s o). by injection Hc as -> ->.
Qed.

(** The whole history, with its answers. *)
Lemma history_answers t d name id os a rs :
  dev_shape t d -> d_writable d = true -> length name <= 16 ->
  arun t (formatted name 0 0) os = Some (a, rs) ->
  snd (calls (start t d) (OFormat name id :: os)) = ADone :: rs.
Proof.
  intros Hd Hw Hn Ha. destruct (start_format t d name id Hd Hw Hn) as (s0 & c & b & Hf & R & _).
  destruct (run_refines t os _ _ _ _ _ _ _ R Ha) as (s' & m' & c' & b' & Hc & R').
  cbn [calls]. rewrite Hf, Hc. done.
Qed.

(** ** Looking at the disk *)

Lemma opens_view t d m w c i f :
  view t d m -> names_ok m -> w_dev w = d -> w_fmt w = Some (m_format t m) -> w_header w = Some (md_header m) -> w_bam w = Some c ->
  slot_at m i = Some f -> exists x, open_file w (mf_name f) = Ok x /\ has_contents d x (mf_kind f) (mf_data f).
Proof.
  intros V Hn Hdev Hfmt Hhd Hc Hf. unfold open_file. rewrite (find_view t d m _ i f V Hn Hdev Hfmt Hhd Hf). cbn [rbind].
  unfold open_file_from_entry, w_get_bam. rewrite Hc. cbn [rbind]. rewrite Hdev.
  assert (md_slots m !! i = Some (Some f)) as Hi by (by apply slot_at_Some).
  destruct (v_files _ _ _ V i f Hi) as (_ & _ & Hco). unfold mf_kind. destruct (mf_special f) as [y|] eqn:Ey.
  - destruct (contents_opens t d m i f c y (v_shape _ _ _ V) Hco Ey) as (x & Hx & Ho & Hk).
    exists x. split; [exact Hx|]. unfold contents in Hco. rewrite Ey in Hco. destruct Hco as (_ & Hr & _).
    destruct x as [c' e'|g|g|g].
    { exfalso. destruct (sp_kind y) as [|td rs|data]; [done|..]; destruct Hk as (_ & K2 & K3 & _); [by specialize (K3 [])|by specialize (K2 1)]. }
    all: cbn [has_contents]; split; [done|]; exists (mf_chain f); by split.
  - exists (FLinear c (entry_at m i f)). cbn [entry_at de_scheme]. unfold mf_scheme. rewrite Ey. split; [done|].
    split; [done|]. cbn [file_record Nat.eqb entry_at de_first]. unfold mf_first. rewrite Ey. by eapply view_file_read.
Qed.

Lemma reads_as_unique d x k1 k2 : reads_as d x k1 -> reads_as d x k2 -> k1 = k2.
Proof.
  destruct k1 as [|td1 rs1|data1], k2 as [|td2 rs2|data2]; try done; cbn [reads_as]; intros (C1 & R1 & S1 & T1) (C2 & R2 & S2 & T2).
  - f_equal; [destruct T1 as [_ T1], T2 as [_ T2]; apply Bool.eq_iff_eq_true; tauto|]. apply list_eq. intros i. specialize (R1 i). rewrite (R2 i) in R1. by destruct (rs1 !! i), (rs2 !! i); inversion R1.
  - specialize (S1 []). by rewrite (S2 []) in S1.
  - specialize (S1 []). by rewrite (S2 []) in S1.
  - f_equal. specialize (R1 0). rewrite (R2 0) in R1. by apply Ok_inj in R1.
Qed.

Lemma has_contents_unique d x k1 k2 data1 data2 :
  has_contents d x k1 data1 -> has_contents d x k2 data2 -> k1 = k2 /\ data1 = data2.
Proof.
  unfold has_contents. destruct x as [c e|f|f|f].
  { intros [-> H1] [-> H2]. split; [done|]. rewrite H1 in H2. by apply Ok_inj in H2. }
  all: intros [K1 H1] [K2 H2]; split; [by eapply reads_as_unique|]; destruct H1 as (l1 & H1 & <-), H2 as (l2 & H2 & <-); rewrite H1 in H2; apply Ok_inj in H2; by subst.
Qed.

Section at_a_point.
  Context (t : disk_type) (a : astate) (s : session) (m : mdisk) (c : nat) (b : bam) (R : related t a s m c b).
  Notation w := (s_world s).

  Lemma dir_entries : w_directory w = Ok (m_entries m).
  Proof.
    unfold w_directory. rewrite (iter_view t (w_dev w) m (rl_view t a s m c b R)) by (done || apply R). done.
  Qed.

  Lemma view_shows i f : slot_at m i = Some f -> shows w (abs_file f).
  Proof.
    intros Hf. split.
    - pose proof (rl_wok _ _ _ _ _ _ R) as W.
      by apply (opens_view t (w_dev w) m w c i f (rl_view t a s m c b R) (rl_names _ _ _ _ _ _ R) eq_refl
        (wo_fmt _ _ _ _ _ _ W) (wo_header _ _ _ _ _ _ W) (wo_bam _ _ _ _ _ _ W)).
    - exists (m_entries m). split; [apply dir_entries|]. apply in_map_iff.
      exists (entry_at m i f). split.
      + unfold entry_line. cbn. by rewrite (rl_sizes _ _ _ _ _ _ R i f Hf).
      + apply (in_entries t (w_dev w)); [apply (rl_view t a s m c b R)|]. by exists i, f.
  Qed.

  Lemma shows_slot g : shows w g -> exists i, as_slots a !! i = Some (Some g).
  Proof.
    intros [(x & Hx & Hrec) (es & Hes & Hin)]. rewrite dir_entries in Hes. apply Ok_inj in Hes. subst es.
    apply in_map_iff in Hin as (e & He & Hin). apply (in_entries t (w_dev w) m e (rl_view t a s m c b R)) in Hin as (i & f & Hf & ->).
    unfold entry_line in He. cbn in He. injection He as E1 E2 E3.
    rewrite <- E1 in Hx.
    pose proof (rl_wok _ _ _ _ _ _ R) as W.
    destruct (opens_view t (w_dev w) m w c i f (rl_view t a s m c b R) (rl_names _ _ _ _ _ _ R) eq_refl
        (wo_fmt _ _ _ _ _ _ W) (wo_header _ _ _ _ _ _ W) (wo_bam _ _ _ _ _ _ W) Hf) as (y & Hy & Hok).
    rewrite Hx in Hy. apply Ok_inj in Hy. subst y. destruct (has_contents_unique _ _ _ _ _ _ Hrec Hok) as [Hrec1 Hrec2].
    exists i. rewrite (rl_slots _ _ _ _ _ _ R), (abs_lookup _ _ _ Hf). destruct g as [g1 g2 g3 g4 g5]. cbn in *.
    unfold abs_file. rewrite <- (rl_sizes _ _ _ _ _ _ R i f Hf). by subst.
  Qed.
End at_a_point.

Lemma reached_shows t a s f :
  reached t a s -> shows (s_world s) f <-> exists i, as_slots a !! i = Some (Some f).
Proof.
  intros (m & c & b & R)%reached_related. split.
  - by apply (shows_slot t a s m c b R).
  - intros [i Hi]. rewrite (rl_slots _ _ _ _ _ _ R) in Hi. apply abs_lookup_inv in Hi as (g & Hg & ->).
    by apply (view_shows t a s m c b R i).
Qed.

Lemma reached_border t a s : reached t a s -> as_border a = border_in t (s_world s).
Proof.
  intros (m & c & b & R)%reached_related. rewrite (rl_border _ _ _ _ _ _ R). unfold border_in, abs_border, border.
  rewrite (wo_header _ _ _ _ _ _ (rl_wok _ _ _ _ _ _ R)). by destruct (h_geos (md_header m)).
Qed.

Lemma reached_sum t a s :
  reached t a s -> exists es n, w_directory (s_world s) = Ok es /\ w_blocks_free (s_world s) = Ok n
    /\ n + border_block (border_in t (s_world s)) + sum (map de_size es) = disk_blocks t.
Proof.
  intros Hr. rewrite <- (reached_border t a s Hr). destruct (reached_related _ _ _ Hr) as (m & c & b & R). exists (m_entries m), (blocks_left t a).
  split; [by apply (dir_entries t a s m c b R)|]. split.
  - destruct (step_free t a s m c b R a _ eq_refl) as (s' & m' & c' & b' & Hc & _). cbn [call] in Hc.
    destruct (w_blocks_free (s_world s)); cbn in Hc; congruence.
  - pose proof (listing_entries t _ a m (rl_view t a s m c b R) (rl_slots _ _ _ _ _ _ R) (rl_border _ _ _ _ _ _ R) (rl_sizes _ _ _ _ _ _ R)) as Hl.
    assert (sum (map de_size (m_entries m)) = blocks_used a) as ->.
    { transitivity (sum (map snd (map entry_line (m_entries m)))); [by rewrite map_map|]. rewrite Hl.
      unfold listing, blocks_used. rewrite map_app, sum_app. rewrite Nat.add_comm, <- sum_app, <- map_app.
      assert (forall os, sum (map snd (lines os)) = sum (map blocks_of os)) as Hlin.
      { induction os as [|[f|] os IH]; [done| |done]. unfold sum in *. cbn [map concat app fold_right lines] in *. unfold lines in IH. rewrite IH. done. }
      unfold lines at 1 2. rewrite <- concat_app, <- map_app, take_drop. apply Hlin. }
    unfold blocks_left, blocks_taken. pose proof (files_fit t _ m (rl_view t a s m c b R)) as Hfit.
    rewrite <- (used_count a m (rl_slots _ _ _ _ _ _ R)), <- border_block_eq, <- (rl_border _ _ _ _ _ _ R) in Hfit. change (data_capacity t) with (disk_blocks t) in Hfit. lia.
Qed.

Lemma reached_names t a s es : reached t a s -> w_directory (s_world s) = Ok es -> NoDup (map de_name es).
Proof.
  intros (m & c & b & R)%reached_related Hes. rewrite (dir_entries t a s m c b R) in Hes. apply Ok_inj in Hes. subst es.
  pose proof (rl_names _ _ _ _ _ _ R) as Hn. unfold m_entries.
  assert (forall is, NoDup is -> NoDup (map de_name (concat (map (slot_entry m) is)))) as H; [|apply H; rewrite (slot_order_perm t _ m (rl_view t a s m c b R)); apply NoDup_seq].
  induction is as [|i is IH]; [intros; apply NoDup_nil_2|]. intros [Hi His]%NoDup_cons. cbn [map concat].
  rewrite map_app. apply NoDup_app. split; [|split; [|by apply IH]].
  - unfold slot_entry. destruct (slot_at m i); cbn; [apply NoDup_singleton|apply NoDup_nil_2].
  - intros n H1 H2. unfold slot_entry in H1 at 1. destruct (slot_at m i) as [f|] eqn:Ef; [|by apply not_elem_of_nil in H1].
    cbn in H1. apply elem_of_list_singleton in H1. subst n.
    rewrite elem_of_list_In, in_map_iff in H2. destruct H2 as (e & He & H2).
    rewrite in_concat in H2. destruct H2 as (l & Hl & He'). apply in_map_iff in Hl as (j & <- & Hj).
    unfold slot_entry in He'. destruct (slot_at m j) as [g|] eqn:Eg; [|done]. destruct He' as [<-|[]]. cbn in He.
    apply Hi. rewrite elem_of_list_In. by rewrite <- (Hn _ _ _ _ Eg Ef He).
Qed.

Lemma reached_clean t a s : reached t a s -> validate (s_world s) = Ok [].
Proof. intros (m & c & b & R)%reached_related. eapply validate_view, R. Qed.

(** ** Opening an image in the middle of an operation *)

Lemma view_shows_open t d m i f :
  view t d m -> names_ok m -> slot_at m i = Some f -> mf_size f = length (mf_chain f) ->
  shows (open_world t d) (abs_file f).
Proof.
  intros V Hn Hf Hsz. destruct (open_cases t d (v_shape _ _ _ V)) as (Ht & Hdev & [(Hno & _)|(h & b & Hh & _ & Hc & Hop)]).
  { exfalso. by apply (Hno (md_header m)), V. }
  rewrite (v_header _ _ _ V) in Hh. apply Ok_inj in Hh. subst h.
  pose proof (op_fmt _ _ _ _ _ Hop) as Hfmt. assert (bool_decide (is_Some (h_geos (md_header m))) = is_geos m) as Hgeo by (unfold is_geos; by destruct (h_geos (md_header m))).
  rewrite Hgeo in Hfmt. fold (m_format t m) in Hfmt.
  pose proof (op_header _ _ _ _ _ Hop) as Hhd. split.
  - rewrite Hdev. by eapply opens_view.
  - exists (m_entries m). split.
    + unfold w_directory. by rewrite (iter_view t d m V _ Hdev Hfmt Hhd).
    + apply in_map_iff. exists (entry_at m i f). split; [unfold entry_line; cbn; by rewrite Hsz|].
      apply (in_entries t d); [done|]. by exists i, f.
Qed.

Lemma slot_of_abs a m j f :
  as_slots a = abs_slots m -> as_slots a !! j = Some (Some f) -> exists g, slot_at m j = Some g /\ f = abs_file g.
Proof. intros E H. rewrite E in H. by apply abs_lookup_inv. Qed.

Lemma after_replay d ws : after_writes d ws = replay d ws.
Proof.
  revert d. induction ws as [|[l x] ws IH]; intros d; [done|]. unfold after_writes, replay in *. cbn [fold_left fst snd].
  rewrite IH. done.
Qed.

Lemma crash_safe t a s o a' r :
  reached t a s -> astep t a o = Some (a', r) -> is_format o = false ->
  exists s' ws, call s o = (s', r) /\ reached t a' s'
    /\ d_log (w_dev (s_world s')) = d_log (w_dev (s_world s)) ++ ws
    /\ w_dev (s_world s') = after_writes (w_dev (s_world s)) ws
    /\ forall j f, as_slots a !! j = Some (Some f) -> about a o <> Some j ->
         as_slots a' !! j = Some (Some f)
         /\ forall n, shows (open_world t (after_writes (w_dev (s_world s)) (take n ws))) f.
Proof.
  intros Hr Ha Hnf. destruct (reached_step t a s o a' r Hr Ha) as (s' & Hc & Hr').
  destruct (reached_related _ _ _ Hr) as (m & c & b & R).
  destruct (step_refines t a s m c b R o a' r Ha) as (s1 & m' & c' & b' & Hc' & R' & Hk).
  rewrite Hc in Hc'. injection Hc' as <-. destruct (Hk Hnf) as (i & [Hev Hfr Hnm] & Hi).
  destruct (evolves_log _ _ _ Hev) as (ws & Hlog & Hd & Hsafe).
  exists s', ws. split; [done|]. split; [done|]. split; [done|]. split; [by rewrite after_replay|].
  intros j f Hj Hab. destruct (slot_of_abs _ _ _ _ (rl_slots _ _ _ _ _ _ R) Hj) as (g & Hg & ->).
  specialize (Hi j g Hg Hab). split.
  - rewrite (rl_slots _ _ _ _ _ _ R'). apply abs_lookup. destruct Hfr as (_ & _ & _ & Hfr). by rewrite Hfr.
  - intros n. destruct (Hsafe n) as (m1 & V1 & N1 & F1). rewrite after_replay.
    apply (view_shows_open t _ m1 j); [done..| |by apply (rl_sizes _ _ _ _ _ _ R j)].
    destruct F1 as (_ & _ & _ & F1). by rewrite F1.
Qed.

Lemma shows_unique t a s f g : reached t a s -> shows (s_world s) f -> shows (s_world s) g -> a_name f = a_name g -> f = g.
Proof.
  intros Hr Hf Hg E. destruct (reached_related _ _ _ Hr) as (m & c & b & R).
  apply (shows_slot t a s m c b R) in Hf as [i Hi], Hg as [j Hj].
  destruct (slot_of_abs _ _ _ _ (rl_slots _ _ _ _ _ _ R) Hi) as (f1 & Hf1 & ->).
  destruct (slot_of_abs _ _ _ _ (rl_slots _ _ _ _ _ _ R) Hj) as (g1 & Hg1 & ->).
  pose proof (rl_names _ _ _ _ _ _ R i j f1 g1 Hf1 Hg1 E). congruence.
Qed.

(** ** Reopening *)

Lemma reopen_same t a s :
  reached t a s -> as_synced a = true ->
  let w' := open_world t (w_dev (s_world s)) in
  w_directory w' = w_directory (s_world s)
  /\ (forall f, shows w' f <-> shows (s_world s) f)
  /\ current_map w' = current_map (s_world s)
  /\ w_blocks_free w' = w_blocks_free (s_world s)
  /\ w_name w' = w_name (s_world s)
  /\ validate w' = Ok [].
Proof.
  intros Hr Hs w'. destruct (reached_related _ _ _ Hr) as (m & c & b & R).
  pose proof (rl_wok _ _ _ _ _ _ R) as W. pose proof (rl_view t a s m c b R) as V.
  destruct (initialize_view t (mk_world t (w_dev (s_world s)) None None None []) m b) as (c1 & W1 & Hd1 & _ & _ & _);
    [done|done|done|by apply (rl_synced _ _ _ _ _ _ R)|apply W|].
  fold (open_world t (w_dev (s_world s))) in W1, Hd1. fold w' in W1, Hd1. cbn [w_dev] in Hd1.
  assert (w_directory w' = w_directory (s_world s)) as Edir.
  { unfold w_directory. rewrite !(iter_view t (w_dev (s_world s)) m V); try done; try apply W; try apply W1. }
  split; [done|]. split.
  - intros f. split.
    + intros [(x & Hx & Hrec) (es & Hes & Hin)]. rewrite Edir in Hes.
      rewrite (dir_entries t a s m c b R) in Hes. apply Ok_inj in Hes. subst es.
      apply in_map_iff in Hin as (e & He & Hin). apply (in_entries t _ m e V) in Hin as (i & g & Hg & ->).
      unfold entry_line in He. cbn in He. injection He as E1 E2 E3.
      destruct (opens_view t (w_dev (s_world s)) m w' c1 i g V (rl_names _ _ _ _ _ _ R) Hd1
        (wo_fmt _ _ _ _ _ _ W1) (wo_header _ _ _ _ _ _ W1) (wo_bam _ _ _ _ _ _ W1) Hg) as (y & Hy & Hok).
      rewrite <- E1, Hy in Hx. apply Ok_inj in Hx. subst y. rewrite Hd1 in Hrec.
      destruct (has_contents_unique _ _ _ _ _ _ Hrec Hok) as [Hrec1 Hrec2].
      assert (f = abs_file g) as ->; [|by apply (view_shows t a s m c b R i)].
      destruct f as [f1 f2 f3 f4 f5]. cbn in *. unfold abs_file. rewrite <- (rl_sizes _ _ _ _ _ _ R i g Hg). by subst.
    + intros Hf. apply (shows_slot t a s m c b R) in Hf as [i Hi].
      destruct (slot_of_abs _ _ _ _ (rl_slots _ _ _ _ _ _ R) Hi) as (g & Hg & ->).
      apply (view_shows_open t _ m i); [done|apply R|done|by apply (rl_sizes _ _ _ _ _ _ R i)].
  - unfold current_map, w_blocks_free, w_name, w_get_header, w_get_bam, cell.
    rewrite (wo_bam _ _ _ _ _ _ W), (wo_bam _ _ _ _ _ _ W1). cbn [rbind].
    rewrite (wo_cell _ _ _ _ _ _ W), (wo_cell _ _ _ _ _ _ W1).
    rewrite (wo_header _ _ _ _ _ _ W), (wo_header _ _ _ _ _ _ W1). do 3 (split; [done|]).
    by eapply validate_view.
Qed.

(** When the image is up to date. *)
Lemma file_of_held a h i f : file_of a h = Some (i, f) <-> held a h = Some (i, f) /\ a_special f = false.
Proof.
  unfold file_of, held. destruct (as_handles a !! h) as [[j|]|]; [|by split; [|intros [? _]]..]. destruct (as_slots a !! j) as [[g|]|]; [|by split; [|intros [? _]]..].
  destruct (a_special g) eqn:E; split; [done| | |].
  - intros [[= <- <-] ?]. congruence.
  - by intros [= <- <-].
  - by intros [[= <- <-] _].
Qed.
Lemma synced_delete t a h i f a' r : file_of a h = Some (i, f) -> astep t a (ODelete h) = Some (a', r) -> as_synced a' = true.
Proof.
  intros [H Hs]%file_of_held. cbn [astep]. rewrite H, Hs. destruct (_ || _); [done|]. by intros [= <- _].
Qed.
Lemma synced_settle t a s k x o' :
  reached t a s -> as_writers a !! k = Some (Some x) -> aw_dirty x = true ->
  as_synced (settle x (set_writers o' a)) = true.
Proof.
  intros Hr Hk Hd. destruct (reached_related _ _ _ Hr) as (m & c & b & R).
  destruct (writer_of t a s m c b R k x Hk) as (k' & f & _ & _ & _ & _ & Hs).
  unfold settle. rewrite Hd. cbn [set_writers as_slots]. by rewrite Hs.
Qed.

(** ** Reading the state from the answers *)

Section answers.
  Context (t : disk_type) (a : astate) (s : session) (Hr : reached t a s).

  Lemma listed es : w_directory (s_world s) = Ok es -> map entry_line es = listing a.
  Proof.
    intros Hes. destruct (reached_related _ _ _ Hr) as (m & c & b & R). rewrite (dir_entries t a s m c b R) in Hes.
    apply Ok_inj in Hes. subst es. exact (listing_entries t _ a m (rl_view t a s m c b R) (rl_slots _ _ _ _ _ _ R) (rl_border _ _ _ _ _ _ R) (rl_sizes _ _ _ _ _ _ R)).
  Qed.

  Lemma listed_ordinary es : w_directory (s_world s) = Ok es -> map entry_line (ordinary es) = lines (drop (border_room (as_border a)) (as_slots a)).
  Proof.
    intros Hes. destruct (reached_related _ _ _ Hr) as (m & c & b & R). rewrite (dir_entries t a s m c b R) in Hes.
    apply Ok_inj in Hes. subst es. pose proof (rl_view t a s m c b R) as V. pose proof (v_slots _ _ _ V) as Hl. rewrite secs_length in Hl.
    rewrite (rl_border _ _ _ _ _ _ R), (border_room_eq t m), (rl_slots _ _ _ _ _ _ R). unfold m_entries, slot_order, ordinary.
    rewrite map_app, concat_app, List.filter_app.
    assert (forall is, (forall i, In i is -> border_slots m <= i) ->
      List.filter (fun e => negb (de_border e)) (concat (map (slot_entry m) is)) = concat (map (slot_entry m) is)) as H1.
    { induction is as [|i is IH]; intros Hi; [done|]. cbn [map concat]. rewrite List.filter_app, IH by (intros; apply Hi; by right). f_equal.
      unfold slot_entry. destruct (slot_at m i); [|done]. cbn [List.filter entry_at de_border].
      rewrite (proj2 (Nat.ltb_ge i (border_slots m))) by (apply Hi; by left). done. }
    assert (forall is, (forall i, In i is -> i < border_slots m) ->
      List.filter (fun e => negb (de_border e)) (concat (map (slot_entry m) is)) = []) as H2.
    { induction is as [|i is IH]; intros Hi; [done|]. cbn [map concat]. rewrite List.filter_app, IH by (intros; apply Hi; by right). rewrite app_nil_r.
      unfold slot_entry. destruct (slot_at m i); [|done]. cbn [List.filter entry_at de_border].
      rewrite (proj2 (Nat.ltb_lt i (border_slots m))) by (apply Hi; by left). done. }
    rewrite H1 by (intros i Hi%in_seq; lia). rewrite H2 by (intros i Hi%in_seq; lia). rewrite app_nil_r. unfold border_slots in *.
    rewrite lines_entries by (apply R || lia). f_equal. unfold slice. rewrite take_ge; [done|]. rewrite drop_length, abs_length. lia.
  Qed.

  Lemma freed n : w_blocks_free (s_world s) = Ok n -> n = blocks_left t a.
  Proof.
    intros Hn. destruct (reached_related _ _ _ Hr) as (m & c & b & R).
    destruct (step_free t a s m c b R a _ eq_refl) as (s' & m' & c' & b' & Hc & _). cbn [call] in Hc. rewrite Hn in Hc.
    cbn in Hc. by injection Hc.
  Qed.

  Lemma used_bound : blocks_taken a <= disk_blocks t.
  Proof.
    destruct (reached_related _ _ _ Hr) as (m & c & b & R).
    unfold blocks_taken. rewrite (used_count a m (rl_slots _ _ _ _ _ _ R)), (rl_border _ _ _ _ _ _ R), border_block_eq. apply (files_fit t (w_dev (s_world s))), (rl_view t a s m c b R).
  Qed.

  Lemma slots_dirs : length (as_slots a) = border_room (as_border a) + 8 * as_dirs a /\ border_sector (as_border a) + as_dirs a <= dir_limit t.
  Proof.
    destruct (reached_related _ _ _ Hr) as (m & c & b & R). pose proof (rl_view t a s m c b R) as V.
    rewrite (rl_slots _ _ _ _ _ _ R), (rl_dirs _ _ _ _ _ _ R), abs_length, (rl_border _ _ _ _ _ _ R), border_room_eq, border_sector_eq.
    split; [rewrite (v_slots _ _ _ V), secs_length; unfold border_slots; lia|].
    apply (dirs_fit t _ m V).
  Qed.

  Lemma counts : length (s_handles s) = length (as_handles a) /\ length (s_writers s) = length (as_writers a).
  Proof.
    destruct (reached_related _ _ _ Hr) as (m & c & b & R).
    split; symmetry; eapply Forall2_length; apply R.
  Qed.

  Lemma reached_tidy : tidy a.
  Proof.
    destruct Hr as [d name id os rs Hd Hw Hn Ha Hs|d dirs chains a0 os rs Hi Ha Hs]; (eapply tidy_run; [done|]).
    - apply tidy_formatted.
    - by destruct (sound_related t d dirs chains a0 Hi) as (_ & _ & _ & H).
  Qed.

  Lemma named_absent es name :
    w_directory (s_world s) = Ok es -> ~ In name (map de_name es) -> slot_named a name = None.
  Proof.
    intros Hes Hin. destruct (slot_named a name) as [i|] eqn:E; [|done]. exfalso. apply Hin.
    unfold slot_named in E. apply slot_where_some in E as [([f|] & Hi & Hp) _]; [|done].
    cbn in Hp. apply bool_decide_eq_true in Hp.
    assert (map de_name es = map (fun x => fst (fst x)) (listing a)) as ->.
    { rewrite <- (listed es Hes), map_map. done. }
    apply in_map_iff. exists (a_name f, a_attr f, a_blocks f). split; [done|].
    unfold listing. apply in_app_iff. apply or_comm, in_app_iff. unfold lines. rewrite <- concat_app, <- map_app, take_drop.
    apply in_concat. eexists. split; [apply in_map_iff; exists (Some f); split; [reflexivity|]|by left].
    apply elem_of_list_In. by apply elem_of_list_lookup_2 in Hi.
  Qed.

  Lemma named_slot name i : slot_named a name = Some i -> exists f, as_slots a !! i = Some (Some f) /\ a_name f = name.
  Proof.
    intros E. apply slot_where_some in E as [([f|] & Hi & Hp) _]; [|done].
    cbn in Hp. apply bool_decide_eq_true in Hp. by exists f.
  Qed.

  Lemma slot_name_of i f : as_slots a !! i = Some (Some f) -> slot_named a (a_name f) = Some i.
  Proof.
    intros Hi. destruct (slot_named a (a_name f)) as [j|] eqn:E.
    - destruct (named_slot _ _ E) as (g & Hg & En). destruct (reached_related _ _ _ Hr) as (m & c & b & R).
      destruct (slot_of_abs _ _ _ _ (rl_slots _ _ _ _ _ _ R) Hi) as (f1 & Hf1 & ->).
      destruct (slot_of_abs _ _ _ _ (rl_slots _ _ _ _ _ _ R) Hg) as (g1 & Hg1 & ->).
      f_equal. by apply (rl_names _ _ _ _ _ _ R j i g1 f1).
    - pose proof (slot_where_none _ _ E i _ Hi) as H. cbn in H. apply bool_decide_eq_false in H. done.
  Qed.

  Lemma lines_length os : length (lines os) + length (List.filter unused os) = length os.
  Proof.
    unfold lines. induction os as [|[f|] os IH]; [done| |]; cbn [map concat List.filter unused app length]; lia.
  Qed.

  Notation rest := (drop (border_room (as_border a)) (as_slots a)).
  Lemma unused_none : slot_unused a = None -> length (lines rest) = 8 * as_dirs a.
  Proof.
    intros H. pose proof (lines_length rest) as E. assert (List.filter unused rest = []) as F.
    { unfold slot_unused in H. destruct (slot_where unused rest) eqn:E0; [done|].
      pose proof (slot_where_none _ _ E0) as Hn. clear -Hn. induction rest as [|o os IH]; [done|]. cbn [List.filter].
      rewrite (Hn 0 o eq_refl). apply IH. intros j. apply (Hn (S j)). }
    rewrite F, drop_length in E. cbn in E. pose proof slots_dirs. lia.
  Qed.
  Lemma unused_some i : slot_unused a = Some i -> length (lines rest) < 8 * as_dirs a /\ as_slots a !! i = Some None.
  Proof.
    intros H. pose proof (lines_length rest) as E. destruct (slot_unused_some a i H) as [Hi Hb].
    split; [|done]. rewrite drop_length in E. pose proof slots_dirs. assert (0 < length (List.filter unused rest)); [|lia].
    assert (In None (List.filter unused rest)) as Hin.
    { apply filter_In. split; [|done]. apply elem_of_list_In. apply elem_of_list_lookup. exists (i - border_room (as_border a)).
      rewrite lookup_drop. rewrite <- Hi. f_equal. lia. }
    destruct (List.filter unused rest); [done|cbn; lia].
  Qed.

  (** Creating a file: exactly when it works. *)
  Lemma create_outcome es n name ft :
    w_directory (s_world s) = Ok es -> w_blocks_free (s_world s) = Ok n ->
    length name <= 16 -> last name <> Some 160 -> storable_type ft = true -> ~ In name (map de_name es) ->
    exists a' r, astep t a (OCreate name ft) = Some (a', r)
      /\ r = (if (n =? 0) || (length (ordinary es) =? dir_room t (as_border a)) then AError EDiskFull else AIndex (length (s_handles s)))
      /\ (forall i f, as_slots a !! i = Some (Some f) -> as_slots a' !! i = Some (Some f))
      /\ as_writers a' = as_writers a
      /\ (as_dirs a' = as_dirs a \/ slot_unused a = None)
      /\ blocks_left t a' = match r with AIndex _ => n - 1 | _ => n end
      /\ match r with
         | AIndex _ => exists i, as_slots a' !! i = Some (Some (new_afile name ft)) /\ as_handles a' = as_handles a ++ [Some i]
              /\ (forall j f, as_slots a' !! j = Some (Some f) -> j = i \/ as_slots a !! j = Some (Some f))
         | _ => as_handles a' = as_handles a /\ forall j f, as_slots a' !! j = Some (Some f) -> as_slots a !! j = Some (Some f)
         end.
  Proof.
    intros Hes Hn Hlen Hpad Hty Habs. rewrite (freed n Hn). rewrite (proj1 counts).
    pose proof (listed es Hes) as Hl. assert (length (ordinary es) = length (lines (drop (border_room (as_border a)) (as_slots a)))) as El by (by rewrite <- (listed_ordinary es Hes), map_length).
    pose proof (named_absent es name Hes Habs) as Hnone. pose proof slots_dirs as [Hsd Hdl].
    cbn [astep]. destruct (Nat.ltb_spec 16 (length name)); [lia|]. rewrite Hnone.
    assert (storable_name name = true) as Hsn by (unfold storable_name; rewrite bool_decide_eq_false_2; done).
    rewrite Hsn, Hty. cbn [andb negb].
    assert (forall (os : list (option afile)) i, os !! i = Some None -> forall j f, os !! j = Some (Some f) ->
      <[i := Some (new_afile name ft)]> os !! j = Some (Some f)) as Hins.
    { intros os i Hi j f Hj. rewrite list_lookup_insert_ne; [done|]. congruence. }
    assert (forall j f, (as_slots a ++ repeat None 8) !! j = Some (Some f) -> as_slots a !! j = Some (Some f)) as Hg.
    { intros j f Hj. destruct (decide (j < length (as_slots a))); [by rewrite lookup_app_l in Hj|].
      rewrite lookup_app_r in Hj by lia. exfalso. apply elem_of_list_lookup_2 in Hj. apply elem_of_list_In, repeat_spec in Hj. done. }
    assert (forall a1 i, as_slots a1 !! i = Some None -> blocks_used (add i name ft a1) = blocks_used a1 + 1) as Hadd.
    { intros a1 i Hi. pose proof (used_put a1 i None (Some (new_afile name ft)) Hi) as H1. cbn [blocks_of new_afile a_blocks] in H1.
      unfold blocks_used in *. unfold add. cbn [set_synced set_handles as_slots] in *. lia. }
    assert (blocks_used (grow a) = blocks_used a) as Hgu.
    { unfold blocks_used. cbn [grow as_slots]. rewrite map_app. unfold sum. rewrite fold_right_app. done. }
    destruct (slot_unused a) as [i|] eqn:Eu.
    - destruct (unused_some i Eu) as [Hlt Hi]. assert (length (ordinary es) =? dir_room t (as_border a) = false) as -> by (apply Nat.eqb_neq; unfold dir_room; lia).
      rewrite orb_false_r. destruct (blocks_left t a =? 0) eqn:Eb.
      + do 2 eexists. split; [done|]. split; [done|]. split; [done|]. split; [done|]. split; [by left|]. split; [done|]. done.
      + do 2 eexists. split; [done|]. split; [done|]. unfold add. cbn [set_synced set_handles put set_slots as_slots as_writers as_handles as_dirs].
        split; [by apply Hins|]. split; [done|]. split; [by left|]. split.
        { pose proof (Hadd a i Hi) as H1. unfold blocks_left, blocks_taken, blocks_used in *. cbn [add set_synced set_handles put set_slots as_slots as_border] in H1 |- *. lia. }
        exists i. split; [apply list_lookup_insert; by eapply lookup_lt_Some|]. split; [done|].
        intros j f Hj. apply lookup_insert_cases in Hj as [(<- & _)|[_ Hj]]; auto.
    - pose proof (unused_none Eu) as Heq. rewrite El, Heq. unfold dir_room.
      destruct (border_sector (as_border a) + as_dirs a <? dir_limit t) eqn:Ed.
      + apply Nat.ltb_lt in Ed. assert (8 * as_dirs a =? 8 * (dir_limit t - border_sector (as_border a)) = false) as -> by (apply Nat.eqb_neq; lia).
        rewrite orb_false_r. destruct (blocks_left t a =? 0) eqn:Eb.
        * do 2 eexists. split; [done|]. split; [done|]. cbn [grow as_slots as_writers as_handles as_dirs].
          split; [intros; by apply lookup_app_l_Some|]. split; [done|]. split; [by right|]. split; [unfold blocks_left, blocks_taken; by rewrite Hgu|].
          split; [done|]. exact Hg.
        * do 2 eexists. split; [done|]. split; [done|]. unfold add. cbn [grow set_synced set_handles put set_slots as_slots as_writers as_handles as_dirs].
          assert ((as_slots a ++ repeat None 8) !! length (as_slots a) = Some None) as Hn0.
          { rewrite lookup_app_r by lia. by rewrite Nat.sub_diag. }
          split; [intros j f Hj; apply Hins; [done|by apply lookup_app_l_Some]|].
          split; [done|]. split; [by right|]. split.
          { pose proof (Hadd (grow a) (length (as_slots a)) Hn0) as H1. unfold blocks_left, blocks_taken, blocks_used in *.
            cbn [grow add set_synced set_handles put set_slots as_slots as_border] in H1, Hgu |- *. lia. }
          exists (length (as_slots a)). split; [apply list_lookup_insert; by eapply lookup_lt_Some|]. split; [done|].
          intros j f Hj. apply lookup_insert_cases in Hj as [(<- & _)|[_ Hj]]; [by left|right]. by apply Hg.
      + apply Nat.ltb_ge in Ed. assert (8 * as_dirs a =? 8 * (dir_limit t - border_sector (as_border a)) = true) as -> by (apply Nat.eqb_eq; lia).
        rewrite orb_true_r. do 2 eexists. split; [done|]. split; [done|]. split; [done|]. split; [done|]. split; [by left|]. split; done.
  Qed.
End answers.

Lemma occupied_view t w m c b i x f :
  wok t w m c b [] -> handle_ok m c i x -> slot_at m i = Some f ->
  exists ls, file_occupied (w_dev w) x = Ok ls /\ ls ≡ₚ mf_chain f.
Proof.
  intros W [(f' & e & ex & Hi & -> & Hp & Hfi & _ & _ & _ & Hpl)] Hi'. rewrite Hi in Hi'. injection Hi' as ->.
  pose proof (wo_view _ _ _ _ _ _ W) as V. cbn [file_occupied]. rewrite Hfi. apply slot_at_Some in Hi.
  rewrite (locations_sound t _ _ _ (v_shape _ _ _ V) (view_file_sound t _ m V i f Hi Hpl)). cbn [rbind].
  eexists. split; [done|]. apply occupied_perm. by eapply view_chain_nodup.
Qed.

Lemma map_of t w m c b ex : wok t w m c b ex -> current_map w = Ok b.
Proof.
  intros W. unfold current_map, w_get_bam, cell. rewrite (wo_bam _ _ _ _ _ _ W). cbn [rbind].
  by rewrite (wo_cell _ _ _ _ _ _ W).
Qed.

(** Every file is on its own sectors and the map marks exactly the used ones. *)
Lemma delete_outcome t a s h i f :
  reached t a s -> held a h = Some (i, f) -> writer_on a i = false -> removable (a_kind f) = true ->
  exists s' a' x ls b b', call s (ODelete h) = (s', ADone) /\ reached t a' s'
    /\ s_handles s !! h = Some x
    /\ file_occupied (w_dev (s_world s)) x = Ok ls /\ length ls = a_blocks f /\ NoDup ls
    /\ current_map (s_world s) = Ok b /\ current_map (s_world s') = Ok b'
    /\ (forall l, In l ls -> bam_sector t l /\ ~ is_free b l)
    /\ (forall l, bam_sector t l -> is_free b' l <-> is_free b l \/ In l ls)
    /\ open_file (s_world s') (a_name f) = Err ENotFound
    /\ (forall g, shows (s_world s') g <-> shows (s_world s) g /\ a_name g <> a_name f)
    /\ as_slots a' = <[i := None]> (as_slots a).
Proof.
  intros Hr Hf Hw Hrm. assert (exists a', astep t a (ODelete h) = Some (a', ADone) /\ as_slots a' = <[i := None]> (as_slots a)) as (a' & Ha & Hs).
  { cbn [astep]. rewrite Hf, Hw, Hrm. eexists. split; [done|]. done. }
  destruct (reached_step t a s _ a' _ Hr Ha) as (s' & Hc & Hr').
  destruct (reached_related _ _ _ Hr) as (m & c & b & R). destruct (reached_related _ _ _ Hr') as (m0 & c0 & b0 & R0).
  destruct (held_some t a s m c b R h i f Hf) as (x & g & Hx & Hg & Hfg & Hok). subst f.
  pose proof (rl_wok _ _ _ _ _ _ R) as W.
  assert (exists ls w' b', file_occupied (w_dev (s_world s)) x = Ok ls /\ Permutation ls (mf_chain g)
    /\ file_delete x (s_world s) = (w', Ok tt) /\ wok t w' (set_slot i None m) c b' []) as (ls & w' & b' & Hls & Hp & Hd & W').
  { destruct Hok as [[Hok _]|(y & Hok & Hy & Hk & _)].
    - destruct (occupied_view t _ m c b i x g W Hok Hg) as (ls & Hls & Hp).
      destruct (delete_view t _ m c b i x g W (rl_names _ _ _ _ _ _ R) Hok Hg) as (w' & b' & Hd & W' & _ & _). by exists ls, w', b'.
    - rewrite Hk in Hrm. destruct (delete_special_view t _ m c b i x g y W (rl_names _ _ _ _ _ _ R) Hg Hok Hy Hrm) as (w' & b' & _ & Hd & W' & _).
      exists (mf_chain g), w', b'. split; [|done]. destruct Hok as (y' & e & _ & _ & _ & _ & _ & _ & Hall).
      apply Hall; [apply (v_shape _ _ _ (wo_view _ _ _ _ _ _ W))|]. apply (v_files _ _ _ (wo_view _ _ _ _ _ _ W) i). by apply slot_at_Some. }
  assert (s_world s' = w') as Ew.
  { cbn [call] in Hc. rewrite Hx, Hd in Hc. injection Hc as <-. done. }
  assert (as_slots a !! i = Some (Some (abs_file g))) as Hai.
  { rewrite (rl_slots _ _ _ _ _ _ R). by apply abs_lookup. }
  assert (md_slots m !! i = Some (Some g)) as Hmi by by apply slot_at_Some.
  assert (i < length (md_slots m)) as Hlt by by eapply lookup_lt_Some.
  pose proof (rl_view t a s m c b R) as V.
  assert (forall l, In l ls <-> l ∈ mf_chain g) as Hin by (intros l; by rewrite <- elem_of_list_In, Hp).
  assert (forall l, l ∈ mf_chain g -> plain t l) as Hpl.
  { intros l Hl. destruct (v_files _ _ _ V i g Hmi) as (_ & Hfa & _). rewrite Forall_forall in Hfa. by apply data_plain, Hfa. }
  exists s', a', x, ls, b, b'.
  split; [done|]. split; [done|]. split; [done|]. split; [done|]. split; [by rewrite Hp|].
  split; [rewrite Hp; by eapply view_chain_nodup|].
  split; [by eapply map_of|]. split; [rewrite Ew; by eapply map_of|].
  pose proof (bo_free _ _ _ _ (wo_alloc _ _ _ _ _ _ W)) as F. pose proof (bo_free _ _ _ _ (wo_alloc _ _ _ _ _ _ W')) as F'.
  split; [|split; [|split; [|split; [|done]]]].
  - intros l Hl%Hin. destruct (Hpl l Hl) as [Hb Hns]. split; [done|]. rewrite is_free_b, F by done. intros (_ & Hu & _). apply Hu.
    apply used_in. right. by exists i, g.
  - intros l Hl. rewrite !is_free_b, F, F' by done. rewrite Hin.
    rewrite (used_set_in m i (Some g) None l Hg Hlt (v_nodup _ _ _ V)). cbn [chain_of]. split.
    + intros (H1 & H2 & _). destruct (decide (l ∈ mf_chain g)); [by right|left]. split; [done|]. split; [|apply not_elem_of_nil].
      intros Hu. apply H2. by right.
    + intros [(H1 & H2 & _)|H1].
      * split; [done|]. split; [|apply not_elem_of_nil]. intros [Hn|[Hu _]]; [by apply not_elem_of_nil in Hn|done].
      * split; [by apply Hpl|]. split; [|apply not_elem_of_nil]. intros [Hn|[_ Hu]]; [by apply not_elem_of_nil in Hn|done].
  - assert (slot_named a' (a_name (abs_file g)) = None) as Hno.
    { destruct (slot_named a' (a_name (abs_file g))) as [j|] eqn:E; [|done]. exfalso.
      apply slot_where_some in E as [([f1|] & Hj & Hp1) _]; [|done]. cbn in Hp1. apply bool_decide_eq_true in Hp1.
      rewrite Hs in Hj. apply lookup_insert_cases in Hj as [(<- & _ & [=])|[Hne Hj]].
      destruct (slot_of_abs _ _ _ _ (rl_slots _ _ _ _ _ _ R) Hj) as (g1 & Hg1 & ->).
      apply Hne. symmetry. by apply (rl_names _ _ _ _ _ _ R j i g1 g). }
    unfold open_file. rewrite (find_none t _ m0 c0 b0 _ (rl_wok _ _ _ _ _ _ R0)); [done|].
    by apply (named_none a' m0 _ (rl_slots _ _ _ _ _ _ R0)).
  - intros g1. rewrite (reached_shows t a' s' g1 Hr'), (reached_shows t a s g1 Hr). split.
    + intros [j Hj]. rewrite Hs in Hj. apply lookup_insert_cases in Hj as [(<- & _ & [=])|[Hne Hj]]. split; [by exists j|].
      intros E. apply Hne. destruct (slot_of_abs _ _ _ _ (rl_slots _ _ _ _ _ _ R) Hj) as (g2 & Hg2 & ->).
      symmetry. by apply (rl_names _ _ _ _ _ _ R j i g2 g).
    + intros [[j Hj] Hne]. exists j. rewrite Hs. rewrite list_lookup_insert_ne; [done|]. intros <-. congruence.
Qed.

(** ** Writing *)

Lemma write_outcome t a s k x f buf n :
  reached t a s -> as_writers a !! k = Some (Some x) -> as_slots a !! aw_slot x = Some (Some f) ->
  w_blocks_free (s_world s) = Ok n ->
  exists s' a' f' r pend, call s (OWrite k buf) = (s', r) /\ reached t a' s'
    /\ as_slots a' = <[aw_slot x := Some f']> (as_slots a)
    /\ as_writers a' = <[k := Some (mk_awriter (aw_slot x) pend true)]> (as_writers a)
    /\ shows (s_world s') f' /\ a_name f' = a_name f /\ a_attr f' = a_attr f
    /\ if length (a_data f ++ aw_pend x ++ buf) <=? 254 * (a_blocks f + n)
       then r = ACount (length buf) /\ a_data f' ++ pend = a_data f ++ aw_pend x ++ buf
            /\ a_blocks f' = Nat.max 1 ((length (a_data f ++ aw_pend x ++ buf) + 253) / 254)
       else r = AError EDiskFull /\ pend = [] /\ a_blocks f' = a_blocks f + n
            /\ a_data f' = take (254 * (a_blocks f + n)) (a_data f ++ aw_pend x ++ buf)
            /\ w_blocks_free (s_world s') = Ok 0.
Proof.
  intros Hr Hk Hf Hn. pose proof (freed t a s Hr n Hn) as ->.
  set (all := a_data f ++ aw_pend x ++ buf).
  pose proof (ti_writer a (reached_tidy t a s Hr) k x f Hk Hf) as Hb.
  assert (length (a_data f ++ aw_pend x) <= length all) as Hlen by (unfold all; rewrite !app_length; lia).
  assert (aw_slot x < length (as_slots a)) as Hi by by eapply lookup_lt_Some.
  assert (exists a' f' r pend, astep t a (OWrite k buf) = Some (a', r)
    /\ as_slots a' = <[aw_slot x := Some f']> (as_slots a)
    /\ as_writers a' = <[k := Some (mk_awriter (aw_slot x) pend true)]> (as_writers a)
    /\ a_name f' = a_name f /\ a_attr f' = a_attr f
    /\ if length all <=? 254 * (a_blocks f + blocks_left t a)
       then r = ACount (length buf) /\ a_data f' ++ pend = all
            /\ a_blocks f' = Nat.max 1 ((length all + 253) / 254)
       else r = AError EDiskFull /\ pend = [] /\ a_blocks f' = a_blocks f + blocks_left t a
            /\ a_data f' = take (254 * (a_blocks f + blocks_left t a)) all
            /\ blocks_left t a' = 0) as (a' & f' & r & pend & Ha & Hs & Hw & Hnm & Hat & Hif).
  { cbn [astep]. rewrite Hk, Hf. unfold write_to. fold all.
    destruct (length all <=? 254 * (a_blocks f + blocks_left t a)) eqn:El.
    - set (nb := blocks_for (a_blocks f) (length all)).
      set (data := if nb =? a_blocks f then a_data f else take (254 * (nb - 1)) all).
      assert (data ++ drop (length data) all = all) as Hall.
      { unfold data. destruct (nb =? a_blocks f); [unfold all; by rewrite drop_app|]. apply take_rest. }
      eexists _, (mk_afile (a_name f) (a_attr f) nb data (a_kind f)), _, (drop (length data) all). split; [reflexivity|].
      cbn [a_blocks a_name a_attr a_data].
      split; [by destruct (nb =? _)|]. split; [by destruct (nb =? _)|]. split; [done|]. split; [done|]. split; [done|]. split; [done|].
      unfold nb. rewrite Hb. unfold blocks_for. pose proof (ceil_mono _ _ Hlen). lia.
    - eexists _, (mk_afile (a_name f) (a_attr f) (a_blocks f + blocks_left t a) (take (254 * (a_blocks f + blocks_left t a)) all) (a_kind f)), _, [].
      split; [reflexivity|]. cbn [a_blocks a_name a_attr a_data].
      split; [by destruct (_ =? _)|]. split; [by destruct (_ =? _)|]. do 6 (split; [done|]).
      set (f1 := mk_afile _ _ _ _ _).
      pose proof (used_put a (aw_slot x) (Some f) (Some f1) Hf) as Hu. cbn [blocks_of] in Hu. change (a_blocks f1) with (a_blocks f + blocks_left t a) in Hu.
      unfold blocks_left, blocks_taken, blocks_used in *. pose proof (used_bound t a s Hr) as Hub. unfold blocks_taken, blocks_used in Hub.
      destruct (_ =? _); cbn [put set_slots set_writers set_synced as_slots as_border] in Hu |- *; lia. }
  destruct (reached_step t a s _ a' r Hr Ha) as (s' & Hc & Hr').
  exists s', a', f', r, pend. split; [done|]. split; [done|]. split; [done|]. split; [done|].
  split; [|split; [done|split; [done|]]].
  - apply (reached_shows t a' s' f' Hr'). exists (aw_slot x). rewrite Hs. by apply list_lookup_insert.
  - destruct (length all <=? _); [done|]. destruct Hif as (H1 & H2 & H3 & H4 & H5). do 4 (split; [done|]). rewrite <- H5.
    destruct (reached_sum t a' s' Hr') as (es & n' & _ & Hn' & _). rewrite Hn'. f_equal. by apply (freed t a' s' Hr').
Qed.

(** Appending through a new writer. *)
Lemma append_outcome t a s h i f bufs n :
  reached t a s -> file_of a h = Some (i, f) -> writer_on a i = false ->
  w_blocks_free (s_world s) = Ok n ->
  length (a_data f ++ concat bufs) <= 254 * (a_blocks f + n) ->
  let k := length (s_writers s) in
  exists s' a', calls s (OWriter h :: map (OWrite k) bufs ++ [OClose k])
      = (s', AIndex k :: map (fun b => ACount (length b)) bufs ++ [ADone])
    /\ reached t a' s' /\ as_synced a' = true /\ as_handles a' = as_handles a
    /\ as_slots a' = <[i := Some (mk_afile (a_name f) (a_attr f)
         (Nat.max 1 ((length (a_data f ++ concat bufs) + 253) / 254)) (a_data f ++ concat bufs) KPlain)]> (as_slots a).
Proof.
  intros Hr Hf Hw Hn Hl k. pose proof (freed t a s Hr n Hn) as ->.
  assert (as_handles a !! h = Some (Some i) /\ as_slots a !! i = Some (Some f) /\ a_special f = false) as (Hh & Hi & Hp).
  { unfold file_of in Hf. destruct (as_handles a !! h) as [[j|]|]; [|done..].
    destruct (as_slots a !! j) as [[g|]|] eqn:E; [|done..]. destruct (a_special g) eqn:Eg; [done|]. by injection Hf as <- <-. }
  pose proof (ti_free a (reached_tidy t a s Hr) i f Hi Hp Hw) as Hb.
  assert (k = length (as_writers a)) as Hk by apply (counts t a s Hr).
  destruct (append_run t a h i f bufs Hh Hi Hp Hw (used_bound t a s Hr)) as (a' & Ha & Hs & _ & Hha & _ & _ & _ & Hsy).
  - rewrite Hb. unfold blocks_for. lia.
  - done.
  - rewrite <- Hk in Ha. destruct (reached_run t a s _ a' _ Hr Ha) as (s' & Hc & Hr').
    exists s', a'. split; [done|]. split; [done|]. split; [done|]. split; [done|]. rewrite Hs. do 4 f_equal.
    rewrite Hb. unfold blocks_for. assert (length (a_data f) <= length (a_data f ++ concat bufs)) as Hle by (rewrite app_length; lia).
    pose proof (ceil_mono _ _ Hle). lia.
Qed.

Lemma calls_cons s o s1 r os s2 rs : call s o = (s1, r) -> calls s1 os = (s2, rs) -> calls s (o :: os) = (s2, r :: rs).
Proof. intros H1 H2. cbn [calls]. by rewrite H1, H2. Qed.

(** Creating a file and writing it. *)
Lemma create_write_outcome t a s es n name ft bufs :
  reached t a s -> w_directory (s_world s) = Ok es -> w_blocks_free (s_world s) = Ok n ->
  length name <= 16 -> last name <> Some 160 -> storable_type ft = true -> ~ In name (map de_name es) ->
  length (ordinary es) < dir_room t (border_in t (s_world s)) ->
  let size := Nat.max 1 ((length (concat bufs) + 253) / 254) in
  size <= n ->
  let h := length (s_handles s) in
  let k := length (s_writers s) in
  exists s' a', calls s (OCreate name ft :: OWriter h :: map (OWrite k) bufs ++ [OClose k])
      = (s', AIndex h :: AIndex k :: map (fun b => ACount (length b)) bufs ++ [ADone])
    /\ reached t a' s' /\ as_synced a' = true
    /\ forall f, shows (s_world s') f <->
         f = mk_afile name (mk_attr ft false false false true) size (concat bufs) KPlain \/ shows (s_world s) f.
Proof.
  intros Hr. rewrite <- (reached_border t a s Hr). intros Hes Hn Hlen Hpad Hty Habs Hcap size Hsz h k.
  destruct (create_outcome t a s Hr es n name ft Hes Hn Hlen Hpad Hty Habs) as (a1 & r & Ha1 & -> & Hkeep & Hws & _ & Hbl & Hrest).
  assert ((n =? 0) || (length (ordinary es) =? dir_room t (as_border a)) = false) as E.
  { apply orb_false_iff. split; apply Nat.eqb_neq; unfold size in Hsz; lia. }
  rewrite E in *. destruct Hrest as (i & Hi & Hha & Hback).
  destruct (reached_step t a s _ a1 _ Hr Ha1) as (s1 & Hc1 & Hr1).
  assert (writer_on a1 i = false) as Hw1.
  { apply writer_on_none. intros k' x' Hk' E'. rewrite Hws in Hk'.
    destruct (ti_live a (reached_tidy t a s Hr) k' x' Hk') as (f' & Hf'). rewrite E' in Hf'.
    assert (shows (s_world s) f') as Hsh by (apply (reached_shows t a s f' Hr); by exists i).
    pose proof (Hkeep i f' Hf') as E2. rewrite Hi in E2. injection E2 as <-.
    apply Habs. destruct Hsh as [_ (es' & Hes' & Hin)]. rewrite Hes in Hes'. apply Ok_inj in Hes'. subst es'.
    apply in_map_iff in Hin as (e & He & Hin). apply in_map_iff. exists e. split; [|done]. unfold entry_line in He. by injection He. }
  assert (file_of a1 h = Some (i, new_afile name ft)) as Hfo.
  { unfold file_of. rewrite Hha. unfold h. rewrite (proj1 (counts t a s Hr)). rewrite lookup_app_r by lia. rewrite Nat.sub_diag. cbn. by rewrite Hi. }
  destruct (reached_sum t a1 s1 Hr1) as (es1 & n1 & _ & Hn1 & _).
  pose proof (freed t a1 s1 Hr1 n1 Hn1) as En1. rewrite Hbl in En1. subst n1.
  assert (length (s_writers s1) = k) as Hk1.
  { unfold k. by rewrite (proj2 (counts t a1 s1 Hr1)), (proj2 (counts t a s Hr)), Hws. }
  destruct (append_outcome t a1 s1 h i (new_afile name ft) bufs (n - 1) Hr1 Hfo Hw1 Hn1) as (s' & a' & Hc & Hr' & Hsy & _ & Hs).
  - cbn [new_afile a_data a_blocks app]. unfold size in Hsz. clear -Hsz.
    assert ((length (concat bufs) + 253) / 254 <= n) as H by lia. clear Hsz. assert (1 <= n \/ n = 0) as [?| ->] by lia; lia.
  - rewrite Hk1 in Hc. exists s', a'. split.
    { by apply (calls_cons s _ s1). }
    split; [done|]. split; [done|]. intros f. rewrite (reached_shows t a' s' f Hr'), (reached_shows t a s f Hr).
    assert (i < length (as_slots a1)) as Hil by by eapply lookup_lt_Some. split.
    + intros [j Hj]. rewrite Hs in Hj. apply lookup_insert_cases in Hj as [(<- & _ & [= <-])|[Hne Hj]]; [by left|right].
      destruct (Hback j f Hj) as [->|Hj']; [done|]. by exists j.
    + intros [->|[j Hj]].
      * exists i. rewrite Hs. by apply list_lookup_insert.
      * exists j. rewrite Hs. destruct (decide (i = j)) as [<-|Hne].
        -- exfalso. pose proof (Hkeep i f Hj) as E2. rewrite Hi in E2. injection E2 as <-.
           assert (shows (s_world s) (new_afile name ft)) as [_ (es' & Hes' & Hin)] by (apply (reached_shows t a s _ Hr); by exists i).
           apply Habs. rewrite Hes in Hes'. apply Ok_inj in Hes'. subst es'.
           apply in_map_iff in Hin as (e & He & Hin). apply in_map_iff. exists e. split; [|done]. unfold entry_line in He. by injection He.
        -- rewrite list_lookup_insert_ne by done. by apply Hkeep.
Qed.

(** Reading in pieces of any sizes. *)
Lemma read_outcome t a s f ns :
  reached t a s -> shows (s_world s) f -> a_special f = false ->
  exists s', calls s [OOpen (a_name f); ORead (length (s_handles s)) ns] = (s', [AIndex (length (s_handles s)); AReads (pieces (a_data f) ns)])
    /\ s_world s' = s_world s.
Proof.
  intros Hr Hf Hpl. apply (reached_shows t a s f Hr) in Hf as [i Hi].
  pose proof (slot_name_of t a s Hr i f Hi) as Hnm. rewrite (proj1 (counts t a s Hr)).
  destruct (reached_run t a s [OOpen (a_name f); ORead (length (as_handles a)) ns]
    (set_handles (as_handles a ++ [Some i]) a) [AIndex (length (as_handles a)); AReads (pieces (a_data f) ns)] Hr) as (s' & Hc & Hr').
  { cbn [arun astep]. rewrite Hnm. unfold file_of. cbn [set_handles as_handles as_slots]. rewrite lookup_app_r by lia.
    rewrite Nat.sub_diag. cbn [lookup list_lookup]. by rewrite Hi, Hpl. }
  exists s'. split; [done|]. clear -Hc. cbn [calls call] in Hc. destruct (open_file (s_world s) (a_name f)); cbn in Hc.
  - destruct (_ !! _); injection Hc as <-; done.
  - destruct (_ !! _); injection Hc as <-; done.
  - destruct (_ !! _); injection Hc as <-; done.
  - destruct (_ !! _); injection Hc as <-; done.
Qed.

(** ** Formatting *)

Lemma fresh_observed t w name id c b :
  wok t w (empty_disk t (fresh_header t name id)) c b [] ->
  w_directory w = Ok [] /\ w_blocks_free w = Ok (disk_blocks t) /\ validate w = Ok []
  /\ w_name w = Some (name ++ repeat 160 (16 - length name))
  /\ (exists h, w_header w = Some h /\ h_disk_id h = id)
  /\ current_map w = Ok b
  /\ forall l, bam_sector t l -> is_free b l <-> ~ In l (system_locations (native_format t)).
Proof.
  intros W. pose proof (wo_view _ _ _ _ _ _ W) as V. split; [|split; [|split; [|split; [|split; [|split]]]]].
  - unfold w_directory. rewrite (iter_view t (w_dev w) _ V) by (done || apply W). done.
  - unfold w_blocks_free, w_get_bam, cell. rewrite (wo_bam _ _ _ _ _ _ W). cbn [rbind]. rewrite (wo_cell _ _ _ _ _ _ W). cbn [rbind].
    rewrite (free_count t _ _ V b (wo_alloc _ _ _ _ _ _ W)). by destruct t.
  - by eapply validate_view.
  - unfold w_name, w_get_header. rewrite (wo_header _ _ _ _ _ _ W). done.
  - eexists. split; [apply (wo_header _ _ _ _ _ _ W)|done].
  - by eapply map_of.
  - intros l Hl. rewrite is_free_b, (bo_free _ _ _ _ (wo_alloc _ _ _ _ _ _ W)), empty_used by done.
    rewrite <- elem_of_list_In, system_locations_spec, elem_of_list_singleton. split.
    + intros (H1 & H2 & _) [_ [H3|H3]]; done.
    + intros H. split; [|split; [|apply not_elem_of_nil]]; intros H'; apply H; split; auto.
Qed.

Lemma format_outcome t w name id :
  w_type w = t -> dev_shape t (w_dev w) -> d_writable (w_dev w) = true -> length name <= 16 ->
  (forall c, w_bam w = Some c -> c < length (w_cells w)) ->
  exists w', write_format name id w = (w', Ok tt)
    /\ forall v, v = w' \/ v = open_world t (w_dev w') ->
       w_directory v = Ok [] /\ w_blocks_free v = Ok (disk_blocks t) /\ validate v = Ok []
       /\ w_name v = Some (name ++ repeat 160 (16 - length name))
       /\ (exists h, w_header v = Some h /\ h_disk_id h = id)
       /\ exists b, current_map v = Ok b
            /\ forall l, bam_sector t l -> is_free b l <-> ~ In l (system_locations (native_format t)).
Proof.
  intros Ht Hd Hw Hn Hc. destruct (format_view t w name id Ht Hd Hw Hc Hn) as (w' & c & b & Hf & W & Hdb & _ & _ & _).
  exists w'. split; [done|].
  assert (exists v c', v = open_world t (w_dev w') /\ wok t v (empty_disk t (fresh_header t name id)) c' b []) as (v & c' & -> & W').
  { destruct (initialize_view t (mk_world t (w_dev w') None None None []) (empty_disk t (fresh_header t name id)) b)
      as (c1 & W1 & _); [done|apply W|done|done|apply W|]. by exists (open_world t (w_dev w')), c1. }
  intros v [->| ->].
  - destruct (fresh_observed _ _ _ _ _ _ W) as (H1 & H2 & H3 & H4 & H5 & H6 & H7). do 5 (split; [done|]). by exists b.
  - destruct (fresh_observed _ _ _ _ _ _ W') as (H1 & H2 & H3 & H4 & H5 & H6 & H7). do 5 (split; [done|]). by exists b.
Qed.

Lemma format_follow t w name id c b0 :
  w_type w = t -> dev_shape t (w_dev w) -> d_writable (w_dev w) = true -> length name <= 16 ->
  w_bam w = Some c -> w_cells w !! c = Some b0 ->
  exists w' b, write_format name id w = (w', Ok tt) /\ w_bam w' = Some c /\ w_cells w' !! c = Some b /\ b_invalidated b = false
    /\ forall l, bam_sector t l -> is_free b l <-> ~ In l (system_locations (native_format t)).
Proof.
  intros Ht Hd Hw Hn Hc Hb. destruct (format_view t w name id Ht Hd Hw) as (w' & c' & b & Hf & W & _ & _ & Hcc & _); [|done|].
  { intros c1. rewrite Hc. intros [= <-]. by eapply lookup_lt_Some. }
  pose proof (Hcc c Hc) as ->. exists w', b. split; [done|]. split; [apply W|]. split; [apply W|]. split; [apply (bs_valid t), (consistent_shape t), W|].
  destruct (fresh_observed _ _ _ _ _ _ W) as (_ & _ & _ & _ & _ & H6 & H7). exact H7.
Qed.

(** ** The directory *)

Lemma dir_sectors t a s :
  reached t a s -> exists ls, chain_locations (w_dev (s_world s)) (first_dir t) = Ok ls /\ length ls = as_dirs a.
Proof.
  intros (m & c & b & R)%reached_related. pose proof (rl_view t a s m c b R) as V. exists (md_dir m).
  split; [|symmetry; apply R]. apply (locations_sound t _ _ _ (v_shape _ _ _ V) (view_dir_sound t _ m V)).
Qed.

Lemma listed_bound t a s es : reached t a s -> w_directory (s_world s) = Ok es ->
  length (ordinary es) <= dir_room t (border_in t (s_world s)) /\ length es <= length (ordinary es) + border_room (border_in t (s_world s)).
Proof.
  intros Hr Hes. rewrite <- (reached_border t a s Hr). pose proof (listed t a s Hr es Hes) as Hl. pose proof (slots_dirs t a s Hr) as [H1 H2].
  assert (length es = length (listing a)) as E1 by (by rewrite <- Hl, map_length).
  assert (length (ordinary es) = length (lines (drop (border_room (as_border a)) (as_slots a)))) as E2 by (by rewrite <- (listed_ordinary t a s Hr es Hes), map_length).
  unfold listing in E1. rewrite app_length in E1.
  pose proof (lines_length (drop (border_room (as_border a)) (as_slots a))) as H3. pose proof (lines_length (take (border_room (as_border a)) (as_slots a))) as H4.
  rewrite drop_length in H3. rewrite take_length in H4. unfold dir_room. lia.
Qed.

(** ** The forms used in the property theorems *)

Lemma fresh_allocation t d name id :
  dev_shape t d -> d_writable d = true -> length name <= 16 ->
  exists w' b, write_format name id (open_world t d) = (w', Ok tt) /\ current_map w' = Ok b
    /\ forall l, bam_sector t l -> ~ is_free b l <-> In l (system_locations (native_format t)).
Proof.
  intros Hd Hw Hn. destruct (open_world_cells t d) as (Hc & Ht & Hdev).
  destruct (format_outcome t (open_world t d) name id Ht) as (w' & Hf & Hv); [by rewrite Hdev|by rewrite Hdev|done|done|].
  destruct (Hv w' (or_introl eq_refl)) as (_ & _ & _ & _ & _ & b & Hb & Hfr). exists w', b. split; [done|]. split; [done|].
  intros l Hl. rewrite (Hfr l Hl). rewrite <- elem_of_list_In. destruct (decide (l ∈ system_locations (native_format t))); tauto.
Qed.

Lemma set_shows t a s a' s' i f g :
  reached t a s -> reached t a' s' -> as_slots a !! i = Some (Some f) -> a_name g = a_name f ->
  as_slots a' = <[i := Some g]> (as_slots a) ->
  forall x, shows (s_world s') x <-> x = g \/ (shows (s_world s) x /\ a_name x <> a_name f).
Proof.
  intros Hr Hr' Hi En Hs x. rewrite (reached_shows t a' s' x Hr'), (reached_shows t a s x Hr), Hs.
  assert (i < length (as_slots a)) as Hl by by eapply lookup_lt_Some. split.
  - intros [j Hj]. apply lookup_insert_cases in Hj as [(<- & _ & [= <-])|[Hne Hj]]; [by left|right]. split; [by exists j|].
    intros E. apply Hne. pose proof (slot_name_of t a s Hr i f Hi) as H1. pose proof (slot_name_of t a s Hr j x Hj) as H2. congruence.
  - intros [->|[[j Hj] Hne]].
    + exists i. by apply list_lookup_insert.
    + exists j. rewrite list_lookup_insert_ne; [done|]. intros <-. congruence.
Qed.

Lemma file_of_slot a h i f : file_of a h = Some (i, f) -> as_handles a !! h = Some (Some i) /\ as_slots a !! i = Some (Some f).
Proof.
  unfold file_of. destruct (as_handles a !! h) as [[j|]|]; [|done..].
  destruct (as_slots a !! j) as [[g|]|] eqn:E; [|done..]. destruct (a_special g); [done|]. by intros [= <- <-].
Qed.

Lemma append_shows t a s h i f bufs n :
  reached t a s -> file_of a h = Some (i, f) -> writer_on a i = false ->
  w_blocks_free (s_world s) = Ok n ->
  length (a_data f ++ concat bufs) <= 254 * (a_blocks f + n) ->
  let k := length (s_writers s) in
  let f' := mk_afile (a_name f) (a_attr f)
              (Nat.max 1 ((length (a_data f ++ concat bufs) + 253) / 254)) (a_data f ++ concat bufs) KPlain in
  exists s' a', calls s (OWriter h :: map (OWrite k) bufs ++ [OClose k])
      = (s', AIndex k :: map (fun b => ACount (length b)) bufs ++ [ADone])
    /\ reached t a' s' /\ as_synced a' = true
    /\ forall g, shows (s_world s') g <-> g = f' \/ (shows (s_world s) g /\ a_name g <> a_name f).
Proof.
  intros Hr Hf Hw Hn Hl k f'. destruct (append_outcome t a s h i f bufs n Hr Hf Hw Hn Hl) as (s' & a' & Hc & Hr' & Hsy & _ & Hs).
  exists s', a'. split; [done|]. split; [done|]. split; [done|].
  apply (set_shows t a s a' s' i f f' Hr Hr' (proj2 (file_of_slot _ _ _ _ Hf)) eq_refl Hs).
Qed.

Lemma other_files t a s o a' r j f :
  reached t a s -> astep t a o = Some (a', r) -> is_format o = false ->
  as_slots a !! j = Some (Some f) -> about a o <> Some j ->
  shows (s_world s) f /\ exists s', call s o = (s', r) /\ shows (s_world s') f.
Proof.
  intros Hr Ha Hnf Hj Hab. destruct (crash_safe t a s o a' r Hr Ha Hnf) as (s' & ws & Hc & Hr' & _ & _ & Hk). split.
  - apply (reached_shows t a s f Hr). by exists j.
  - exists s'. split; [done|]. apply (reached_shows t a' s' f Hr'). exists j. by apply Hk.
Qed.

Lemma create_shows t a s es n name ft :
  reached t a s -> w_directory (s_world s) = Ok es -> w_blocks_free (s_world s) = Ok n ->
  length name <= 16 -> last name <> Some 160 -> storable_type ft = true -> ~ In name (map de_name es) ->
  exists s' a', reached t a' s'
    /\ call s (OCreate name ft)
       = (s', if (n =? 0) || (length (ordinary es) =? dir_room t (border_in t (s_world s))) then AError EDiskFull else AIndex (length (s_handles s)))
    /\ forall f, shows (s_world s') f <->
         (n <> 0 /\ length (ordinary es) <> dir_room t (border_in t (s_world s)) /\ f = mk_afile name (mk_attr ft false false false true) 1 [] KPlain) \/ shows (s_world s) f.
Proof.
  intros Hr. rewrite <- (reached_border t a s Hr). intros Hes Hn Hlen Hpad Hty Habs.
  destruct (create_outcome t a s Hr es n name ft Hes Hn Hlen Hpad Hty Habs) as (a1 & r & Ha1 & -> & Hkeep & Hws & _ & Hbl & Hrest).
  destruct (reached_step t a s _ a1 _ Hr Ha1) as (s1 & Hc1 & Hr1).
  exists s1, a1. split; [done|]. split; [done|]. intros f.
  rewrite (reached_shows t a1 s1 f Hr1), (reached_shows t a s f Hr).
  destruct ((n =? 0) || (length (ordinary es) =? dir_room t (as_border a))) eqn:E.
  - assert (n = 0 \/ length (ordinary es) = dir_room t (as_border a)) as Hor.
    { apply orb_true_iff in E as [E|E]; apply Nat.eqb_eq in E; auto. }
    destruct Hrest as [_ Hback]. split.
    + intros [j Hj]. right. exists j. by apply Hback.
    + intros [(? & ? & _)|[j Hj]]; [lia|]. exists j. by apply Hkeep.
  - apply orb_false_iff in E as [E1%Nat.eqb_neq E2%Nat.eqb_neq]. destruct Hrest as (i & Hi & _ & Hback). split.
    + intros [j Hj]. destruct (Hback j f Hj) as [->|Hj']; [|right; by exists j]. left.
      rewrite Hi in Hj. injection Hj as <-. done.
    + intros [(_ & _ & ->)|[j Hj]]; [by exists i|]. exists j. by apply Hkeep.
Qed.

Lemma slots_reused t a s name ft s' r ls es :
  reached t a s -> storable_name name && storable_type ft = true ->
  call s (OCreate name ft) = (s', r) ->
  chain_locations (w_dev (s_world s)) (first_dir t) = Ok ls -> w_directory (s_world s) = Ok es ->
  length (ordinary es) < 8 * length ls ->
  chain_locations (w_dev (s_world s')) (first_dir t) = Ok ls.
Proof.
  intros Hr Hst Hc Hls Hes Hlt. destruct (dir_sectors t a s Hr) as (ls0 & Hls0 & Hlen0). rewrite Hls in Hls0. apply Ok_inj in Hls0. subst ls0.
  assert (length (ordinary es) = length (lines (drop (border_room (as_border a)) (as_slots a)))) as El by (by rewrite <- (listed_ordinary t a s Hr es Hes), map_length).
  destruct (slots_dirs t a s Hr) as [Hsd _].
  assert (exists a1 r1, astep t a (OCreate name ft) = Some (a1, r1) /\ as_dirs a1 = as_dirs a) as (a1 & r1 & Ha1 & Hd1).
  { cbn [astep]. destruct (16 <? length name); [by do 2 eexists|]. destruct (slot_named a name); [by do 2 eexists|]. rewrite Hst. cbn [negb].
    destruct (slot_unused a) as [i|] eqn:Eu; [|pose proof (unused_none t a s Hr Eu); lia].
    destruct (blocks_left t a =? 0); by do 2 eexists. }
  destruct (reached_related _ _ _ Hr) as (m & c & b & R).
  destruct (step_refines t a s m c b R _ a1 r1 Ha1) as (s1 & m' & c' & b' & Hc' & R' & Hk).
  rewrite Hc in Hc'. injection Hc' as <- _. destruct (Hk eq_refl) as (i & [_ (_ & (dirs & Hdirs) & _) _] & _).
  pose proof (rl_view t a s m c b R) as V. pose proof (rl_view t a1 s' m' c' b' R') as V'.
  pose proof (locations_sound t _ _ _ (v_shape _ _ _ V) (view_dir_sound t _ m V)) as E.
  pose proof (locations_sound t _ _ _ (v_shape _ _ _ V') (view_dir_sound t _ m' V')) as E'.
  rewrite Hls in E. apply Ok_inj in E. rewrite E', E, Hdirs. f_equal.
  assert (length (md_dir m') = length (md_dir m)) as Hleq by (rewrite <- (rl_dirs _ _ _ _ _ _ R'), <- (rl_dirs _ _ _ _ _ _ R); done).
  rewrite Hdirs, app_length in Hleq. destruct dirs; [by rewrite app_nil_r|cbn in Hleq; lia].
Qed.

Lemma reopen_after t a s o a' r :
  reached t a s -> astep t a o = Some (a', r) ->
  (exists h i f, o = ODelete h /\ file_of a h = Some (i, f))
  \/ (exists k x, (o = OFlush k \/ o = OClose k) /\ as_writers a !! k = Some (Some x) /\ aw_dirty x = true) ->
  exists s', call s o = (s', r) /\ reached t a' s'
    /\ let w := s_world s' in let w' := open_world t (w_dev w) in
       w_directory w' = w_directory w
       /\ (forall f, shows w' f <-> shows w f)
       /\ current_map w' = current_map w
       /\ w_blocks_free w' = w_blocks_free w
       /\ w_name w' = w_name w
       /\ validate w' = Ok [].
Proof.
  intros Hr Ha Ho. destruct (reached_step t a s o a' r Hr Ha) as (s' & Hc & Hr').
  exists s'. split; [done|]. split; [done|]. apply (reopen_same t a' s' Hr').
  destruct Ho as [(h & i & f & -> & Hf)|(k & x & Ho & Hk & Hd)]; [by eapply synced_delete|].
  destruct Ho as [->| ->]; cbn [astep] in Ha; rewrite Hk in Ha; injection Ha as <- <-; by eapply synced_settle.
Qed.
