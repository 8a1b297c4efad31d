(** What [validate] reports. *)
From Verif Require Import Base ListFacts Layout Block Bam Format DirEntry Header World Chain Directory Writer Rel GeosFile File
  Validate Petscii GeosTypes Spec SpecCodec GeomFacts FlatProofs SpecBam AllocProofs BamState SpecChain ChainProofs SpecKinds SpecValidate View Dirs Ops Count OpWrite OpFile FormatProofs.

Lemma owner_of_app a b l :
  owner_of (a ++ b) l = match owner_of a l with Some n => Some n | None => owner_of b l end.
Proof.
  unfold owner_of. rewrite find_app. destruct (List.find _ a) as [[l' n]|]; done.
Qed.

Lemma owner_of_cons l' n m l :
  owner_of ((l', n) :: m) l = if bool_decide (l' = l) then Some n else owner_of m l.
Proof. unfold owner_of. cbn [List.find fst]. by destruct (bool_decide (l' = l)). Qed.

Lemma owner_of_none m l : owner_of m l = None <-> ~ claimed m l.
Proof.
  induction m as [|[l' n] m IH].
  - split; [|done]. intros _ [n []].
  - rewrite owner_of_cons. case_bool_decide as Hl.
    + split; [done|]. intros H. destruct H. exists n. left. by rewrite Hl.
    + rewrite IH. split; intros H [n' Hn']; apply H.
      * destruct Hn' as [[= -> ->]|Hn']; [done|]. by exists n'.
      * exists n'. by right.
Qed.

Lemma owner_of_some m l n : owner_of m l = Some n <-> first_claim m l n.
Proof.
  induction m as [|[l' n'] m IH].
  - split; [done|]. intros (pre & post & H & _). by destruct pre.
  - rewrite owner_of_cons. case_bool_decide as Hl.
    + subst l'. split.
      * intros [= ->]. exists [], m. split; [done|]. intros [? []].
      * intros ([|p pre] & post & H & Hpre).
        -- by injection H as -> ->.
        -- destruct Hpre. exists n'. left. by injection H as <- _.
    + rewrite IH. split.
      * intros (pre & post & -> & Hpre). exists ((l', n') :: pre), post. split; [done|].
        intros [n'' [[= -> _]|H]]; [done|]. apply Hpre. by exists n''.
      * intros ([|p pre] & post & H & Hpre); [by injection H as -> ->|].
        injection H as <- ->. exists pre, post. split; [done|]. intros [n'' H]. apply Hpre. exists n''. by right.
Qed.

Lemma first_claimed cs l n : first_claim cs l n -> claimed cs l.
Proof. intros (pre & post & -> & _). exists n. apply in_app_iff. right. by left. Qed.

Lemma owner_of_fst m l : l ∈ map fst m <-> owner_of m l <> None.
Proof.
  rewrite owner_of_none. rewrite elem_of_list_In, in_map_iff. split.
  - intros ([l' n] & <- & H) Hn. apply Hn. by exists n.
  - intros H. destruct (owner_of m l) as [n|] eqn:E; [|by apply owner_of_none in E].
    apply owner_of_some in E as (pre & post & -> & _). exists (l, n). split; [done|].
    apply in_app_iff. right. by left.
Qed.

Lemma occupy_spec name ls : forall m errs,
  let '(m', errs') := occupy m errs ls name in
  (forall l, owner_of m' l = owner_of (m ++ map (fun l => (l, name)) ls) l)
  /\ (forall x, In x errs' <-> In x errs \/ exists pre l post n1,
        ls = pre ++ l :: post /\ owner_of (m ++ map (fun l => (l, name)) pre) l = Some n1
        /\ x = VSectorOveroccupied l n1 name).
Proof.
  induction ls as [|l ls IH]; intros m errs; cbn [occupy].
  - split; [intros l; by rewrite app_nil_r|]. intros x. split; [by left|].
    intros [?|(pre & l & post & n1 & H & _)]; [done|]. by destruct pre.
  - destruct (owner_of m l) as [n|] eqn:El.
    + specialize (IH m (errs ++ [VSectorOveroccupied l n name])).
      destruct (occupy m _ ls name) as [m' errs']. destruct IH as [IH1 IH2]. split.
      * intros l'. rewrite IH1. cbn [map]. rewrite !owner_of_app, owner_of_cons.
        destruct (owner_of m l') as [n'|] eqn:E'; [done|]. case_bool_decide as Hl; [|done]. subst l'. congruence.
      * assert (forall pre x', owner_of (m ++ map (fun l => (l, name)) (l :: pre)) x'
            = owner_of (m ++ map (fun l => (l, name)) pre) x') as Hskip.
        { intros pre x'. cbn [map]. rewrite !owner_of_app, owner_of_cons. destruct (owner_of m x') eqn:E'; [done|].
          case_bool_decide as Hl; [|done]. subst x'. congruence. }
        intros x. rewrite IH2, in_app_iff. split.
        -- intros [[H|[<-|[]]]|(pre & l' & post & n1 & -> & H & ->)].
           ++ by left.
           ++ right. exists [], l, ls, n. cbn [map]. rewrite app_nil_r. done.
           ++ right. exists (l :: pre), l', post, n1. by rewrite Hskip.
        -- intros [H|(pre & l' & post & n1 & Hls & H & ->)]; [by do 2 left|].
           destruct pre as [|p pre]; injection Hls as <- ->.
           ++ left. right. left. cbn [map] in H. rewrite app_nil_r in H. congruence.
           ++ right. exists pre, l', post, n1. by rewrite Hskip in H.
    + specialize (IH (m ++ [(l, name)]) errs).
      destruct (occupy _ errs ls name) as [m' errs']. destruct IH as [IH1 IH2]. split.
      * intros l'. rewrite IH1, <- app_assoc. done.
      * intros x. rewrite IH2. split.
        -- intros [H|(pre & l' & post & n1 & -> & H & ->)]; [by left|].
           right. exists (l :: pre), l', post, n1. rewrite <- app_assoc in H. done.
        -- intros [H|(pre & l' & post & n1 & Hls & H & ->)]; [by left|].
           destruct pre as [|p pre]; injection Hls as <- ->.
           ++ cbn [map] in H. rewrite app_nil_r in H. congruence.
           ++ right. exists pre, l', post, n1. rewrite <- app_assoc. done.
Qed.

(** A double claim among the file claims. *)
Definition doubly (base cs : list claim) (x : validation_error) : Prop :=
  exists pre l n2 post n1, cs = pre ++ (l, n2) :: post /\ owner_of (base ++ pre) l = Some n1
    /\ x = VSectorOveroccupied l n1 n2.

Lemma doubly_app base a b x : doubly base (a ++ b) x <-> doubly base a x \/ doubly (base ++ a) b x.
Proof.
  split.
  - intros (pre & l & n2 & post & n1 & H & Ho & ->).
    destruct (decide (length pre < length a)) as [Hlt|Hge].
    + left. exists pre, l, n2, (take (length a - S (length pre)) post), n1. split; [|done].
      assert (take (length a) (a ++ b) = take (length a) (pre ++ (l, n2) :: post)) as Ht by (by rewrite H).
      rewrite take_app, take_app_ge in Ht by lia. rewrite Ht at 1. f_equal.
      destruct (length a - length pre) as [|k] eqn:Ek; [lia|]. cbn. do 2 f_equal. lia.
    + right. exists (drop (length a) pre), l, n2, post, n1. split; [|split; [|done]].
      * assert (drop (length a) (a ++ b) = drop (length a) (pre ++ (l, n2) :: post)) as Hd by (by rewrite H).
        rewrite drop_app, drop_app_le in Hd by lia. done.
      * assert (pre = a ++ drop (length a) pre) as Hp.
        { rewrite <- (take_drop (length a) pre) at 1. f_equal.
          assert (take (length a) (a ++ b) = take (length a) (pre ++ (l, n2) :: post)) as Ht by (by rewrite H).
          rewrite take_app, take_app_le in Ht by lia. done. }
        rewrite <- app_assoc, <- Hp. done.
  - intros [(pre & l & n2 & post & n1 & -> & Ho & ->)|(pre & l & n2 & post & n1 & -> & Ho & ->)].
    + exists pre, l, n2, (post ++ b), n1. by rewrite <- app_assoc.
    + exists (a ++ pre), l, n2, post, n1. rewrite <- app_assoc in Ho. rewrite app_assoc. done.
Qed.

Lemma doubly_ext b1 b2 cs x : (forall l, owner_of b1 l = owner_of b2 l) -> doubly b1 cs x <-> doubly b2 cs x.
Proof.
  intros H. unfold doubly. split; intros (pre & l & n2 & post & n1 & H1 & H2 & H3); exists pre, l, n2, post, n1;
    (split; [done|]; split; [|done]); rewrite <- H2, !owner_of_app, H; done.
Qed.

Lemma doubly_map base name ls x :
  doubly base (map (fun l => (l, name)) ls) x <->
  exists pre l post n1, ls = pre ++ l :: post /\ owner_of (base ++ map (fun l => (l, name)) pre) l = Some n1
        /\ x = VSectorOveroccupied l n1 name.
Proof.
  split.
  - intros (pre & l & n2 & post & n1 & H & Ho & ->).
    apply map_eq_app in H as (a & b & -> & <- & Hb). destruct b as [|y b]; [done|]. injection Hb as -> <- <-.
    by exists a, l, b, n1.
  - intros (pre & l & post & n1 & -> & Ho & ->).
    exists (map (fun l => (l, name)) pre), l, name, (map (fun l => (l, name)) post), n1. by rewrite map_app.
Qed.

Lemma file_claims_cons w e es :
  file_claims w (e :: es)
  = match sectors_of w e with Ok ls => map (fun l => (l, de_name e)) ls | _ => [] end ++ file_claims w es.
Proof. done. Qed.

Lemma scan_spec w es : forall r m errs,
  match scan_entries w es r m errs with
  | Ok (m', errs') =>
      r = Ok tt /\ (forall e, In e es -> exists y, sectors_of w e = Ok y \/ exists k, sectors_of w e = Err k)
      /\ (forall l, owner_of m' l = owner_of (m ++ file_claims w es) l)
      /\ (forall x, In x errs' <-> In x errs \/ doubly m (file_claims w es) x
            \/ exists e k, In e es /\ sectors_of w e = Err k /\ x = VFileScanError k (de_name e))
  | _ => r <> Ok tt \/ exists e, In e es /\ (sectors_of w e = Panic \/ sectors_of w e = NoFuel)
  end.
Proof.
  induction es as [|e es IH]; intros r m errs; cbn [scan_entries].
  - destruct r as [[]|k| |]; cbn [rbind]; [|by left..]. split; [done|]. split; [done|].
    split; [intros l; by rewrite app_nil_r|]. intros x. split; [by left|].
    intros [?|[(pre & l & n2 & post & n1 & H & _)|(e & k & [] & _)]]; [done|]. by destruct pre.
  - change (scan_file w e) with (sectors_of w e). rewrite file_claims_cons.
    destruct (sectors_of w e) as [ls|k| |] eqn:Es; [| |by right; exists e; split; [left|left]|by right; exists e; split; [left|right]].
    + pose proof (occupy_spec (de_name e) ls m errs) as Ho.
      destruct (occupy m errs ls (de_name e)) as [m1 errs1]. destruct Ho as [Ho1 Ho2].
      specialize (IH r m1 errs1). destruct (scan_entries w es r m1 errs1) as [[m' errs']|k| |].
      * destruct IH as (Hr & Hscan & Hm & Hx). split; [done|]. split; [|split].
        -- intros e' [<-|He']; [exists ls; by left|by apply Hscan].
        -- intros l. rewrite Hm. rewrite app_assoc, (owner_of_app m1), (owner_of_app (m ++ _)), Ho1. done.
        -- intros x. rewrite Hx, Ho2, doubly_app, doubly_map.
           rewrite (doubly_ext m1 (m ++ map (fun l => (l, de_name e)) ls)) by done.
           split.
           ++ intros [[?|?]|[?|(e' & k & ? & ? & ->)]]; [by left|by right; left; left|by right; left; right|].
              right; right. exists e', k. split; [by right|done].
           ++ intros [?|[[?|?]|(e' & k & [<-|?] & ? & ->)]]; [by left; left|by left; right|by right; left|congruence|].
              right; right. by exists e', k.
      * destruct IH as [?|(e' & ? & ?)]; [by left|right; exists e'; split; [by right|done]].
      * destruct IH as [?|(e' & ? & ?)]; [by left|right; exists e'; split; [by right|done]].
      * destruct IH as [?|(e' & ? & ?)]; [by left|right; exists e'; split; [by right|done]].
    + specialize (IH r m (errs ++ [VFileScanError k (de_name e)])). cbn [app].
      destruct (scan_entries w es r m _) as [[m' errs']|k'| |].
      * destruct IH as (Hr & Hscan & Hm & Hx). split; [done|]. split; [|split; [done|]].
        -- intros e' [<-|He']; [exists []; right; by exists k|by apply Hscan].
        -- intros x. rewrite Hx, in_app_iff. split.
           ++ intros [[?|[<-|[]]]|[?|(e' & k' & ? & ? & ->)]]; [by left| |by right; left|].
              ** right; right. exists e, k. split; [by left|done].
              ** right; right. exists e', k'. split; [by right|done].
           ++ intros [?|[?|(e' & k' & [<-|?] & Hk & ->)]]; [by left; left|by right; left| |].
              ** left; right. left. congruence.
              ** right; right. by exists e', k'.
      * destruct IH as [?|(e' & ? & ?)]; [by left|right; exists e'; split; [by right|done]].
      * destruct IH as [?|(e' & ? & ?)]; [by left|right; exists e'; split; [by right|done]].
      * destruct IH as [?|(e' & ? & ?)]; [by left|right; exists e'; split; [by right|done]].
Qed.

Lemma bam_sectors_any t b want :
  fmt_of t (b_format b) -> length (b_entries b) = spec_tracks t ->
  bam_sectors want b = Ok (List.filter (fun l => Bool.eqb (freeb b l) want) (all_sectors t (spec_tracks t))).
Proof.
  intros Hf Hlen.
  unfold bam_sectors. rewrite (fmt_last t) by done. rewrite Hlen.
  rewrite Nat.ltb_irrefl. f_equal. unfold all_sectors.
  rewrite filter_concat, !map_map, <- seq_shift, map_map. f_equal. apply map_ext_in. intros i Hi%in_seq.
  pose proof (fmt_sectors t (b_format b) (S i) Hf ltac:(lia)) as Hs. unfold sectors_in_track in Hs.
  replace (i + 1) with (S i) by lia. rewrite Hs.
  assert (forall n s m, (forall k, N.testbit m (N.of_nat k) = freeb b (S i, s + k)) ->
    track_sectors want (S i) s n m
    = List.filter (fun l => Bool.eqb (freeb b l) want) (map (pair (S i)) (seq s n))) as H.
  { induction n as [|n IH]; intros s m Hm; [done|]. cbn [track_sectors seq map List.filter].
    rewrite (IH (S s)).
    - pose proof (Hm 0) as H0. rewrite Nat.add_0_r in H0. change (N.of_nat 0) with 0%N in H0. rewrite H0.
      by destruct (Bool.eqb (freeb b (S i, s)) want).
    - intros k. rewrite N.shiftr_spec'. replace (N.of_nat k + 1)%N with (N.of_nat (S k)) by lia.
      rewrite Hm. f_equal. f_equal. lia. }
  apply H. intros k. unfold freeb, track_entry. cbn [fst snd]. by replace (S i - 1) with i by lia.
Qed.

Lemma invert_spec t f ls l :
  fmt_of t f -> In l (invert_locations ls f) <-> bam_sector t l /\ ~ In l ls.
Proof.
  intros Hf. unfold invert_locations. rewrite filter_In, negb_true_iff, bool_decide_eq_false, elem_of_list_In.
  apply and_iff_compat_r. rewrite (fmt_first t), (fmt_last t) by done.
  rewrite <- (in_sectors t), elem_of_list_In. unfold all_sectors.
  assert (map (fun t0 => map (fun s => (t0, s)) (seq 0 (sectors (tracks f !!! t0)))) (range_incl 1 (spec_tracks t))
     = map (fun tr => map (pair tr) (seq 0 (spec_sectors t tr))) (seq 1 (spec_tracks t))) as ->; [|done].
  unfold range_incl. replace (S (spec_tracks t) - 1) with (spec_tracks t) by lia.
  apply map_ext_in. intros tr Htr%in_seq. 
  pose proof (fmt_sectors t f tr Hf ltac:(lia)) as Hs. unfold sectors_in_track in Hs. by rewrite Hs.
Qed.

Lemma system_sector_spec t g l :
  l ∈ system_locations (set_geos g (native_format t)) <-> system_sector t l.
Proof.
  change (system_locations (set_geos g (native_format t))) with (system_locations (native_format t)).
  rewrite system_locations_spec. unfold system_sector, sys, first_dir. apply and_iff_compat_l.
  destruct l as [a s]. cbn [fst snd]. split.
  - intros [[[-> H]|H]|[= -> ->]]; [left|by right|left]; (split; [done|]); destruct t; cbn in *; lia.
  - intros [[-> H]|H]; [|by left; right].
    destruct (decide (s = sys_sectors t)) as [->|Hne]; [by right|]. left; left. split; [done|].
    destruct t; cbn in *; lia.
Qed.

Lemma system_owner_eq : system_owner = dos_name.
Proof. vm_compute. reflexivity. Qed.

(** ** The report *)

(** The system's claims, as the code lists them. *)
Definition base_claims (t : disk_type) (dirs : list location) (h : header) : list claim :=
  map (fun l => (l, dos_name))
    (system_locations (native_format t) ++ dirs ++ match h_geos h with Some gh => [gh_border gh] | None => [] end).

Lemma base_claims_spec t dirs h : system_claims t dirs h (base_claims t dirs h).
Proof.
  intros l n. unfold base_claims. rewrite in_map_iff. split.
  - intros (l' & [= -> <-] & H). split; [done|]. rewrite !in_app_iff in H. destruct H as [H|[H|H]].
    + left. apply elem_of_list_In in H. by apply (system_sector_spec t false).
    + by right; left.
    + right; right. destruct (h_geos h) as [gh|]; [|done]. destruct H as [<-|[]]. by exists gh.
  - intros [-> H]. exists l. split; [done|]. rewrite !in_app_iff. destruct H as [H|[H|(gh & Hgh & ->)]].
    + left. apply elem_of_list_In. by apply (system_sector_spec t false) in H.
    + by right; left.
    + right; right. rewrite Hgh. by left.
Qed.

Lemma validate_report t w h b g errs :
  opened t w h b g -> validate w = Ok errs ->
  exists dirs es base, chain_locations (w_dev w) (first_dir t) = Ok dirs
    /\ w_iter w = (es, Ok tt) /\ system_claims t dirs h base
    /\ (forall e, In e es -> exists y, sectors_of w e = Ok y \/ exists k, sectors_of w e = Err k)
    /\ (forall l, In (VSystemSectorNotAllocated l) errs <-> system_sector t l /\ is_free b l)
    /\ (forall l, In (VSectorMisallocated l) errs <->
          bam_sector t l /\ ~ is_free b l /\ ~ claimed (base ++ file_claims w es) l)
    /\ (forall l n, In (VSectorMisoccupied l n) errs <->
          bam_sector t l /\ is_free b l /\ ~ system_sector t l /\ first_claim (base ++ file_claims w es) l n)
    /\ (forall l n1 n2, In (VSectorOveroccupied l n1 n2) errs <->
          exists pre post, file_claims w es = pre ++ (l, n2) :: post /\ first_claim (base ++ pre) l n1)
    /\ (forall k n, In (VFileScanError k n) errs <->
          exists e, In e es /\ de_name e = n /\ sectors_of w e = Err k).
Proof.
  intros [Hf Hh (c & Hc & Hcell) Hbf Hlen] Hv.
  assert (fmt_of t (set_geos g (native_format t))) as Hfo by (by exists g).
  assert (fmt_of t (b_format b)) as Hbfo by (rewrite Hbf; done).
  unfold validate, w_disk_format, w_get_bam, w_get_header, cell in Hv.
  rewrite Hf, Hc, Hh in Hv. cbn [rbind] in Hv. rewrite Hcell in Hv. cbn [rbind] in Hv.
  unfold allocated_sectors, free_sectors in Hv. rewrite !(bam_sectors_any t) in Hv by done. cbn [rbind] in Hv.
  change (directory_track (set_geos g (native_format t)), first_directory_sector (set_geos g (native_format t)))
    with (first_directory_location (native_format t)) in Hv.
  rewrite native_first_dir in Hv.
  destruct (chain_locations (w_dev w) (first_dir t)) as [dirs| | |] eqn:Edirs; [|done..]. cbn [rbind] in Hv.
  destruct (w_iter w) as [es r] eqn:Eit.
  rewrite system_owner_eq in Hv.
  fold (base_claims t dirs h) in Hv.
  change (map (fun l : location => (l, dos_name)) (system_locations (set_geos g (native_format t)) ++ dirs ++ match h_geos h with
                                        | Some gh => [gh_border gh]
                                        | None => []
                                        end)) with (base_claims t dirs h) in Hv.
  pose proof (scan_spec w es r (base_claims t dirs h) []) as Hs.
  destruct (scan_entries w es r (base_claims t dirs h) []) as [[m errs0]| | |]; [|done..].
  destruct Hs as (-> & Hscan & Hown & Herr). cbn [rbind] in Hv. apply Ok_inj in Hv. subst errs.
  exists dirs, es, (base_claims t dirs h). split; [done|]. split; [done|]. split; [apply base_claims_spec|]. split; [done|].
  assert (forall l, l ∈ map fst m <-> claimed (base_claims t dirs h ++ file_claims w es) l) as Hcl.
  { intros l. rewrite owner_of_fst, Hown. split; intros H.
    - destruct (owner_of _ l) as [n|] eqn:E; [|done]. apply owner_of_some in E. by apply first_claimed in E.
    - intros E. by apply owner_of_none in E. }
  assert (forall l, In l (all_sectors t (spec_tracks t)) <-> bam_sector t l) as Hin.
  { intros l. rewrite <- in_sectors, elem_of_list_In. done. }
  assert (forall l, system_sector t l -> bam_sector t l) as Hsb by (by intros l []).
  split; [|split; [|split; [|split]]].
  - intros l. rewrite !in_app_iff, Herr, !in_map_iff. split.
    + intros [[[]|[(?&?&?&?&?&_&_&?)|(?&?&_&_&?)]]|[H|[(?&?&_)|(?&?&_)]]]; try done.
      destruct H as (l' & [= ->] & H). apply filter_In in H as [H1 H2].
      rewrite <- elem_of_list_In, system_sector_spec in H1. split; [done|]. apply is_free_b.
      rewrite negb_true_iff, bool_decide_eq_false, elem_of_list_In, filter_In, Hin in H2.
      destruct (freeb b l) eqn:E; [done|]. destruct H2. split; [by apply Hsb|done].
    + intros [H1 H2%is_free_b]. right; left. exists l. split; [done|]. apply filter_In.
      rewrite <- elem_of_list_In, system_sector_spec. split; [done|].
      rewrite negb_true_iff, bool_decide_eq_false, elem_of_list_In, filter_In. rewrite H2. by intros [_ ?].
  - intros l. rewrite !in_app_iff, Herr, !in_map_iff. split.
    + intros [[[]|[(?&?&?&?&?&_&_&?)|(?&?&_&_&?)]]|[(?&?&_)|[H|(?&?&_)]]]; try done.
      destruct H as (l' & [= ->] & H). apply filter_In in H as [H1 H2].
      rewrite filter_In, Hin in H1. destruct H1 as [H1 H1'].
      rewrite bool_decide_eq_true, elem_of_list_In, (invert_spec t) in H2 by done.
      split; [done|]. split; [rewrite is_free_b; destruct (freeb b l); done|].
      rewrite <- Hcl, elem_of_list_In. apply H2.
    + intros (H1 & H2 & H3). right; right; left. exists l. split; [done|]. apply filter_In.
      rewrite filter_In, Hin. rewrite is_free_b in H2. split; [split; [done|by destruct (freeb b l)]|].
      rewrite bool_decide_eq_true, elem_of_list_In, (invert_spec t) by done. split; [done|].
      by rewrite <- elem_of_list_In, Hcl.
  - intros l n. rewrite !in_app_iff, Herr, !in_map_iff. rewrite <- owner_of_some, <- Hown. split.
    + intros [[[]|[(?&?&?&?&?&_&_&?)|(?&?&_&_&?)]]|[(?&?&_)|[(?&?&_)|H]]]; try done.
      destruct H as (l' & H0 & H). apply filter_In in H as [H1 H2].
      apply andb_prop in H2 as [H2 H3]. rewrite bool_decide_eq_true in H2.
      rewrite negb_true_iff, bool_decide_eq_false, system_sector_spec in H3.
      rewrite filter_In, Hin in H1. destruct H1 as [H1 H1'].
      apply owner_of_fst in H2. destruct (owner_of m l') as [n'|] eqn:En; [|done]. injection H0 as -> ->.
      split; [done|]. split; [apply is_free_b; by destruct (freeb b l)|]. by rewrite En.
    + intros (H1 & H2%is_free_b & H3 & H4). right; right; right. exists l. rewrite H4. split; [done|]. apply filter_In.
      rewrite filter_In, Hin, H2. split; [done|]. apply andb_true_intro. split.
      * apply bool_decide_eq_true, owner_of_fst. by rewrite H4.
      * by rewrite negb_true_iff, bool_decide_eq_false, system_sector_spec.
  - intros l n1 n2. rewrite !in_app_iff, Herr, !in_map_iff. split.
    + intros [[[]|[(pre&?&?&post&?&H1&H2&H3)|(?&?&_&_&?)]]|[(?&?&_)|[(?&?&_)|(?&?&_)]]]; try done.
      injection H3 as <- <- <-. exists pre, post. split; [done|]. by apply owner_of_some.
    + intros (pre & post & H1 & H2). left; right; left. exists pre, l, n2, post, n1. split; [done|]. split; [|done].
      by apply owner_of_some.
  - intros k n. rewrite !in_app_iff, Herr, !in_map_iff. split.
    + intros [[[]|[(?&?&?&?&?&_&_&?)|(e&k'&H1&H2&H3)]]|[(?&?&_)|[(?&?&_)|(?&?&_)]]]; try done.
      injection H3 as -> ->. by exists e.
    + intros (e & H1 & <- & H3). left; right; right. by exists e, k.
Qed.

(** When there is a report at all. *)
Lemma validate_outcome t w h b g :
  opened t w h b g ->
  (exists errs, validate w = Ok errs) <->
  (exists dirs, chain_locations (w_dev w) (first_dir t) = Ok dirs) /\ snd (w_iter w) = Ok tt
  /\ forall e, In e (fst (w_iter w)) -> sectors_of w e <> Panic /\ sectors_of w e <> NoFuel.
Proof.
  intros Ho. split.
  - intros [errs Hv]. destruct (validate_report _ _ _ _ _ _ Ho Hv) as (dirs & es & base & H1 & H2 & _ & H3 & _).
    split; [by exists dirs|]. rewrite H2. split; [done|]. cbn [fst]. intros e He.
    destruct (H3 e He) as [y [-> | [k ->]]]; done.
  - destruct Ho as [Hf Hh (c & Hc & Hcell) Hbf Hlen]. intros ([dirs Hd] & Hr & Hs).
    assert (fmt_of t (b_format b)) as Hbfo by (rewrite Hbf; by exists g).
    unfold validate, w_disk_format, w_get_bam, w_get_header, cell.
    rewrite Hf, Hc, Hh. cbn [rbind]. rewrite Hcell. cbn [rbind].
    unfold allocated_sectors, free_sectors. rewrite !(bam_sectors_any t) by done. cbn [rbind].
    change (directory_track (set_geos g (native_format t)), first_directory_sector (set_geos g (native_format t)))
      with (first_directory_location (native_format t)).
    rewrite native_first_dir, Hd. cbn [rbind].
    destruct (w_iter w) as [es r]. cbn [fst snd] in *. subst r.
    match goal with |- context [scan_entries w es (Ok tt) ?m []] => pose proof (scan_spec w es (Ok tt) m []) as Hsc;
      destruct (scan_entries w es (Ok tt) m []) as [[m' errs']| | |] end.
    + cbn [rbind]. by eexists.
    + destruct Hsc as [?|(e1 & He1 & ?)]; [done|]. destruct (Hs e1 He1). tauto.
    + destruct Hsc as [?|(e1 & He1 & ?)]; [done|]. destruct (Hs e1 He1). tauto.
    + destruct Hsc as [?|(e1 & He1 & ?)]; [done|]. destruct (Hs e1 He1). tauto.
Qed.

Lemma claimed_app a b l : claimed (a ++ b) l <-> claimed a l \/ claimed b l.
Proof.
  unfold claimed. split.
  - intros [n [H|H]%in_app_iff]; [left|right]; by exists n.
  - intros [[n H]|[n H]]; exists n; apply in_app_iff; tauto.
Qed.

Lemma claimed_fst cs l : claimed cs l <-> In l (map fst cs).
Proof.
  rewrite in_map_iff. split.
  - intros [n H]. by exists (l, n).
  - intros ([l' n] & <- & H). by exists n.
Qed.

Lemma claimed_first cs l : claimed cs l -> exists n, first_claim cs l n.
Proof.
  intros H. destruct (owner_of cs l) as [n|] eqn:E.
  - exists n. by apply owner_of_some.
  - by apply owner_of_none in E.
Qed.

(** An empty report. *)
Lemma validate_clean t w h b g :
  opened t w h b g ->
  validate w = Ok [] <->
  exists dirs es base, chain_locations (w_dev w) (first_dir t) = Ok dirs
    /\ w_iter w = (es, Ok tt) /\ system_claims t dirs h base
    /\ (forall e, In e es -> exists ls, sectors_of w e = Ok ls)
    /\ NoDup (map fst (file_claims w es))
    /\ (forall l, claimed base l -> claimed (file_claims w es) l -> False)
    /\ (forall l, bam_sector t l -> is_free b l <-> ~ claimed base l /\ ~ claimed (file_claims w es) l).
Proof.
  intros Ho. split.
  - intros Hv. destruct (validate_report _ _ _ _ _ _ Ho Hv) as (dirs & es & base & H1 & H2 & H3 & H4 & Rs & Rm & Ro & Rv & Rf).
    exists dirs, es, base. split; [done|]. split; [done|]. split; [done|]. split; [|split; [|split]].
    + intros e He. destruct (H4 e He) as [y [Hy|[k Hk]]]; [by exists y|]. 
      destruct (proj2 (Rf k (de_name e))); [by exists e|..].
    + assert (forall pre l n post, file_claims w es = pre ++ (l, n) :: post -> ~ claimed pre l) as H.
      { intros pre l n post Heq Hcl.
        destruct (claimed_first (base ++ pre) l) as [n1 Hn1]; [apply claimed_app; by right|].
        destruct (proj2 (Rv l n1 n)). by exists pre, post. }
      clear -H. induction (file_claims w es) as [|[l n] cs IH] using rev_ind; [apply NoDup_nil_2|].
      rewrite map_app. cbn [map fst]. apply NoDup_app. split; [apply IH|split].
      * intros pre l' n' post ->. apply (H pre l' n' (post ++ [(l, n)])). by rewrite <- app_assoc.
      * intros x Hx ->%elem_of_list_singleton. apply (H cs l n []); [done|]. by rewrite claimed_fst, <- elem_of_list_In.
      * apply NoDup_singleton.
    + intros l Hb [n Hf]. apply in_split in Hf as (pre & post & Heq).
      destruct (claimed_first (base ++ pre) l) as [n1 Hn1]; [apply claimed_app; by left|].
      destruct (proj2 (Rv l n1 n)). by exists pre, post.
    + intros l Hl. split.
      * intros Hfree. cut (~ claimed (base ++ file_claims w es) l); [rewrite claimed_app; tauto|]. intros Hc.
        assert (~ system_sector t l) as Hns.
        { intros Hsys. by destruct (proj2 (Rs l)). }
        apply claimed_first in Hc as [n Hn]. by destruct (proj2 (Ro l n)).
      * intros Hc. destruct (freeb b l) eqn:E; [by apply is_free_b|].
        destruct (proj2 (Rm l)). split; [done|]. rewrite is_free_b, E, claimed_app. split; [done|]. tauto.
  - intros (dirs & es & base & H1 & H2 & H3 & H4 & H5 & H6 & H7).
    assert (exists errs, validate w = Ok errs) as [errs Hv].
    { apply (validate_outcome t w h b g Ho). split; [by exists dirs|]. rewrite H2. split; [done|]. cbn [fst].
      intros e He. destruct (H4 e He) as [ls ->]. done. }
    rewrite Hv. f_equal.
    destruct (validate_report _ _ _ _ _ _ Ho Hv) as (dirs' & es' & base' & H1' & H2' & H3' & _ & Rs & Rm & Ro & Rv & Rf).
    rewrite H1 in H1'. apply Ok_inj in H1'. subst dirs'. rewrite H2 in H2'. injection H2' as <-.
    assert (forall l n, In (l, n) base' <-> In (l, n) base) as Hbb.
    { intros l n. by rewrite (H3' l n), (H3 l n). }
    assert (forall l, claimed base' l <-> claimed base l) as Hbb'.
    { intros l. unfold claimed. split; intros [n Hn]; exists n; by apply Hbb. }
    apply elem_of_nil_inv. intros x Hx%elem_of_list_In. destruct x as [l|l|l n|l n1 n2|k n].
    + apply Rs in Hx as [Hs Hf]. apply H7 in Hf as [Hf _]; [|by destruct Hs]. apply Hf. exists dos_name. apply H3. 
      split; [done|]. by left.
    + apply Rm in Hx as (Hl & Hf & Hc). apply Hf, H7; [done|]. rewrite claimed_app, Hbb' in Hc. tauto.
    + apply Ro in Hx as (Hl & Hf & _ & Hc). apply first_claimed in Hc. rewrite claimed_app, Hbb' in Hc.
      apply H7 in Hf; [|done]. tauto.
    + apply Rv in Hx as (pre & post & Heq & Hc). apply first_claimed in Hc. rewrite claimed_app, Hbb' in Hc.
      rewrite Heq in H5, H6. destruct Hc as [Hc|Hc].
      * apply (H6 l Hc). apply claimed_app. right. exists n2. by left.
      * rewrite map_app in H5. apply NoDup_app in H5 as (_ & H5 & _). apply (H5 l).
        -- by rewrite elem_of_list_In, <- claimed_fst.
        -- cbn [map fst]. by left.
    + apply Rf in Hx as (e & He & _ & Hk). destruct (H4 e He) as [ls Hls]. congruence.
Qed.

(** ** A disk with files *)

Lemma loc_insert_perm x l : loc_insert x l ≡ₚ x :: l.
Proof.
  induction l as [|y l IH]; [done|]. cbn [loc_insert]. destruct (loc_le x y); [done|]. rewrite IH. apply Permutation_swap.
Qed.

Lemma loc_sort_perm l : loc_sort l ≡ₚ l.
Proof. induction l as [|x l IH]; [done|]. cbn. rewrite loc_insert_perm. by constructor. Qed.

Lemma loc_dedup_nodup l : NoDup l -> loc_dedup l = l.
Proof.
  induction l as [|x l IH]; [done|]. intros [Hx Hl]%NoDup_cons. cbn [loc_dedup]. destruct l as [|y l]; [done|].
  rewrite decide_False by (intros ->; apply Hx; by left). by rewrite IH.
Qed.

Lemma occupied_perm l : NoDup l -> loc_dedup (loc_sort l) ≡ₚ l.
Proof. intros H. rewrite loc_dedup_nodup; [apply loc_sort_perm|]. by rewrite loc_sort_perm. Qed.

Lemma files_used_seq slots :
  files_used slots = concat (map (fun i => chain_of (mjoin (slots !! i))) (seq 0 (length slots))).
Proof.
  unfold files_used. f_equal. induction slots as [|o slots IH]; [done|].
  cbn [length seq map]. destruct o; cbn [map chain_of mjoin option_join lookup list_lookup]; f_equal; rewrite <- seq_shift, map_map; exact IH.
Qed.

Section view.
  Context (t : disk_type).

  Lemma slot_order_perm d m : view t d m -> slot_order m ≡ₚ seq 0 (length (md_slots m)).
  Proof.
    intros V. rewrite (v_slots _ _ _ V), secs_length, Nat.mul_add_distr_l, seq_app. apply Permutation_app_comm.
  Qed.

  Lemma wok_opened w m c b ex : wok t w m c b ex -> opened t w (md_header m) b (is_geos m).
  Proof.
    intros H. split; try apply H. exists c. split; apply H.
  Qed.

  Lemma view_sectors_of w m c b ex i f :
    wok t w m c b ex -> slot_at m i = Some f ->
    exists ls, sectors_of w (entry_at m i f) = Ok ls /\ ls ≡ₚ mf_chain f.
  Proof.
    intros H Hi. pose proof (wo_view _ _ _ _ _ _ H) as V.
    unfold sectors_of, open_file_from_entry, w_get_bam. rewrite (wo_bam _ _ _ _ _ _ H). cbn [rbind].
    apply slot_at_Some in Hi. destruct (mf_special f) as [x|] eqn:Hk.
    - destruct (v_files _ _ _ V i f Hi) as (_ & _ & Hc).
      destruct (contents_opens t (w_dev w) m i f c x (v_shape _ _ _ V) Hc Hk) as (y & Hy & Ho & _).
      unfold file_at in Hy. rewrite Hy. cbn [rbind]. by exists (mf_chain f).
    - cbn [de_scheme entry_at]. unfold mf_scheme. rewrite Hk. cbn [rbind file_occupied de_first entry_at].
      unfold mf_first. rewrite Hk.
      rewrite ((locations_sound t _ _ _ (v_shape _ _ _ V) (view_file_sound t _ m V i f Hi Hk))). cbn [rbind].
      eexists. split; [done|]. apply occupied_perm. by eapply view_chain_nodup.
  Qed.

  Lemma view_claims w m c b ex :
    wok t w m c b ex ->
    (forall e, In e (m_entries m) -> exists ls, sectors_of w e = Ok ls)
    /\ map fst (file_claims w (m_entries m)) ≡ₚ files_used (md_slots m).
  Proof.
    intros H. pose proof (wo_view _ _ _ _ _ _ H) as V. split.
    - intros e He. apply (in_entries _ _ _ _ V) in He as (i & f & Hi & ->).
      destruct (view_sectors_of _ _ _ _ _ _ _ H Hi) as (ls & Hls & _). by exists ls.
    - rewrite files_used_seq. unfold m_entries. change (fun i => chain_of (mjoin (md_slots m !! i))) with (fun i => chain_of (slot_at m i)).
      rewrite <- (slot_order_perm _ _ V).
      induction (slot_order m) as [|i is IH]; [done|]. cbn [map concat].
      unfold file_claims in *. rewrite map_app, concat_app, map_app, IH. apply Permutation_app_tail.
      unfold slot_entry. destruct (slot_at m i) as [f|] eqn:Hi; [|done].
      destruct (view_sectors_of _ _ _ _ _ _ _ H Hi) as (ls & Hls & Hp). cbn [map concat]. rewrite Hls, app_nil_r, map_map. cbn [fst].
      by rewrite map_id.
  Qed.

  Lemma validate_view w m c b : wok t w m c b [] -> validate w = Ok [].
  Proof.
    intros H. pose proof (wo_view _ _ _ _ _ _ H) as V. destruct (view_claims _ _ _ _ _ H) as [Hs Hp].
    apply (validate_clean t w (md_header m) b (is_geos m) (wok_opened _ _ _ _ _ H)).
    exists (md_dir m), (m_entries m), (base_claims t (md_dir m) (md_header m)).
    assert (forall l, claimed (base_claims t (md_dir m) (md_header m)) l <-> system_sector t l \/ l ∈ md_secs m) as Hb.
    { intros l. split.
      - intros [n Hn]. apply base_claims_spec in Hn as [_ Hn]. unfold md_secs, border. rewrite elem_of_app, !elem_of_list_In.
        destruct Hn as [?|[?|(gh & Hgh & ->)]]; [tauto..|]. rewrite Hgh. right. left. by left.
      - intros Hl. exists dos_name. apply base_claims_spec. split; [done|]. unfold md_secs, border in Hl. rewrite elem_of_app, !elem_of_list_In in Hl.
        destruct Hl as [?|[Hl|?]]; [tauto| |tauto]. destruct (h_geos (md_header m)) as [gh|]; [|done]. destruct Hl as [<-|[]].
        right. right. by exists gh. }
    assert (forall l, claimed (file_claims w (m_entries m)) l <-> l ∈ files_used (md_slots m)) as Hf.
    { intros l. by rewrite claimed_fst, <- elem_of_list_In, Hp. }
    assert (forall l, system_sector t l <-> bam_sector t l /\ (sys t l \/ l = first_dir t)) as Hsys.
    { intros l. by rewrite <- (system_sector_spec t false), <- system_locations_spec. }
    assert (first_dir t ∈ md_secs m) as Hfd.
    { apply dir_secs, elem_of_list_In. pose proof (v_head _ _ _ V) as Hh. destruct (md_dir m); [done|]. injection Hh as ->. by left. }
    split; [|split; [|split; [apply base_claims_spec|split; [done|split; [|split]]]]].
    - apply (locations_sound t _ _ _ (v_shape _ _ _ V) (view_dir_sound t _ m V)).
    - apply (iter_view t (w_dev w) m V); [done|apply H..].
    - rewrite Hp. apply (files_nodup t (w_dev w) m V).
    - intros l Hl Hl'. rewrite Hf in Hl'. apply Hb in Hl. 
      destruct (files_data t _ m V l Hl') as (H1 & H2 & H3).
      assert (l ∉ md_secs m) as Hnd.
      { pose proof (v_nodup _ _ _ V) as Hn. apply NoDup_app in Hn as (_ & Hn & _). intros Hd. by apply (Hn l). }
      destruct Hl as [Hl|Hl]; [|done]. apply Hsys in Hl as [_ [Hl | ->]]; done.
    - intros l Hl. rewrite is_free_b, (bo_free _ _ _ _ (wo_alloc _ _ _ _ _ _ H)) by done. rewrite Hb, Hf, Hsys.
      unfold used. rewrite elem_of_app. split.
      + intros (H1 & H2 & _). split; [|tauto]. intros [[_ [?|Hx]]|?]; [done| |tauto]. subst l. tauto.
      + intros [H1 H2]. split; [tauto|]. split; [tauto|]. apply not_elem_of_nil.
  Qed.
End view.
