(** Proofs about dumps. *)
From Coq Require Import Ascii String.
From Verif Require Import Base ListFacts Layout Block Bam Format Petscii Sprite Hexdump GeosTypes DirEntry Header World Chain Directory Writer Rel
  GeosFile File Validate Cdisk Text Spec SpecText SpecFiles SpecOutput DevFacts GeomFacts FlatProofs Opening OpenSound ToolProofs TextProofs OutputProofs ListingProofs.
Local Open Scope list_scope.

(** ** Hex dumps of one block *)
Lemma hex_row_length p o row row' : length row = length row' -> length (hex_row p o row) = length (hex_row p o row').
Proof.
  intros H. unfold hex_row. rewrite !app_length, !map_length, H. do 4 f_equal.
  assert (forall r : list nat, length (concat (map (fun b => hex2 b ++ [32]) r)) = 3 * length r) as E.
  { induction r as [|b r IH]; [done|]. cbn [map concat]. rewrite app_length, IH. cbn. lia. }
  by rewrite !E, H.
Qed.
Lemma hexdump_loop_length fuel p : forall o b b', length b = length b' -> length (hexdump_loop fuel p o b) = length (hexdump_loop fuel p o b').
Proof.
  induction fuel as [|fuel IH]; intros o b b' H; [done|]. cbn [hexdump_loop].
  destruct b as [|x b], b' as [|x' b']; try discriminate H; [done|]. rewrite !app_length, H. f_equal.
  - apply hex_row_length. rewrite !take_length. by rewrite H.
  - f_equal. apply IH. rewrite !drop_length. by rewrite H.
Qed.
Lemma hexdump_length p b b' : length b = length b' -> length (hexdump p b) = length (hexdump p b').
Proof.
  intros H. unfold hexdump. destruct b as [|x b], b' as [|x' b']; try discriminate H; [done|]. rewrite H. by apply hexdump_loop_length.
Qed.
Lemma hexdump_inj b b' : Forall is_byte b -> Forall is_byte b' -> hexdump [] b = hexdump [] b' -> b = b'.
Proof.
  intros H H' E. pose proof (hexdump_faithful [] b ltac:(by intros []) H) as F. rewrite E, hexdump_faithful in F by (done || by intros []).
  by injection F.
Qed.
Lemma of_nat_inj (l l' : list nat) : List.map N.of_nat l = List.map N.of_nat l' -> l = l'.
Proof. apply (fmap_inj N.of_nat). intros x y. apply Nat2N.inj. Qed.

(** ** Sectors *)
Definition sector_text (l : location) (b : list nat) : list N :=
  [10%N] ++ (str "track " ++ zero_padded 2 (dec (fst l)) ++ str " sector " ++ zero_padded 2 (dec (snd l)) ++ [10%N])
  ++ List.map N.of_nat (hexdump [] b) ++ [10%N].
Definition content (d : dev) (l : location) : list nat := match sector d l with Ok b => b | _ => [] end.

Lemma sector_text_inj l b b' r r' : length b = length b' -> Forall is_byte b -> Forall is_byte b' ->
  sector_text l b ++ r = sector_text l b' ++ r' -> b = b' /\ r = r'.
Proof.
  intros Hl Hb Hb' H. unfold sector_text in H. rewrite <- !(app_assoc [10%N]) in H. apply app_inv_head in H. rewrite <- !app_assoc in H. do 5 apply app_inv_head in H.
  apply app_inj_1 in H as [H1 H]; [|rewrite !map_length; by apply hexdump_length].
  apply app_inv_head in H. split; [|done]. apply hexdump_inj; [done..|]. by apply of_nat_inj.
Qed.
Lemma sectors_inj ls : forall (c c' : location -> list nat) r r',
  (forall l, In l ls -> length (c l) = 256 /\ Forall is_byte (c l)) -> (forall l, In l ls -> length (c' l) = 256 /\ Forall is_byte (c' l)) ->
  List.concat (List.map (fun l => sector_text l (c l)) ls) ++ r = List.concat (List.map (fun l => sector_text l (c' l)) ls) ++ r' ->
  (forall l, In l ls -> c l = c' l) /\ r = r'.
Proof.
  induction ls as [|l ls IH]; intros c c' r r' Hc Hc' H; [by split|]. cbn [List.map List.concat] in H. rewrite <- !app_assoc in H.
  destruct (Hc l (or_introl eq_refl)) as [Hl Hb]. destruct (Hc' l (or_introl eq_refl)) as [Hl' Hb'].
  apply sector_text_inj in H as [H1 H]; [|congruence|done..].
  apply IH in H as [H2 H3]; [|intros y Hy; apply Hc; by right|intros y Hy; apply Hc'; by right].
  split; [|done]. intros y [<-|Hy]; [done|by apply H2].
Qed.

(** ** The error table *)
Definition error_row (d : dev) (k : nat) : list N :=
  str "track " ++ zero_padded 2 (dec k) ++ str ": "
  ++ List.concat (List.map (fun i => hex02 (d_etable d !!! i) ++ str " ")
       (seq (sector_offset (g_layouts (d_geom d) !!! k)) (sectors (g_layouts (d_geom d) !!! k)))) ++ [10%N].
Definition error_text (d : dev) : list N :=
  if g_errors (d_geom d) then
    [10%N] ++ str "Error table:" ++ [10%N] ++ List.concat (List.map (error_row d) (seq 1 (g_tracks (d_geom d))))
  else [].

Lemma cells_text d is out : (forall i, In i is -> i < length (d_etable d)) ->
  for_each (fun i => match d_etable d !! i with Some x => print (hex02 x ++ str " ") | None => panic end) is out
  = (out ++ List.concat (List.map (fun i => hex02 (d_etable d !!! i) ++ str " ") is), Ok tt).
Proof.
  intros H. apply (for_each_print _ (fun i => hex02 (d_etable d !!! i) ++ str " ")). intros i Hi out'.
  destruct (lookup_lt_is_Some_2 (d_etable d) i) as [x Hx]; [by apply H|]. rewrite Hx. by rewrite (list_lookup_total_correct _ _ _ Hx).
Qed.

Lemma error_rows t d : dev_shape t d -> g_errors (d_geom d) = true -> forall n k out, 1 <= k -> k + n = S (g_tracks (d_geom d)) ->
  dump_errors d (sector_offset (g_layouts (d_geom d) !!! k)) (seq k n) out = (out ++ List.concat (List.map (error_row d) (seq k n)), Ok tt).
Proof.
  intros Hd He. pose proof (allowed_geom_ok _ _ (ds_geom _ _ Hd)) as Hok. induction n as [|n IH]; intros k out Hk Hn; cbn [seq dump_errors].
  - cbn. by rewrite app_nil_r.
  - cbn zeta. rewrite bind_print. unfold sbind at 1. rewrite cells_text.
    2: { intros i Hi%in_seq. rewrite (ds_etable _ _ Hd), He. unfold sector_count.
         destruct (sector_offset_mono (d_geom d) Hok k (g_tracks (d_geom d))) as [E|?]; [lia..|rewrite <- E; lia|lia]. }
    rewrite bind_println. cbn [List.map List.concat].
    destruct (Nat.eq_dec n 0) as [->|Hn0].
    + cbn [seq dump_errors List.map List.concat]. unfold ret, error_row. by rewrite app_nil_r, <- !app_assoc.
    + rewrite <- (go_next _ Hok) by lia. rewrite IH by lia. unfold error_row at 2. by rewrite <- !app_assoc.
Qed.

Lemma cells_inj (a b : list nat) is r r' : (forall i, In i is -> a !!! i < 256 /\ b !!! i < 256) ->
  List.concat (List.map (fun i => hex02 (a !!! i) ++ str " ") is) ++ r = List.concat (List.map (fun i => hex02 (b !!! i) ++ str " ") is) ++ r' ->
  (forall i, In i is -> a !!! i = b !!! i) /\ r = r'.
Proof.
  induction is as [|i is IH]; intros Hb H; [by split|]. cbn [List.map List.concat] in H. rewrite <- !app_assoc in H.
  apply app_inj_1 in H as [H1 H]; [|done]. apply app_inv_head in H. destruct (Hb i (or_introl eq_refl)) as [Ha Hb'].
  apply hex02_inj in H1; [|done..]. apply IH in H as [H2 ->]; [|intros j Hj; apply Hb; by right]. split; [|done]. intros j [<-|Hj]; [done|by apply H2].
Qed.
Lemma rows_inj d d' ks r r' : d_geom d = d_geom d' -> (forall i, d_etable d !!! i < 256 /\ d_etable d' !!! i < 256) ->
  List.concat (List.map (error_row d) ks) ++ r = List.concat (List.map (error_row d') ks) ++ r' ->
  forall k i, In k ks -> In i (seq (sector_offset (g_layouts (d_geom d) !!! k)) (sectors (g_layouts (d_geom d) !!! k))) -> d_etable d !!! i = d_etable d' !!! i.
Proof.
  intros Hg Hb. induction ks as [|k ks IH]; intros H k' i Hk Hi; [done|]. cbn [List.map List.concat] in H. unfold error_row at 1 3 in H.
  rewrite <- Hg in H. rewrite <- !app_assoc in H. do 3 apply app_inv_head in H. apply cells_inj in H as [H1 H]; [|intros; apply Hb].
  apply app_inv_head in H. destruct Hk as [<-|Hk]; [by apply H1|]. by eapply IH.
Qed.

(** ** The whole dump *)
Theorem dump_text t d : dev_shape t d ->
  dump_dev d [] = (List.concat (List.map (fun l => sector_text l (content d l)) (all_sectors t (g_tracks (d_geom d)))) ++ error_text d, Ok tt).
Proof.
  intros Hd. unfold dump_dev. rewrite (geometry_iterator t) by (apply Hd || rewrite (ds_count _ _ Hd); done).
  unfold sbind at 1. rewrite (for_each_print _ (fun l => sector_text l (content d l))).
  2: { intros l Hl out. assert (valid_loc (d_geom d) l = true) as Hv.
       { apply (valid_loc_on_disk t); [apply Hd|]. unfold all_sectors in Hl. apply in_concat in Hl as (x & Hx & Hl). apply in_map_iff in Hx as (tr & <- & Htr%in_seq).
         apply in_map_iff in Hl as (s & <- & Hs%in_seq). split; cbn [fst snd]; lia. }
       apply (sector_Ok_iff t) in Hv as [b Hb]; [|done]. unfold content. rewrite Hb. rewrite !bind_println. rewrite bind_lift. unfold println_hex. rewrite println_eq.
       unfold sector_text. by rewrite <- !app_assoc. }
  unfold error_text. destruct (g_errors (d_geom d)) eqn:He; [|by rewrite app_nil_r].
  rewrite !bind_println. pose proof (allowed_geom_ok _ _ (ds_geom _ _ Hd)) as Hok.
  unfold range_incl. cbn [Nat.sub]. rewrite Nat.sub_0_r.
  pose proof (fun out => error_rows t d Hd He (g_tracks (d_geom d)) 1 out ltac:(lia) ltac:(lia)) as E. rewrite (go_zero _ Hok) in E. rewrite E.
  f_equal. by rewrite <- !app_assoc.
Qed.

Lemma content_ok t d l : dev_shape t d -> holds_bytes d -> In l (all_sectors t (g_tracks (d_geom d))) -> length (content d l) = 256 /\ Forall is_byte (content d l).
Proof.
  intros Hd Hb Hl. unfold content. destruct (sector_cases t d l Hd) as [(b & E & Hlen & _)|[E Hv]]; rewrite E.
  - split; [done|]. by eapply sector_bytes.
  - exfalso. assert (valid_loc (d_geom d) l = true) as Hv'; [|congruence]. apply (valid_loc_on_disk t); [apply Hd|]. unfold all_sectors in Hl.
    apply in_concat in Hl as (x & Hx & Hl). apply in_map_iff in Hx as (tr & <- & Htr%in_seq). apply in_map_iff in Hl as (s & <- & Hs%in_seq). split; cbn [fst snd]; lia.
Qed.
Lemma all_sectors_prefix t n m : n < m -> exists rest, all_sectors t m = all_sectors t n ++ rest /\ (0 < spec_sectors t (S n) -> exists l ls, rest = l :: ls).
Proof.
  intros H. exists (concat (map (fun tr => map (pair tr) (seq 0 (spec_sectors t tr))) (seq (S n) (m - n)))). split.
  - unfold all_sectors. replace m with (n + (m - n)) at 1 by lia. by rewrite seq_app, map_app, concat_app.
  - intros Hp. replace (m - n) with (S (m - n - 1)) by lia. cbn [seq map concat]. destruct (spec_sectors t (S n)); [lia|]. cbn. eauto.
Qed.

Lemma dump_tracks t d d' : dev_shape t d -> dev_shape t d' -> holds_bytes d -> holds_bytes d' ->
  dump_dev d [] = dump_dev d' [] -> g_tracks (d_geom d) < g_tracks (d_geom d') -> False.
Proof.
  intros Hd Hd' Hb Hb' H Hlt. rewrite (dump_text t), (dump_text t) in H by done.
  destruct (all_sectors_prefix t _ _ Hlt) as (rest & E & Hrest).
  destruct Hrest as (l & ls & ->).
  { pose proof (allowed_geom_ok _ _ (ds_geom _ _ Hd')) as Hok. rewrite <- (allowed_sectors t (d_geom d')) by (apply Hd' || lia). apply Hok. lia. }
  injection H as H. rewrite E in H. rewrite map_app, concat_app, <- app_assoc in H. apply sectors_inj in H as [_ H].
  2: { intros y Hy. by apply (content_ok t). }
  2: { intros y Hy. apply (content_ok t); [done..|]. rewrite E. apply in_or_app. by left. }
  unfold error_text in H. cbn [List.map List.concat] in H. unfold sector_text in H. by destruct (g_errors (d_geom d)).
Qed.

Theorem dump_faithful t d d' : dev_shape t d -> dev_shape t d' -> holds_bytes d -> holds_bytes d' ->
  Forall is_byte (d_etable d) -> Forall is_byte (d_etable d') -> dump_dev d [] = dump_dev d' [] ->
  d_geom d = d_geom d' /\ d_blocks d = d_blocks d' /\ d_etable d = d_etable d'.
Proof.
  intros Hd Hd' Hb Hb' He He' H.
  assert (g_tracks (d_geom d) = g_tracks (d_geom d')) as Ht.
  { destruct (Nat.lt_trichotomy (g_tracks (d_geom d)) (g_tracks (d_geom d'))) as [Hlt|[E|Hlt]]; [|done|]; exfalso.
    - exact (dump_tracks t d d' Hd Hd' Hb Hb' H Hlt).
    - symmetry in H. exact (dump_tracks t d' d Hd' Hd Hb' Hb H Hlt). }
  rewrite (dump_text t d Hd), (dump_text t d' Hd') in H. injection H as H. rewrite <- Ht in H. apply sectors_inj in H as [H1 H2].
  2: { intros y Hy. by apply (content_ok t). }
  2: { intros y Hy. apply (content_ok t); [done..|]. by rewrite <- Ht. }
  assert (g_errors (d_geom d) = g_errors (d_geom d')) as Hge.
  { unfold error_text in H2. by destruct (g_errors (d_geom d)), (g_errors (d_geom d')). }
  assert (d_geom d = d_geom d') as Hg.
  { pose proof (ds_geom _ _ Hd) as G. pose proof (ds_geom _ _ Hd') as G'. revert Ht Hge G G'. clear. generalize (d_geom d), (d_geom d'). intros g g' Ht Hge G G'.
    destruct t; cbn [allowed_geometries In] in G, G'.
    1: destruct G as [<-|[<-|[<-|[<-|[]]]]]; destruct G' as [<-|[<-|[<-|[<-|[]]]]]; first [reflexivity|discriminate Ht|discriminate Hge].
    all: destruct G as [<-|[<-|[]]]; destruct G' as [<-|[<-|[]]]; first [reflexivity|discriminate Ht|discriminate Hge]. }
  assert (d_etable d = d_etable d') as Het.
  { pose proof (ds_etable _ _ Hd) as L. pose proof (ds_etable _ _ Hd') as L'. rewrite <- Hg in L'.
    destruct (g_errors (d_geom d)) eqn:Ee; [|apply nil_length_inv in L, L'; congruence].
    unfold error_text in H2. rewrite Ee, <- Hge, <- Hg in H2. do 3 apply app_inv_head in H2.
    rewrite <- (app_nil_r (List.concat (List.map (error_row d) _))), <- (app_nil_r (List.concat (List.map (error_row d') _))) in H2.
    assert (forall x i, Forall is_byte x -> x !!! i < 256) as Hby.
    { intros x i Hx. rewrite list_lookup_total_alt. destruct (x !! i) eqn:E; [|cbn; lia]. rewrite Forall_lookup in Hx. exact (Hx _ _ E). }
    pose proof (rows_inj d d' _ _ _ Hg (fun i => conj (Hby _ i He) (Hby _ i He')) H2) as Hr.
    pose proof (allowed_geom_ok _ _ (ds_geom _ _ Hd)) as Hok.
    assert (forall i, i < sector_count (d_geom d) -> d_etable d !!! i = d_etable d' !!! i) as Hi.
    { intros i Hi. assert (exists k, 1 <= k <= g_tracks (d_geom d) /\ sector_offset (g_layouts (d_geom d) !!! k) <= i
        < sector_offset (g_layouts (d_geom d) !!! k) + sectors (g_layouts (d_geom d) !!! k)) as (k & Hk & Hik).
      { unfold sector_count in Hi. pose proof (go_pos _ Hok) as Hp.
        assert (forall n, 1 <= n <= g_tracks (d_geom d) -> i < sector_offset (g_layouts (d_geom d) !!! n) + sectors (g_layouts (d_geom d) !!! n) ->
          exists k, 1 <= k <= g_tracks (d_geom d) /\ sector_offset (g_layouts (d_geom d) !!! k) <= i
            < sector_offset (g_layouts (d_geom d) !!! k) + sectors (g_layouts (d_geom d) !!! k)) as Hfind; [|apply (Hfind (g_tracks (d_geom d))); [lia|done]].
        induction n as [|n IH]; intros Hn Hlt; [lia|].
        destruct (Nat.lt_ge_cases i (sector_offset (g_layouts (d_geom d) !!! S n))) as [Hlt'|Hge']; [|by exists (S n)].
        destruct (Nat.eq_dec n 0) as [->|Hn0]; [rewrite (go_zero _ Hok) in Hlt'; lia|].
        rewrite (go_next _ Hok) in Hlt' by lia. apply IH; lia. }
      apply (Hr k); apply in_seq; lia. }
    apply (list_eq_same_length _ _ (sector_count (d_geom d))); [done|done|]. intros i x y Hlt Hx Hy.
    specialize (Hi i Hlt). by rewrite (list_lookup_total_correct _ _ _ Hx), (list_lookup_total_correct _ _ _ Hy) in Hi. }
  split; [done|]. split; [|done].
  assert (same_dev (with_mode true d) (with_mode true d')) as (_ & _ & Hs & _); [|done].
  apply (dev_ext t); [destruct Hd; by constructor|destruct Hd'; by constructor|done|done|done|].
  intros l. change (sector d l = sector d' l).
  destruct (sector_cases t d l Hd) as [(b & E & Hlen & Hv)|[E Hv]].
  - specialize (H1 l). unfold content in H1.
    destruct (proj2 (sector_Ok_iff t d' l Hd')) as [b' E']; [by rewrite <- Hg|]. rewrite E, E' in *. f_equal. apply H1.
    apply (valid_loc_on_disk t) in Hv as [Hv1 Hv2]; [|apply Hd]. unfold all_sectors. apply in_concat.
    exists (map (pair (fst l)) (seq 0 (spec_sectors t (fst l)))). split; [apply in_map_iff; exists (fst l); split; [done|apply in_seq; lia]|].
    apply in_map_iff. exists (snd l). split; [by destruct l|apply in_seq; lia].
  - rewrite E. symmetry. apply sector_invalid. by rewrite <- Hg.
Qed.

(** ** Dumps of files *)
Lemma hex_digits_range fuel : forall n, Forall (fun c => 48 <= c <= 57 \/ 97 <= c <= 102) (hex_digits fuel n).
Proof.
  induction fuel as [|fuel IH]; intros n; cbn [hex_digits]; [constructor|]. apply Forall_app. split.
  - destruct (n / 16 =? 0); [constructor|apply IH].
  - constructor; [|constructor]. apply hex_digit_range. apply Nat.mod_upper_bound. lia.
Qed.
Lemma hex4_head n : exists c r, hex4 n = c :: r /\ c <> 82.
Proof.
  assert (Forall (fun c => 48 <= c <= 57 \/ 97 <= c <= 102) (hex4 n)) as H.
  { unfold hex4. apply Forall_app. split; [|apply hex_digits_range]. apply Forall_forall. intros x Hx%elem_of_list_In%repeat_spec. lia. }
  assert (hex4 n <> []) as Hn.
  { unfold hex4. cbn [hex_digits]. intros [_ E]%app_eq_nil. by apply app_eq_nil in E as [_ E]. }
  destruct (hex4 n) as [|c r]; [done|]. exists c, r. split; [done|]. apply Forall_cons in H as [H _]. lia.
Qed.

Definition body_line (l : list N) : Prop := free_of 10%N l /\ exists c r, l = c :: r /\ c <> 82%N.
Lemma row_line o row : Forall is_byte row -> body_line (List.map N.of_nat (hex_row [] o row)).
Proof.
  intros Hb. split.
  - apply Forall_forall. intros x Hx. apply elem_of_list_fmap in Hx as (y & -> & Hy%elem_of_list_In).
    pose proof (hex_row_no_newline [] o row y ltac:(by intros []) Hy Hb). lia.
  - unfold hex_row. destruct (hex4_head o) as (c & r & -> & Hc). cbn [app List.map]. eexists _, _. split; [reflexivity|]. lia.
Qed.
Lemma hexdump_loop_lines fuel : forall o b, b <> [] -> Forall is_byte b -> length b <= fuel ->
  exists ls, List.map N.of_nat (hexdump_loop fuel [] o b) ++ [10%N] = text_of ls /\ Forall body_line ls.
Proof.
  induction fuel as [|fuel IH]; intros o b Hn Hb Hf; [destruct b; cbn in Hf; [done|lia]|].
  cbn [hexdump_loop]. destruct b as [|x b0]; [done|]. set (b := x :: b0) in *.
  pose proof (row_line o (take 16 b) ltac:(by apply Forall_take)) as Hrow. rewrite !map_app, <- !app_assoc.
  destruct (Nat.ltb_spec 16 (length b)) as [Hlt|Hge].
  - destruct (IH (o + 16) (drop 16 b)) as (ls & E & Hls).
    + intros E%(f_equal length). rewrite drop_length in E. cbn [length] in E. lia.
    + by apply Forall_drop.
    + rewrite drop_length. lia.
    + exists (List.map N.of_nat (hex_row [] o (take 16 b)) :: ls). split; [|by constructor].
      rewrite E. unfold text_of. cbn [List.map List.concat]. by rewrite <- app_assoc.
  - rewrite drop_ge by lia. exists [List.map N.of_nat (hex_row [] o (take 16 b))]. split; [|by constructor].
    assert (hexdump_loop fuel [] (o + 16) [] = []) as -> by (by destruct fuel). unfold text_of. cbn [List.map List.concat app]. by rewrite app_nil_r.
Qed.
Lemma hexdump_lines b : Forall is_byte b -> exists ls, List.map N.of_nat (hexdump [] b) ++ [10%N] = text_of ls /\ Forall body_line ls.
Proof.
  intros Hb. unfold hexdump. destruct b as [|x b]; [|by apply hexdump_loop_lines].
  exists [List.map N.of_nat ([] ++ hex4 0 ++ [58; 32])]. split; [by vm_compute|]. constructor; [|constructor]. split; [by apply free_of_check|].
  eexists _, _. split; [vm_compute; reflexivity|]. done.
Qed.
Lemma body_inj ls : forall ls' r r', Forall body_line ls -> Forall body_line ls' -> (r = [] \/ exists x, r = 82%N :: x) -> (r' = [] \/ exists x, r' = 82%N :: x) ->
  text_of ls ++ r = text_of ls' ++ r' -> ls = ls' /\ r = r'.
Proof.
  induction ls as [|l ls IH]; intros [|l' ls'] r r' H H' Hr Hr' E.
  - by split.
  - exfalso. apply Forall_cons in H' as [(_ & c & s & -> & Hc) _]. cbn in E. destruct Hr as [->|[x ->]]; [done|]. injection E as E _. congruence.
  - exfalso. apply Forall_cons in H as [(_ & c & s & -> & Hc) _]. cbn in E. destruct Hr' as [->|[x ->]]; [done|]. injection E as E _. congruence.
  - apply Forall_cons in H as [[Hf _] H]. apply Forall_cons in H' as [[Hf' _] H'].
    change (text_of (l :: ls)) with ((l ++ [10%N]) ++ text_of ls) in E. change (text_of (l' :: ls')) with ((l' ++ [10%N]) ++ text_of ls') in E.
    rewrite <- !app_assoc in E. cbn [app] in E. apply field_inj in E as [-> E]; [|done..].
    destruct (IH ls' r r') as [-> ->]; done.
Qed.

Fixpoint records_text (i : nat) (rs : list (list nat)) : list N :=
  match rs with
  | [] => []
  | r :: rs => (str "Record: " ++ dec i ++ [10%N]) ++ (List.map N.of_nat (hexdump [] r) ++ [10%N]) ++ records_text (S i) rs
  end.
Lemma records_head i rs : records_text i rs = [] \/ exists x, records_text i rs = 82%N :: x.
Proof. destruct rs; [by left|right]. eexists. reflexivity. Qed.
Lemma records_inj rs : forall i rs', Forall (Forall is_byte) rs -> Forall (Forall is_byte) rs' -> records_text i rs = records_text i rs' -> rs = rs'.
Proof.
  induction rs as [|r rs IH]; intros i [|r' rs'] H H' E; [done|discriminate E|discriminate E|].
  apply Forall_cons in H as [Hr H]. apply Forall_cons in H' as [Hr' H']. cbn [records_text] in E. apply app_inv_head in E.
  destruct (hexdump_lines r Hr) as (ls & El & Hls). destruct (hexdump_lines r' Hr') as (ls' & El' & Hls'). rewrite El, El' in E.
  apply body_inj in E as [-> E]; [|done|done|apply records_head..]. rewrite <- El' in El. apply app_inv_tail in El.
  apply of_nat_inj in El. apply hexdump_inj in El; [|done..]. subst r'. f_equal. by eapply IH.
Qed.

Lemma records_printed d f rs : forall i out, (forall j r, rs !! j = Some r -> file_record d f (i + j) = Ok r) ->
  for_each (fun i => do_ (println (str "Record: " ++ dec i)) in do! bytes := lift (file_record d f i) in println_hex bytes) (seq i (length rs)) out
  = (out ++ records_text i rs, Ok tt).
Proof.
  induction rs as [|r rs IH]; intros i out H; cbn [length seq for_each records_text]; [by rewrite app_nil_r|].
  unfold sbind at 1. rewrite bind_println. pose proof (H 0 r eq_refl) as H0. rewrite Nat.add_0_r in H0. rewrite H0, bind_lift.
  unfold println_hex. rewrite println_eq. rewrite IH; [by rewrite <- !app_assoc|]. intros j x Hx. replace (S i + j) with (i + S j) by lia. by apply H.
Qed.
Theorem file_dump_text d f rs : all_records d f rs ->
  dump_file d f [] = ((str "Filename: " ++ quoted (de_name (file_entry f)) ++ [10%N]) ++ records_text 0 rs, Ok tt).
Proof.
  intros [Hl Hr]. unfold dump_file. rewrite bind_println, <- Hl. rewrite (records_printed d f rs 0) by done. by rewrite <- !app_assoc.
Qed.
Theorem file_dump_faithful d d' f f' rs rs' : all_records d f rs -> all_records d' f' rs' -> Forall (Forall is_byte) rs -> Forall (Forall is_byte) rs' ->
  exists out out', dump_file d f [] = (out, Ok tt) /\ dump_file d' f' [] = (out', Ok tt)
    /\ (out = out' <-> petscii_display (de_name (file_entry f)) = petscii_display (de_name (file_entry f')) /\ rs = rs').
Proof.
  intros H H' Hb Hb'. eexists _, _. split; [by apply file_dump_text|]. split; [by apply file_dump_text|]. split.
  - rewrite <- !app_assoc. intros E%app_inv_head. cbn [app] in E. apply field_inj in E as [E1 E2]; [|apply quoted_free..].
    unfold quoted in E1. apply app_inv_head in E1. apply app_inv_tail in E1. split; [done|]. by eapply records_inj.
  - intros [E ->]. unfold quoted. by rewrite E.
Qed.

(** ** The command dump *)
Lemma dump_dev_of t d : dev_shape t d -> w_dev (tool_open t true d) = with_mode true d.
Proof. intros Hd. apply (open_cases t (with_mode true d)). by destruct Hd; split. Qed.
Lemma mode_shape t d m : dev_shape t d -> dev_shape t (with_mode m d).
Proof. intros Hd. by destruct Hd; split. Qed.
Theorem dump_image_faithful t d d' : dev_shape t d -> dev_shape t d' -> holds_bytes d -> holds_bytes d' ->
  Forall is_byte (d_etable d) -> Forall is_byte (d_etable d') ->
  exists out out', cmd_dump t None d [] = (out, Ok tt) /\ cmd_dump t None d' [] = (out', Ok tt)
    /\ (out = out' <-> d_geom d = d_geom d' /\ d_blocks d = d_blocks d' /\ d_etable d = d_etable d').
Proof.
  intros Hd Hd' Hb Hb' He He'. unfold cmd_dump. rewrite !dump_dev_of by done.
  eexists _, _. split; [by apply (dump_text t), mode_shape|]. split; [by apply (dump_text t), mode_shape|]. split.
  - intros E. apply (dump_faithful t (with_mode true d) (with_mode true d')); try done; try by apply mode_shape.
    rewrite !(dump_text t) by (by apply mode_shape). by rewrite E.
  - intros (E1 & E2 & E3). destruct d as [m g bs et lg], d' as [m' g' bs' et' lg']. cbn [d_geom d_blocks d_etable] in *. by subst.
Qed.
Theorem dump_named_faithful t d d' name name' f f' rs rs' : dev_shape t d -> dev_shape t d' ->
  open_file (tool_open t true d) (from_str_lossy name) = Ok f -> open_file (tool_open t true d') (from_str_lossy name') = Ok f' ->
  all_records (with_mode true d) f rs -> all_records (with_mode true d') f' rs' -> Forall (Forall is_byte) rs -> Forall (Forall is_byte) rs' ->
  exists out out', cmd_dump t (Some name) d [] = (out, Ok tt) /\ cmd_dump t (Some name') d' [] = (out', Ok tt)
    /\ (out = out' <-> petscii_display (de_name (file_entry f)) = petscii_display (de_name (file_entry f')) /\ rs = rs').
Proof.
  intros Hd Hd' Hf Hf' Hr Hr' Hb Hb'. unfold cmd_dump. rewrite Hf, Hf', !bind_lift, !dump_dev_of by done. by apply file_dump_faithful.
Qed.
Lemma bytes_checked (rs : list (list nat)) : forallb (forallb (fun b => b <? 256)) rs = true -> Forall (Forall is_byte) rs.
Proof.
  rewrite forallb_forall, Forall_forall. intros H b Hb%elem_of_list_In%H.
  rewrite forallb_forall in Hb. apply Forall_forall. intros x Hx%elem_of_list_In%Hb. by apply Nat.ltb_lt in Hx.
Qed.
