(** What the program cdisk shows of any image file. *)
From Coq Require Import Ascii String.
From Verif Require Import Base ListFacts Layout Image Block Bam Format Petscii GeosTypes DirEntry Header World Chain Directory Writer Rel GeosFile File Validate
  Spec SpecCodec SpecChain SpecBam SpecFiles SpecOutput GeomFacts FlatProofs SpecKinds Session SpecDisk CodecProofs SoundImage Trace OpenSound Cdisk SpecTool ToolProofs ToolMore Keeps CmdKeeps
  Text Errors Host Main SpecHost ListingProofs OutputProofs CodecMore DumpProofs SpecDetails DetailsProofs HostProofs.
Local Open Scope list_scope.

Section program.
  Context (e : surroundings) (p : file_path) (h : host) (t : disk_type) (d : dev).
  Hypothesis Hh : byte_files h.

  Lemma image_facts m : disk_open_path m p h = Good (t, d) -> dev_shape t d /\ holds_bytes d /\ Forall is_byte (d_etable d) /\ d_writable d = m.
  Proof.
    intros H. destruct (opened _ _ _ _ _ H) as (bs & _ & Hd & _ & Hm & _). destruct (opened_bytes _ _ _ _ _ Hh H) as [H1 H2]. done.
  Qed.
  Lemma with_opened m k : disk_open_path m p h = Good (t, d) -> with_image m p h k = k t d.
  Proof. intros H. unfold with_image. by rewrite H. Qed.

  Theorem program_dump : disk_open_path true p h = Good (t, d) ->
    let r := invoke e p (CDump None) h in
    r_host r = h /\ r_bytes r = [] /\ r_end r = Finished None
    /\ exists blocks errors, r_text r = text_of (concat blocks ++ errors)
       /\ Forall2 (sector_dump d) (all_sectors t (g_tracks (d_geom d))) blocks /\ error_dump t d errors.
  Proof.
    intros Ho r. destruct (image_facts true Ho) as (Hd & Hb & He & _). unfold r. cbn [invoke]. rewrite (with_opened true) by done.
    destruct (dump_shows t d Hd Hb He) as (blocks & errors & -> & H1 & H2). split; [done|]. split; [done|]. split; [done|]. by exists blocks, errors.
  Qed.
  Theorem program_dump_file name f rs : disk_open_path true p h = Good (t, d) ->
    open_file (tool_open t true d) (from_str_lossy name) = Ok f -> all_records (with_mode true d) f rs -> Forall (Forall is_byte) rs ->
    let r := invoke e p (CDump (Some name)) h in
    r_host r = h /\ r_bytes r = [] /\ r_end r = Finished None
    /\ exists blocks, r_text r = text_of ((chars "Filename: """ ++ petscii_display (de_name (file_entry f)) ++ chars """") :: concat blocks)
       /\ length blocks = length rs /\ forall j x ls, rs !! j = Some x -> blocks !! j = Some ls -> record_dump j x ls.
  Proof.
    intros Ho Hf Hr Hrb r. destruct (image_facts true Ho) as (Hd & Hb & He & _). unfold r. cbn [invoke]. rewrite (with_opened true) by done.
    destruct (file_dump_shows t d name f rs Hd Hf Hr Hrb) as (blocks & -> & H1 & H2). split; [done|]. split; [done|]. split; [done|]. by exists blocks.
  Qed.
  Theorem program_map b : disk_open_path false p h = Good (t, d) -> current_map (open_world t d) = Ok b ->
    let r := invoke e p CBamShow h in
    r_host r = h /\ r_bytes r = [] /\ r_end r = Finished None
    /\ exists ls number total, r_text r = text_of (ls ++ [number ++ chars " blocks free."]) /\ length ls = spec_tracks t
       /\ (forall k, 1 <= k <= spec_tracks t -> exists line, ls !! (k - 1) = Some line /\ map_line t b k line)
       /\ decimal number = Some (N.of_nat total) /\ w_blocks_free (open_world t d) = Ok total.
  Proof.
    intros Ho Hm r. destruct (image_facts false Ho) as (Hd & Hb & He & _). unfold r. cbn [invoke]. rewrite (with_opened false) by done.
    destruct (bam_show_text t d b Hd Hm) as (ls & number & total & -> & H). split; [done|]. split; [done|]. split; [done|]. by exists ls, number, total.
  Qed.
  Theorem program_short l es n : disk_open_path false p h = Good (t, d) ->
    w_header (open_world t d) = Some l -> w_directory (open_world t d) = Ok es -> w_blocks_free (open_world t d) = Ok n ->
    let r := invoke e p (CDir 0) h in
    r_host r = h /\ r_bytes r = [] /\ r_end r = Finished None
    /\ exists first lines number, r_text r = text_of (first :: lines ++ [number ++ chars " blocks free."])
       /\ first_line l first /\ Forall2 file_line es lines /\ decimal number = Some (N.of_nat n).
  Proof.
    intros Ho H1 H2 H3 r. destruct (image_facts false Ho) as (Hd & Hb & He & _). unfold r. cbn [invoke]. rewrite (with_opened false) by done.
    destruct (listing_layout t d l es n Hd Hb H1 H2 H3) as (first & lines & number & -> & H). split; [done|]. split; [done|]. split; [done|]. by exists first, lines, number.
  Qed.
  Theorem program_listing_ends v : v <= 1 -> disk_open_path false p h = Good (t, d) ->
    let r := invoke e p (CDir v) h in
    r_host r = h /\ r_bytes r = []
    /\ (r_end r = Finished None <-> (exists l, w_header (open_world t d) = Some l) /\ exists es, w_directory (open_world t d) = Ok es)
    /\ (r_end r = Finished None \/ exists k, r_end r = Finished (Some (to_io k))).
  Proof.
    intros Hv Ho r. destruct (image_facts false Ho) as (Hd & _). unfold r. cbn [invoke]. rewrite (with_opened false) by done.
    destruct (listing_outcome t v d Hv Hd) as (out & z & -> & H1 & H2). split; [done|]. split; [done|]. cbn [printed r_end snd].
    destruct H2 as [->|(k & ->)]; cbn [finish].
    - split; [|by left]. split; [intros _; by apply H1|done].
    - split; [|right; by exists k]. split; [done|]. intros H. by apply H1 in H.
  Qed.
  Theorem program_list l es n : disk_open_path false p h = Good (t, d) ->
    w_header (open_world t d) = Some l -> w_directory (open_world t d) = Ok es -> w_blocks_free (open_world t d) = Ok n ->
    let r := invoke e p (CDir 1) h in
    r_host r = h /\ r_bytes r = [] /\ r_end r = Finished None
    /\ exists first lines number, r_text r = text_of (first :: lines ++ [number ++ chars " blocks free."])
       /\ disk_line l first /\ Forall2 verbose_line es lines /\ decimal number = Some (N.of_nat n).
  Proof.
    intros Ho H1 H2 H3 r. destruct (image_facts false Ho) as (Hd & Hb & He & _). unfold r. cbn [invoke]. rewrite (with_opened false) by done.
    destruct (verbose_layout t d l es n Hd Hb H1 H2 H3) as (first & lines & number & -> & H). split; [done|]. split; [done|]. split; [done|]. by exists first, lines, number.
  Qed.
  Theorem program_details v l es n : 2 <= v -> disk_open_path false p h = Good (t, d) ->
    w_header (open_world t d) = Some l -> w_directory (open_world t d) = Ok es -> w_blocks_free (open_world t d) = Ok n ->
    (forall x, In x es -> exists f, open_file (tool_open t false d) (de_name x) = Ok f /\ details_readable (2 <? v) (with_mode false d) f) ->
    let r := invoke e p (CDir v) h in
    r_host r = h /\ r_bytes r = [] /\ r_end r = Finished None
    /\ exists first blocks number, r_text r = text_of (first :: concat blocks ++ [number ++ chars " blocks free."])
       /\ disk_line l first /\ Forall2 (file_block (2 <? v) t d) es blocks /\ decimal number = Some (N.of_nat n).
  Proof.
    intros Hv Ho H1 H2 H3 H4 r. destruct (image_facts false Ho) as (Hd & Hb & He & _). unfold r. cbn [invoke]. rewrite (with_opened false) by done.
    destruct (details_succeed t v d l es n Hv Hd H1 H2 H3 H4) as (out & E).
    destruct (details_layout t v d l es n out Hv Hd Hb H1 H2 H3 E) as (first & blocks & number & -> & H). rewrite E.
    split; [done|]. split; [done|]. split; [done|]. by exists first, blocks, number.
  Qed.
  Theorem program_validate vs : disk_open_path true p h = Good (t, d) -> cmd_validate t d = Ok vs ->
    let r := invoke e p CValidate h in
    r_host r = h /\ r_bytes r = []
    /\ (vs = [] -> r_end r = Finished None /\ r_text r = text_of [chars "Disk validates successfully."])
    /\ (vs <> [] -> exists lines number, r_text r = text_of lines /\ Forall2 (shows_defect show_error) vs lines
          /\ error_line (r_end r) = text_of [chars "Error: " ++ number ++ chars " errors found during validation."]
          /\ decimal number = Some (N.of_nat (length vs))).
  Proof.
    intros Ho Hvs r. destruct (image_facts true Ho) as (Hd & Hb & He & _). unfold r. cbn [invoke]. rewrite (with_opened true) by done.
    destruct (report_text t d vs Hvs) as [H1 H2]. destruct vs as [|v vs].
    - rewrite (H1 eq_refl). split; [done|]. split; [done|]. split; [done|]. by intros [].
    - destruct (H2 ltac:(done)) as (lines & -> & Hf). rewrite Hvs. split; [done|]. split; [done|]. split; [done|].
      intros _. exists lines, (dec (length (v :: vs))). split; [done|]. split; [done|]. split; [|apply dec_decimal].
      unfold error_line, show_io, text_of. cbn [r_end io_source_of List.map List.concat]. rewrite app_nil_r, <- !app_assoc. reflexivity.
  Qed.
  Theorem program_bam_edit b alloc ts ss track sec : disk_open_path true p h = Good (t, d) -> current_map (open_world t d) = Ok b ->
    track_arg ts = Some track -> sector_arg ss = Some sec ->
    (track = None -> t = D64) -> (forall l, chosen t track sec l -> bam_sector t l) ->
    let r := invoke e p (CBamEdit alloc ts ss) h in
    r_end r = Finished None /\ r_text r = [] /\ r_bytes r = [] /\ (forall q, q <> p -> r_host r q = h q)
    /\ exists d' b', disk_open_path true p (r_host r) = Good (t, d') /\ current_map (open_world t d') = Ok b'
       /\ (forall l, bam_sector t l -> chosen t track sec l -> is_free b' l <-> alloc = false)
       /\ (forall l, bam_sector t l -> ~ chosen t track sec l -> is_free b' l <-> is_free b l)
       /\ (bam_consistent t b -> bam_consistent t b')
       /\ (forall l i, ~ bam_byte t l i -> image_byte d' l i = image_byte d l i).
  Proof.
    intros Ho Hm Ht Hs H1 H2 r. destruct (image_facts true Ho) as (Hd & Hb & He & Hw). unfold r. cbn [invoke]. rewrite Ht, Hs, (with_opened true) by done.
    destruct (bam_edit_exact t d b track sec alloc Hd Hb Hw Hm H1 H2) as (d' & b' & E & Hm' & Hc & Hn & Hk & Hi). pose proof (bam_edit_kept t d Hd Hb track sec alloc) as Hkept.
    rewrite E in *. cbn [fst] in Hkept. destruct Hkept as [K1 K2 K3 K4 K5]. split; [done|]. split; [done|]. split; [done|]. split.
    - intros q Hq. cbn [changed r_host fst]. by apply put_other.
    - exists (with_log [] d'), b'. split.
      + cbn [changed r_host fst]. rewrite (reopened true true p h t d d') by (done || apply put_same). unfold with_log. cbn [with_mode d_writable] in K5. by rewrite K5.
      + split; [|done]. rewrite log_open. exact Hm'.
  Qed.
End program.
