(** What a client should see: a disk as a table of files. Nothing here mentions
    sectors, chains or allocation maps (the last section, on histories, does). *)
From Verif Require Import Base Layout Block Bam GeosTypes DirEntry Header World Directory Rel GeosFile File Spec SpecCodec SpecChain SpecBam SpecFiles SpecValidate Session SpecKinds.

(** Blocks for files, directory sectors (each has room for eight files). *)
Definition disk_blocks (t : disk_type) : nat := match t with D64 => 664 | D71 => 1328 | D81 => 3160 end.
Definition dir_limit (t : disk_type) : nat := match t with D81 => 37 | _ => 18 end.

(** A file: what the directory shows of it, and its contents in the image.
    [a_kind]: what can be read from it if it is a relative or GEOS file; the
    contents of such a file are the bytes of its sectors one after the other. *)
Record afile := mk_afile {
  a_name : list nat;
  a_attr : attributes;
  a_blocks : nat;
  a_data : list nat;
  a_kind : kind
}.
Definition a_special (f : afile) : bool := match a_kind f with KPlain => false | _ => true end.

(** A writer on the file in slot [aw_slot]: bytes accepted but not yet in the
    image, and whether a flush has something to do. *)
Record awriter := mk_awriter { aw_slot : nat; aw_pend : list nat; aw_dirty : bool }.

(** The disk and the client's handles and writers ([None]: stale or closed).
    [as_border]: the border sector of a GEOS disk, if there is one, and whether it
    is one of the blocks for files or one of the sectors for the directory; it
    has room for eight files, whose slots are the first eight.
    [as_synced]: the image holds everything needed to open it again. *)
Inductive border_place := NoBorder | BorderInFiles | BorderInDirectory.
Record astate := mk_astate {
  as_label : list nat;
  as_dirs : nat;
  as_border : border_place;
  as_slots : list (option afile);
  as_handles : list (option nat);
  as_writers : list (option awriter);
  as_synced : bool
}.

Definition blocks_of (o : option afile) : nat := match o with Some f => a_blocks f | None => 0 end.
Definition blocks_used (a : astate) : nat := sum (map blocks_of (as_slots a)).
Definition border_room (x : border_place) : nat := match x with NoBorder => 0 | _ => 8 end.
Definition border_block (x : border_place) : nat := match x with BorderInFiles => 1 | _ => 0 end.
Definition border_sector (x : border_place) : nat := match x with BorderInDirectory => 1 | _ => 0 end.
Definition blocks_taken (a : astate) : nat := border_block (as_border a) + blocks_used a.
Definition blocks_left (t : disk_type) (a : astate) : nat := disk_blocks t - blocks_taken a.

(** The slot of the file with a name; the first unused slot outside the border sector. *)
Definition has_name (name : list nat) (o : option afile) : bool :=
  match o with Some f => bool_decide (a_name f = name) | None => false end.
Fixpoint slot_where (p : option afile -> bool) (os : list (option afile)) : option nat :=
  match os with
  | [] => None
  | o :: os => if p o then Some 0 else S <$> slot_where p os
  end.
Definition slot_named (a : astate) (name : list nat) : option nat := slot_where (has_name name) (as_slots a).
Definition unused (o : option afile) : bool := match o with None => true | _ => false end.
Definition slot_unused (a : astate) : option nat := Nat.add (border_room (as_border a)) <$> slot_where unused (drop (border_room (as_border a)) (as_slots a)).

Definition set_slots (ss : list (option afile)) (a : astate) : astate :=
  mk_astate (as_label a) (as_dirs a) (as_border a) ss (as_handles a) (as_writers a) (as_synced a).
Definition put (i : nat) (o : option afile) (a : astate) : astate := set_slots (<[i := o]> (as_slots a)) a.
Definition set_synced (x : bool) (a : astate) : astate :=
  mk_astate (as_label a) (as_dirs a) (as_border a) (as_slots a) (as_handles a) (as_writers a) x.
Definition set_handles (hs : list (option nat)) (a : astate) : astate :=
  mk_astate (as_label a) (as_dirs a) (as_border a) (as_slots a) hs (as_writers a) (as_synced a).
Definition set_writers (ws : list (option awriter)) (a : astate) : astate :=
  mk_astate (as_label a) (as_dirs a) (as_border a) (as_slots a) (as_handles a) ws (as_synced a).

(** One more directory sector. *)
Definition grow (a : astate) : astate :=
  mk_astate (as_label a) (S (as_dirs a)) (as_border a) (as_slots a ++ repeat None 8) (as_handles a) (as_writers a) false.

(** A new file. *)
Definition new_afile (name : list nat) (ft : file_type) : afile :=
  mk_afile name (mk_attr ft false false false true) 1 [] KPlain.
Definition add (i : nat) (name : list nat) (ft : file_type) (a : astate) : astate :=
  set_synced false (set_handles (as_handles a ++ [Some i]) (put i (Some (new_afile name ft)) a)).

(** Names and types that can be stored: a name must not end in the padding
    byte 0xA0, relative files cannot be created, and a numeric type must be one
    the type nibble can hold. *)
Definition storable_name (name : list nat) : bool := negb (bool_decide (last name = Some 160)).
Definition storable_type (ft : file_type) : bool :=
  match ft with REL => false | FUnknown b => (5 <=? b) && (b <? 16) | _ => true end.

Definition writer_on (a : astate) (i : nat) : bool :=
  existsb (fun o => match o with Some x => aw_slot x =? i | None => false end) (as_writers a).
Definition writer_open (a : astate) : bool :=
  existsb (fun o => match o with Some _ => true | None => false end) (as_writers a).

(** Blocks for [n] bytes of a file that has [b] blocks. *)
Definition blocks_for (b n : nat) : nat := Nat.max b ((n + 253) / 254).

(** Writing [buf] to a file: the file, the pending bytes, and the answer. The
    file's blocks except the last are in the image; a file that does not fit
    gets all free blocks and the longest prefix that fits. *)
Definition write_to (left : nat) (f : afile) (pend buf : list nat) : afile * list nat * answer :=
  let all := a_data f ++ pend ++ buf in
  if length all <=? 254 * (a_blocks f + left) then
    let b := blocks_for (a_blocks f) (length all) in
    let data := if b =? a_blocks f then a_data f else take (254 * (b - 1)) all in
    (mk_afile (a_name f) (a_attr f) b data (a_kind f), drop (length data) all, ACount (length buf))
  else
    let b := a_blocks f + left in
    (mk_afile (a_name f) (a_attr f) b (take (254 * b) all) (a_kind f), [], AError EDiskFull).

(** Bringing everything a writer has accepted into the image. *)
Definition settle (x : awriter) (a : astate) : astate :=
  if aw_dirty x then
    match as_slots a !! aw_slot x with
    | Some (Some f) =>
        set_synced true (put (aw_slot x)
          (Some (mk_afile (a_name f) (a_attr f) (a_blocks f) (a_data f ++ aw_pend x) (a_kind f))) a)
    | _ => a
    end
  else a.

(** The file of a handle, whatever it is; the plain file of a handle. *)
Definition held (a : astate) (h : nat) : option (nat * afile) :=
  match as_handles a !! h with
  | Some (Some i) => match as_slots a !! i with Some (Some f) => Some (i, f) | _ => None end
  | _ => None
  end.
Definition file_of (a : astate) (h : nat) : option (nat * afile) :=
  match as_handles a !! h with
  | Some (Some i) =>
      match as_slots a !! i with Some (Some f) => if a_special f then None else Some (i, f) | _ => None end
  | _ => None
  end.

(** The kind of the file of a handle. *)
Definition kind_of (a : astate) (h : nat) : option kind :=
  match as_handles a !! h with
  | Some (Some i) => match as_slots a !! i with Some (Some f) => Some (a_kind f) | _ => None end
  | _ => None
  end.

Definition stale (i : nat) (o : option nat) : option nat :=
  match o with Some j => if j =? i then None else Some j | None => None end.

(** The directory lists the files of the border sector last. *)
Definition lines (os : list (option afile)) : list (list nat * attributes * nat) :=
  concat (map (fun o => match o with Some f => [(a_name f, a_attr f, a_blocks f)] | None => [] end) os).
Definition listing (a : astate) : list (list nat * attributes * nat) :=
  let n := border_room (as_border a) in lines (drop n (as_slots a)) ++ lines (take n (as_slots a)).

(** A freshly formatted disk; handles that were open before are stale. *)
Definition formatted (name : list nat) (handles : nat) (writers : nat) : astate :=
  mk_astate (name ++ repeat 160 (16 - length name)) 1 NoBorder (repeat None 8) (repeat None handles) (repeat None writers) true.

(** The effect and the answer of a call; [None] if the call is outside the
    protocol: a stale handle, deleting a relative file that is not linked as it lists, a closed writer, a second writer on a file,
    deleting a file with an open writer, re-reading an image that lacks changes,
    a name or type that cannot be stored. *)
Definition astep (t : disk_type) (a : astate) (o : op) : option (astate * answer) :=
  match o with
  | OCreate name ft =>
      if 16 <? length name then Some (a, AError EFilenameTooLong)
      else
        match slot_named a name with
        | Some _ => Some (a, AError EFileExists)
        | None =>
            if negb (storable_name name && storable_type ft) then None
            else
              match slot_unused a with
              | Some i =>
                  if blocks_left t a =? 0 then Some (a, AError EDiskFull)
                  else Some (add i name ft a, AIndex (length (as_handles a)))
              | None =>
                  if border_sector (as_border a) + as_dirs a <? dir_limit t then
                    if blocks_left t a =? 0 then Some (grow a, AError EDiskFull)
                    else Some (add (length (as_slots a)) name ft (grow a), AIndex (length (as_handles a)))
                  else Some (a, AError EDiskFull)
              end
        end
  | OOpen name =>
      match slot_named a name with
      | Some i => Some (set_handles (as_handles a ++ [Some i]) a, AIndex (length (as_handles a)))
      | None => Some (a, AError ENotFound)
      end
  | OWriter h =>
      match file_of a h with
      | Some (i, _) =>
          if writer_on a i then None
          else Some (set_writers (as_writers a ++ [Some (mk_awriter i [] true)]) a, AIndex (length (as_writers a)))
      | None =>
          match kind_of a h with
          | Some (KRecords _ _) => Some (a, AError ENonLinearFile)
          | Some (KStream _) => Some (a, AError EReadOnly)
          | _ => None
          end
      end
  | OWrite k buf =>
      match as_writers a !! k with
      | Some (Some x) =>
          match as_slots a !! aw_slot x with
          | Some (Some f) =>
              let '(f', pend, r) := write_to (blocks_left t a) f (aw_pend x) buf in
              let a' := put (aw_slot x) (Some f') (set_writers (<[k := Some (mk_awriter (aw_slot x) pend true)]> (as_writers a)) a) in
              Some ((if a_blocks f' =? a_blocks f then a' else set_synced false a'), r)
          | _ => None
          end
      | _ => None
      end
  | OFlush k =>
      match as_writers a !! k with
      | Some (Some x) =>
          Some (settle x (set_writers (<[k := Some (mk_awriter (aw_slot x) [] false)]> (as_writers a)) a), ADone)
      | _ => None
      end
  | OClose k =>
      match as_writers a !! k with
      | Some (Some x) => Some (settle x (set_writers (<[k := None]> (as_writers a)) a), ADone)
      | _ => None
      end
  | ORead h ns =>
      match file_of a h with
      | Some (_, f) => Some (a, AReads (pieces (a_data f) ns))
      | None =>
          match kind_of a h with
          | Some (KRecords _ _) => Some (a, AError ENonLinearFile)
          | Some (KStream data) => Some (a, AReads (pieces data ns))
          | _ => None
          end
      end
  | ORecord h i =>
      match file_of a h with
      | Some (_, f) => Some (a, if i =? 0 then ABytes (a_data f) else AError EInvalidRecord)
      | None =>
          match kind_of a h with
          | Some (KRecords _ rs) => Some (a, match rs !! i with Some r => ABytes r | None => AError EInvalidRecordIndex end)
          | Some (KStream data) => Some (a, ABytes data)
          | _ => None
          end
      end
  | ODelete h =>
      match held a h with
      | Some (i, f) =>
          if writer_on a i || negb (removable (a_kind f)) then None
          else Some (set_synced (negb (a_special f)) (set_handles (map (stale i) (as_handles a)) (put i None a)), ADone)
      | None => None
      end
  | ORename old new =>
      match slot_named a old with
      | None => Some (a, AError ENotFound)
      | Some i =>
          if 16 <? length new then Some (a, AError EFilenameTooLong)
          else
            match slot_named a new with
            | Some _ => Some (a, AError EFileExists)
            | None =>
                if negb (storable_name new) then None
                else
                  match as_slots a !! i with
                  | Some (Some f) => Some (put i (Some (mk_afile new (a_attr f) (a_blocks f) (a_data f) (a_kind f))) a, ADone)
                  | _ => None
                  end
            end
      end
  | OList => Some (a, AList (listing a))
  | OFree => Some (a, ACount (blocks_left t a))
  | OName => Some (a, ABytes (as_label a))
  | OValidate => Some (a, AReport [])
  | OInit => if as_synced a then Some (a, ADone) else None
  | OReopen => if as_synced a && negb (writer_open a) then Some (set_handles [] (set_writers [] a), ADone) else None
  | OFormat name id =>
      if writer_open a || (16 <? length name) then None
      else Some (formatted name (length (as_handles a)) (length (as_writers a)), ADone)
  end.

Fixpoint arun (t : disk_type) (a : astate) (os : list op) : option (astate * list answer) :=
  match os with
  | [] => Some (a, [])
  | o :: os =>
      match astep t a o with
      | Some (a', r) =>
          match arun t a' os with
          | Some (a'', rs) => Some (a'', r :: rs)
          | None => None
          end
      | None => None
      end
  end.

(** ** Histories *)

(** A disk image of type [t], opened. *)
Definition start (t : disk_type) (d : dev) : session := mk_session (open_world t d) [] [].

(** The allocation map of an opened disk. *)
Definition current_map (w : world) : res bam := let? c := w_get_bam w in cell w c.

(** The sectors of a relative or GEOS file that opens. *)
Definition sectors_found (d : dev) (e : dirent) (ls : list location) : Prop :=
  de_scheme e <> SLinear /\ exists x, file_at d 0 e = Ok x /\ file_occupied d x = Ok ls.
Definition bytes_of_sector (d : dev) (l : location) : list nat := match sector d l with Ok b => b | _ => [] end.

(** What the 32 bytes of a directory slot say: no file, a plain file whose
    chain of sectors is [ls] (its last sector is not a wasted empty one), or a
    relative or GEOS file with the sectors [ls]. *)
Definition slot_holds (d : dev) (bytes : list nat) (ls : list location) (o : option afile) : Prop :=
  exists e, dirent_parse bytes None = Ok e /\
    match o with
    | None => is_scratched (de_attr e) = true /\ ls = []
    | Some f => is_scratched (de_attr e) = false /\ de_size e = length ls
        /\ if a_special f then
             de_scheme e <> SLinear
             /\ (exists x, file_at d 0 e = Ok x /\ file_occupied d x = Ok ls /\ reads_as d x (a_kind f))
             /\ f = mk_afile (de_name e) (de_attr e) (length ls) (concat (map (bytes_of_sector d) ls)) (a_kind f)
           else
             de_scheme e = SLinear /\ sound_chain d (de_first e) ls
             /\ f = mk_afile (de_name e) (de_attr e) (length ls) (data_of d ls) KPlain
             /\ length ls = blocks_for 1 (length (data_of d ls))
    end.

(** The border sector of an image, if it is of a GEOS disk, and where it is. *)
Definition border_of (t : disk_type) (d : dev) : list location :=
  match w_header (open_world t d) with
  | Some h => match h_geos h with Some gh => [gh_border gh] | None => [] end
  | None => []
  end.
Definition border_at (t : disk_type) (d : dev) : border_place :=
  match border_of t d with
  | [] => NoBorder
  | l :: _ => if fst l =? dir_track t then BorderInDirectory else BorderInFiles
  end.

(** The same of a disk that is in use: what its header says. *)
Definition border_in (t : disk_type) (w : world) : border_place :=
  match w_header w with
  | Some h =>
      match h_geos h with
      | Some gh => if fst (gh_border gh) =? dir_track t then BorderInDirectory else BorderInFiles
      | None => NoBorder
      end
  | None => NoBorder
  end.

(** The entries of the directory proper, without those of the border sector, and
    how many of them there can be. *)
Definition ordinary (es : list dirent) : list dirent := List.filter (fun e => negb (de_border e)) es.
Definition in_border (es : list dirent) : list dirent := List.filter de_border es.
Definition dir_room (t : disk_type) (x : border_place) : nat := 8 * (dir_limit t - border_sector x).

(** What a call does to the names listed for the border sector, from [old] to
    [new]: only a deletion takes names away, and no call adds one. *)
Definition name_swap (old new : list nat) (x : list nat) : list nat := if bool_decide (x = old) then new else x.
Definition border_change (o : op) (r : answer) (old new : list (list nat)) : Prop :=
  match o with
  | OFormat _ _ => new = []
  | ODelete _ => sublist new old
  | ORename x y => new = match r with ADone => map (name_swap x y) old | _ => old end
  | _ => new = old
  end.

(** An image in order, wherever it was made: the border sector, the directory
    sectors [dirs] and the chains of the files are apart, the map marks the other sectors free, no
    two files have the same name. [a] is the table of its files. *)
Record sound_image (t : disk_type) (d : dev) (dirs : list location) (chains : list (list location)) (a : astate) : Prop := {
  si_shape : dev_shape t d;
  si_bytes : holds_bytes d;
  si_writable : d_writable d = true;
  si_header : exists h, w_header (open_world t d) = Some h /\ h_disk_name h = as_label a;
  si_border : forall l, In l (border_of t d) -> bam_sector t l /\ ~ system_sector t l;
  si_dir : sound_chain d (dir_track t, match t with D81 => 3 | _ => 1 end) dirs;
  si_dir_end : exists l, last dirs = Some l /\ ends d l 255;
  si_dir_area : forall l, In l dirs -> bam_sector t l /\ fst l = dir_track t;
  si_area : forall l, In l (concat chains) -> bam_sector t l /\ fst l <> dir_track t /\ ~ reserved t (fst l);
  si_apart : NoDup (border_of t d ++ dirs ++ concat chains);
  si_first : forall l, In l dirs -> system_sector t l -> head dirs = Some l;
  si_lengths : length (as_slots a) = 8 * length (border_of t d ++ dirs) /\ length chains = 8 * length (border_of t d ++ dirs);
  si_slots : forall i o ls, as_slots a !! i = Some o -> chains !! i = Some ls ->
      exists l b, (border_of t d ++ dirs) !! (i / 8) = Some l /\ sector d l = Ok b /\ slot_holds d (slice (32 * (i mod 8)) 32 b) ls o;
  si_names : forall i j f g, as_slots a !! i = Some (Some f) -> as_slots a !! j = Some (Some g) -> a_name f = a_name g -> i = j;
  si_map : exists b, current_map (open_world t d) = Ok b /\ bam_consistent t b
      /\ forall l, bam_sector t l -> is_free b l <-> ~ system_sector t l /\ ~ In l (border_of t d ++ dirs) /\ ~ In l (concat chains);
  si_fresh : as_dirs a = length dirs /\ as_border a = border_at t d /\ as_handles a = [] /\ as_writers a = [] /\ as_synced a = true
}.

(** What validate() does not look at, for an image with the directory sectors
    [dirs] and the listed files [es]. *)
Record plain_image (t : disk_type) (d : dev) (dirs : list location) (es : list dirent) : Prop := {
  pi_border : forall l, In l (border_of t d) -> bam_sector t l /\ ~ system_sector t l /\ ~ In l dirs;
  pi_map : forall b, current_map (open_world t d) = Ok b -> bam_consistent t b;
  pi_dir_area : forall l, In l dirs -> bam_sector t l /\ fst l = dir_track t;
  pi_dir_first : forall l, In l dirs -> system_sector t l -> head dirs = Some l;
  pi_dir_end : exists l, last dirs = Some l /\ ends d l 255;
  pi_names : NoDup (map de_name es);
  pi_files : forall e ls, In e es -> de_scheme e = SLinear -> sound_chain d (de_first e) ls ->
      de_size e = length ls /\ length ls = blocks_for 1 (length (data_of d ls))
      /\ forall l, In l ls -> bam_sector t l /\ fst l <> dir_track t;
  pi_special : forall e ls, In e es -> sectors_found d e ls ->
      de_size e = length ls /\ forall l, In l ls -> bam_sector t l /\ fst l <> dir_track t
}.

(** The session [s] that the client is in after formatting a writable image
    (whatever it held), or after opening an image that is in order, and then
    making the calls [os], all within the protocol; [a] is the table of files
    that describes it. *)
Inductive reached (t : disk_type) (a : astate) (s : session) : Prop :=
| reached_by (d : dev) (name : list nat) (id : nat * nat) (os : list op) (rs : list answer)
    (Hd : dev_shape t d) (Hw : d_writable d = true) (Hn : length name <= 16)
    (Ha : arun t (formatted name 0 0) os = Some (a, rs))
    (Hs : fst (calls (start t d) (OFormat name id :: os)) = s)
| reached_open (d : dev) (dirs : list location) (chains : list (list location)) (a0 : astate) (os : list op) (rs : list answer)
    (Hi : sound_image t d dirs chains a0)
    (Ha : arun t a0 os = Some (a, rs))
    (Hs : fst (calls (start t d) os) = s).

(** The contents of an open file: of a plain file its data, of a relative or
    GEOS file its records and its sectors one after the other. *)
Definition has_contents (d : dev) (x : file) (k : kind) (data : list nat) : Prop :=
  match x with
  | FLinear _ _ => k = KPlain /\ file_record d x 0 = Ok data
  | _ => reads_as d x k /\ exists ls, file_occupied d x = Ok ls /\ concat (map (bytes_of_sector d) ls) = data
  end.

(** What an opened disk shows of a file: it can be opened by its name and
    has its contents, and the directory lists it. *)
Record shows (w : world) (f : afile) : Prop := {
  sh_open : exists x, open_file w (a_name f) = Ok x /\ has_contents (w_dev w) x (a_kind f) (a_data f);
  sh_list : exists es, w_directory w = Ok es /\ In (a_name f, a_attr f, a_blocks f) (map entry_line es)
}.

(** The file that a call changes. *)
Definition about (a : astate) (o : op) : option nat :=
  match o with
  | OWrite k _ | OFlush k | OClose k =>
      match as_writers a !! k with Some (Some x) => Some (aw_slot x) | _ => None end
  | ODelete h => match held a h with Some (i, _) => Some i | None => None end
  | ORename old _ => slot_named a old
  | _ => None
  end.
Definition is_format (o : op) : bool := match o with OFormat _ _ => true | _ => false end.

(** None of the calls formats the disk, renames the file [f] or deletes it. *)
Definition spares (a : astate) (f : afile) (o : op) : Prop :=
  is_format o = false /\ (forall new, o <> ORename (a_name f) new) /\ (forall h i, o = ODelete h -> held a h <> Some (i, f)).
Fixpoint all_spare (t : disk_type) (a : astate) (f : afile) (os : list op) : Prop :=
  match os with
  | [] => True
  | o :: os => spares a f o /\ match astep t a o with Some (a', _) => all_spare t a' f os | None => True end
  end.

(** None of the calls formats the disk, drops the handles or deletes the file of
    the handle [h]. *)
Fixpoint handle_spared (t : disk_type) (a : astate) (h : nat) (os : list op) : Prop :=
  match os with
  | [] => True
  | o :: os =>
      (is_format o = false /\ o <> OReopen /\ forall h', o = ODelete h' -> as_handles a !! h' <> as_handles a !! h)
      /\ match astep t a o with Some (a', _) => handle_spared t a' h os | None => True end
  end.

(** A device after some more sector writes. *)
Definition after_writes (d : dev) (ws : list (location * list nat)) : dev :=
  fold_left (fun d x => mk_dev (d_writable d) (d_geom d) (<[loc_index (d_geom d) (fst x) := snd x]> (d_blocks d))
                          (d_etable d) (d_log d ++ [x])) ws d.
