(** What a user of the program cdisk should see: every command is a change of a
    table of files, and a reply. *)
From Verif Require Import Base Layout Block Petscii GeosTypes DirEntry Header World Validate Spec SpecBam SpecKinds Session SpecDisk Cdisk.

Inductive request :=
| TWrite (source : list (list nat)) (name : list N) (ft : file_type)  (* the source, as it is delivered in pieces *)
| TAppend (source : list (list nat)) (name : list N)
| TRead (name : list N) (n : nat)                                     (* copied with a buffer of n bytes *)
| TDelete (name : list N)
| TRename (old new : list N)
| TFormat (name id : list N)
| TDir
| TValidate.

Inductive reply :=
| RDone
| RBytes (bs : list nat)                                  (* the copied file *)
| RPart (bs : list nat) (e : disk_error)                  (* the beginning of a file, and an error *)
| RDir (label : list nat) (files : list (list nat * attributes * nat)) (free : nat)
| RReport (es : list validation_error)
| RError (e : disk_error)
| RBroken.

(** A command, and the reply made from its results. *)
Definition reply_of {A} (f : A -> reply) (r : res A) : reply :=
  match r with Ok a => f a | Err e => RError e | _ => RBroken end.
Definition changes (x : dev * res unit) : dev * reply := (fst x, reply_of (fun _ => RDone) (snd x)).
Definition copied (x : option (list nat) * res unit) : reply :=
  match x with
  | (Some bs, Ok _) => RBytes bs
  | (Some bs, Err e) => RPart bs e
  | (_, r) => reply_of (fun _ => RDone) r
  end.
Definition run_request (t : disk_type) (d : dev) (q : request) : dev * reply :=
  match q with
  | TWrite source name ft => changes (cmd_write t source name ft d)
  | TAppend source name => changes (cmd_append t source name d)
  | TRead name n => (d, copied (cmd_read t name n d))
  | TDelete name => changes (cmd_delete t name d)
  | TRename old new => changes (cmd_rename t old new d)
  | TFormat name id => changes (cmd_format t name id d)
  | TDir =>
      (d, let '(h, es, r) := cmd_dir t d in
          match h with
          | Some h => reply_of (RDir (h_disk_name h) (map entry_line es)) r
          | None => RError EUnformatted
          end)
  | TValidate => (d, reply_of RReport (cmd_validate t d))
  end.
Fixpoint run_requests (t : disk_type) (d : dev) (qs : list request) : dev * list reply :=
  match qs with
  | [] => (d, [])
  | q :: qs => let '(d, r) := run_request t d q in let '(d, rs) := run_requests t d qs in (d, r :: rs)
  end.

(** The table of files between two commands. *)
Definition table (label : list nat) (dirs : nat) (border : border_place) (slots : list (option afile)) : astate :=
  mk_astate label dirs border slots [] [] true.
Definition with_file (a : astate) (i : nat) (o : option afile) : astate :=
  table (as_label a) (as_dirs a) (as_border a) (<[i := o]> (as_slots a)).

(** Where a new file goes: the first unused slot, or a new directory sector. *)
Definition place (t : disk_type) (a : astate) : option (nat * astate) :=
  match slot_unused a with
  | Some i => Some (i, a)
  | None =>
      if border_sector (as_border a) + as_dirs a <? dir_limit t
      then Some (length (as_slots a), table (as_label a) (S (as_dirs a)) (as_border a) (as_slots a ++ repeat None 8))
      else None
  end.

(** A file with the given contents, or with as much of them as fits in [left] blocks. *)
Definition stored_file (name : list nat) (ft : file_type) (left : nat) (data : list nat) : afile :=
  let data := take (254 * left) data in
  mk_afile name (mk_attr ft false false false true) (Nat.max 1 ((length data + 253) / 254)) data KPlain.

(** Is there a relative or GEOS file in slot [i]? *)
Definition special_at (a : astate) (i : nat) : bool :=
  match as_slots a !! i with Some (Some f) => a_special f | _ => false end.

(** What reading the file answers. The file cannot be read if it is made of records. *)
Definition read_of (f : afile) : reply :=
  match a_kind f with
  | KPlain => RBytes (a_data f)
  | KStream data => RBytes data
  | KRecords _ _ => RError ENonLinearFile
  end.
(** What appending to the file answers: it always fails. *)
Definition append_of (f : afile) : reply :=
  match a_kind f with KRecords _ _ => RError ENonLinearFile | _ => RError EReadOnly end.

(** The table afterwards and the reply. [None]: names and types that cannot be
    stored, labels that are too long, deleting a relative or GEOS file, and the one case in which a failing
    command leaves a damaged image behind: all slots in use, no block free, and
    room for another directory sector. *)
Definition tstep (t : disk_type) (a : astate) (q : request) : option (astate * reply) :=
  match q with
  | TWrite source name ft =>
      let name := from_str_lossy name in
      let data := concat source in
      let left := blocks_left t a in
      if 16 <? length name then Some (a, RError EFilenameTooLong)
      else
        match slot_named a name with
        | Some _ => Some (a, RError EFileExists)
        | None =>
            if negb (storable_name name && storable_type ft) then None
            else
              match place t a with
              | None => Some (a, RError EDiskFull)
              | Some (i, a') =>
                  if left =? 0 then
                    match slot_unused a with Some _ => Some (a, RError EDiskFull) | None => None end
                  else Some (with_file a' i (Some (stored_file name ft left data)),
                             if length data <=? 254 * left then RDone else RError EDiskFull)
              end
        end
  | TAppend _ name =>
      match slot_named a (from_str_lossy name) with
      | None => Some (a, RError ENotFound)
      | Some i => match as_slots a !! i with Some (Some f) => Some (a, append_of f) | _ => None end
      end
  | TRead name n =>
      if n =? 0 then None
      else
        match slot_named a (from_str_lossy name) with
        | None => Some (a, RError ENotFound)
        | Some i =>
            match as_slots a !! i with
            | Some (Some f) => Some (a, read_of f)
            | _ => None
            end
        end
  | TDelete name =>
      match slot_named a (from_str_lossy name) with
      | Some i => if special_at a i then None else Some (with_file a i None, RDone)
      | None => Some (a, RError ENotFound)
      end
  | TRename old new =>
      let new := from_str_lossy new in
      match slot_named a (from_str_lossy old) with
      | None => Some (a, RError ENotFound)
      | Some i =>
          if 16 <? length new then Some (a, RError EFilenameTooLong)
          else
            match slot_named a new with
            | Some _ => Some (a, RError EFileExists)
            | None =>
                if negb (storable_name new) then None
                else
                  match as_slots a !! i with
                  | Some (Some f) => Some (with_file a i (Some (mk_afile new (a_attr f) (a_blocks f) (a_data f) (a_kind f))), RDone)
                  | _ => None
                  end
            end
      end
  | TFormat name _ =>
      let name := from_str_lossy name in
      if 16 <? length name then None
      else Some (table (name ++ repeat 160 (16 - length name)) 1 NoBorder (repeat None 8), RDone)
  | TDir => Some (a, RDir (as_label a) (listing a) (blocks_left t a))
  | TValidate => Some (a, RReport [])
  end.

Fixpoint trun (t : disk_type) (a : astate) (qs : list request) : option (astate * list reply) :=
  match qs with
  | [] => Some (a, [])
  | q :: qs =>
      match tstep t a q with
      | Some (a', r) => match trun t a' qs with Some (a'', rs) => Some (a'', r :: rs) | None => None end
      | None => None
      end
  end.

(** The image file [d] holds the table [a]: it is what a history of calls within
    the protocol has left behind. *)
Definition image_of (t : disk_type) (a : astate) (d : dev) : Prop :=
  exists s, reached t a s /\ a = table (as_label a) (as_dirs a) (as_border a) (as_slots a) /\ w_dev (s_world s) = d.

(** ** The block availability map *)

(** The sectors that "cdisk bam allocate|free TRACK SECTOR" is about; [None] is
    the word "all". *)
Definition chosen (t : disk_type) (track sector : option nat) (l : location) : Prop :=
  match track with Some tr => fst l = tr | None => 1 <= fst l <= spec_tracks t end
  /\ match sector with Some s => snd l = s | None => snd l < spec_sectors t (fst l) end.

(** ** New images *)

(** What "cdisk create" makes of the type of a new image file. *)
Definition new_type (file : list N) : disk_type := match from_extension file with Some t => t | None => D64 end.

(** The three extensions, in lower case: "d64", "d71", "d81". *)
Definition extension_of (t : disk_type) : list N := match t with D64 => [100; 54; 52] | D71 => [100; 55; 49] | D81 => [100; 56; 49] end%N.
