(** What a user of cdisk should find in the host's files: the image file stands
    for a table of files (SpecTool.v), and the other files change only when they
    are the destination of a copy. *)
From Coq Require Import Ascii String.
From Verif Require Import Base Layout Image Block Petscii GeosTypes DirEntry Header Validate Spec SpecBam SpecFiles SpecOutput Session SpecDisk Cdisk SpecTool
  Text Errors Host Main.
Local Open Scope list_scope.

(** Files and standard input consist of bytes; reading a file delivers all of it,
    in pieces; buffers are not empty. *)
Definition byte_files (h : host) : Prop := forall p bs, h p = Some bs -> Forall is_byte bs.
Definition fair (e : surroundings) : Prop :=
  0 < su_buffer e /\ (forall bs, concat (su_cut e bs) = bs) /\ Forall (Forall is_byte) (su_stdin e).

(** The file [p] is an image of type [t] that holds the table [a]. *)
Definition image_file (t : disk_type) (a : astate) (p : file_path) (h : host) : Prop :=
  exists d dirs chains, disk_open_path true p h = Good (t, d) /\ sound_image t d dirs chains a.

(** The file that a copying command writes to. *)
Definition copy_target (c : command) : option file_path :=
  match c with
  | CRead source d | CGeosRead source d => Some (default source d)
  | _ => None
  end.
(** A copying command that would overwrite the image. *)
Definition onto_image (p : file_path) (c : command) : bool :=
  match copy_target c with Some d => bool_decide (d = p) && negb (bool_decide (d = dash)) | None => false end.

(** What a command asks for, given the other files [f]. [None]: arguments that
    are refused, a source that does not exist, commands that are not about
    the table (bam, create, dump, geosread, dir -v), and an image that is its
    own source or destination. *)
Definition request_of (e : surroundings) (p : file_path) (f : host) (c : command) : option request :=
  if onto_image p c then None
  else
    match c with
    | CRead source _ => Some (TRead source (su_buffer e))
    | CWrite ty source d =>
        if bool_decide (source = p) && negb (bool_decide (source = dash)) then None
        else match type_arg ty, read_source e f source with
             | Some ft, Some pieces => Some (TWrite pieces (default source d) ft)
             | _, _ => None
             end
    | CAppend source d =>
        if bool_decide (source = p) && negb (bool_decide (source = dash)) then None
        else option_map (fun pieces => TAppend pieces (default source d)) (read_source e f source)
    | CDelete name => Some (TDelete name)
    | CRename old new => Some (TRename old new)
    | CFormat name id => Some (TFormat name id)
    | CDir 0 => Some TDir
    | CValidate => Some TValidate
    | _ => None
    end.

(** The other files after a command. *)
Definition files_after (c : command) (r : reply) (f : host) : host :=
  match copy_target c, r with
  | Some d, RBytes bs => if bool_decide (d = dash) then f else put_file d bs f
  | _, _ => f
  end.

(** A sequence of commands about one image, seen from the table. *)
Fixpoint user_run (t : disk_type) (p : file_path) (a : astate) (f : host) (runs : list (surroundings * command))
    : option (astate * host * list reply) :=
  match runs with
  | [] => Some (a, f, [])
  | (e, c) :: runs =>
      match request_of e p f c with
      | Some q =>
          match tstep t a q with
          | Some (a', r) =>
              match user_run t p a' (files_after c r f) runs with
              | Some (a'', f'', rs) => Some (a'', f'', r :: rs)
              | None => None
              end
          | None => None
          end
      | None => None
      end
  end.

(** The reply, as the program shows it: exactly one of error message, listing,
    report or raw bytes. *)
Definition shown (c : command) (answer : reply) (r : result) : Prop :=
  match answer with
  | RDone => r_end r = Finished None /\ r_text r = [] /\ r_bytes r = []
  | RError x => r_end r = Finished (Some (to_io x)) /\ r_text r = [] /\ r_bytes r = []
  | RBytes bs => r_end r = Finished None /\ r_text r = [] /\ r_bytes r = if bool_decide (copy_target c = Some dash) then bs else []
  | RDir label files free =>
      r_end r = Finished None /\ r_bytes r = []
      /\ exists h first lines number,
           r_text r = text_of (first :: lines ++ [number ++ str " blocks free."])
           /\ h_disk_name h = label /\ first_line h first
           /\ Forall2 (fun x line => exists e, entry_line e = x /\ file_line e line) files lines
           /\ decimal number = Some (N.of_nat free)
  | RReport vs => vs = [] /\ r_end r = Finished None /\ r_bytes r = [] /\ r_text r = text_of [str "Disk validates successfully."]
  | RPart _ _ | RBroken => False
  end.

(** A number in an argument of "cdisk bam": an optional plus sign, then digits. *)
Definition unsigned (s : list N) : option N := match s with 43%N :: s => decimal s | _ => decimal s end.

(** The commands that do not change the image ("append" never succeeds). *)
Definition looks (c : command) : bool :=
  match c with
  | CBamShow | CRead _ _ | CAppend _ _ | CGeosRead _ _ | CDir _ | CDump _ | CValidate => true
  | _ => false
  end.

(** The image file still opens, with the same tracks and sectors and the same
    table of error codes. *)
Definition same_layout (p : file_path) (h h' : host) : Prop :=
  forall m t d, disk_open_path m p h = Good (t, d) ->
  exists d', disk_open_path m p h' = Good (t, d') /\ d_geom d' = d_geom d /\ d_etable d' = d_etable d.

(** The calls on an image that need no file handle. *)
Definition needs_format (o : op) : Prop :=
  match o with
  | OCreate name _ => length name <= 16
  | OOpen _ | ORename _ _ | OList | OFree | OName | OValidate => True
  | _ => False
  end.
(** Arguments that are refused before anything happens. *)
Definition refused_arguments (c : command) : Prop :=
  match c with
  | CBamEdit _ track sector => track_arg track = None \/ sector_arg sector = None
  | CWrite ty _ _ => type_arg ty = None
  | _ => False
  end.

(** Calls whose arguments are bytes, as in Rust. *)
Definition call_bytes (o : op) : Prop :=
  match o with
  | OCreate name ft => Forall is_byte name /\ match ft with FUnknown b => is_byte b | _ => True end
  | OWrite _ buf => Forall is_byte buf
  | ORename _ new => Forall is_byte new
  | OFormat name id => Forall is_byte name /\ is_byte (fst id) /\ is_byte (snd id)
  | _ => True
  end.
