(** Calls of the API as a client makes them: a session is an open disk together
    with the file handles and the writers the client holds. Each case of [call]
    calls one modelled function of the library; nothing here is a model of code
    in /repo except the dropping of a writer (chain.rs lines 310-314). *)
From Verif Require Import Base Layout Block Bam Format Petscii GeosTypes DirEntry Header World Chain Directory Writer Rel GeosFile
  File Validate SpecChain.

Inductive op :=
| OCreate (name : list nat) (ft : file_type)   (* Disk::create_file *)
| OOpen (name : list nat)                      (* Disk::open_file *)
| OWriter (h : nat)                            (* File::writer of handle h *)
| OWrite (k : nat) (buf : list nat)            (* Write::write of writer k *)
| OFlush (k : nat)                             (* Write::flush of writer k *)
| OClose (k : nat)                             (* dropping writer k *)
| ORead (h : nat) (ns : list nat)              (* File::reader of handle h, then reads of the given sizes *)
| ORecord (h i : nat)                          (* File::record(i) of handle h *)
| ODelete (h : nat)                            (* File::delete of handle h *)
| ORename (old new : list nat)                 (* Disk::rename *)
| OList                                        (* Disk::directory *)
| OFree                                        (* Disk::blocks_free *)
| OName                                        (* Disk::name *)
| OValidate                                    (* validation::validate *)
| OInit                                        (* Disk::initialize *)
| OReopen                                      (* closing the image and opening it again *)
| OFormat (name : list nat) (id : nat * nat).  (* Disk::write_format *)

Inductive answer :=
| ADone
| AIndex (i : nat)                        (* the number of the new handle or writer *)
| ACount (n : nat)
| ABytes (bs : list nat)
| AReads (rs : list (list nat))           (* what each read delivered *)
| AList (es : list (list nat * attributes * nat))  (* name, attributes, blocks *)
| AReport (es : list validation_error)
| AError (e : disk_error)
| ABroken.                                (* a panic, or no such handle *)

Record session := mk_session {
  s_world : world;
  s_handles : list file;
  s_writers : list (option writer)
}.

Definition set_world (w : world) (s : session) : session := mk_session w (s_handles s) (s_writers s).

(** An answer from the outcome of a call. *)
Definition answer_of {A} (r : res A) (f : A -> answer) : answer :=
  match r with Ok a => f a | Err e => AError e | _ => ABroken end.

Definition entry_line (e : dirent) : list nat * attributes * nat := (de_name e, de_attr e, de_size e).

Fixpoint all_reads (rs : list (res (list nat))) : res (list (list nat)) :=
  match rs with
  | [] => Ok []
  | r :: rs => let? x := r in let? xs := all_reads rs in Ok (x :: xs)
  end.

Definition call (s : session) (o : op) : session * answer :=
  let w := s_world s in
  match o with
  | OCreate name ft =>
      match create_file name ft w with
      | (w', Ok x) => (mk_session w' (s_handles s ++ [x]) (s_writers s), AIndex (length (s_handles s)))
      | (w', r) => (set_world w' s, answer_of r (fun _ => ADone))
      end
  | OOpen name =>
      match open_file w name with
      | Ok x => (mk_session w (s_handles s ++ [x]) (s_writers s), AIndex (length (s_handles s)))
      | r => (s, answer_of r (fun _ => ADone))
      end
  | OWriter h =>
      match s_handles s !! h with
      | Some x =>
          match file_writer (w_dev w) x with
          | Ok k => (mk_session w (s_handles s) (s_writers s ++ [Some k]), AIndex (length (s_writers s)))
          | r => (s, answer_of r (fun _ => ADone))
          end
      | None => (s, ABroken)
      end
  | OWrite k buf =>
      match s_writers s !! k with
      | Some (Some x) =>
          let '((w', x'), r) := writer_write buf (w, x) in
          (mk_session w' (s_handles s) (<[k := Some x']> (s_writers s)), answer_of r ACount)
      | _ => (s, ABroken)
      end
  | OFlush k =>
      match s_writers s !! k with
      | Some (Some x) =>
          let '((w', x'), r) := writer_flush (w, x) in
          (mk_session w' (s_handles s) (<[k := Some x']> (s_writers s)), answer_of r (fun _ => ADone))
      | _ => (s, ABroken)
      end
  | OClose k =>
      match s_writers s !! k with
      | Some (Some x) =>
          (mk_session (writer_drop x w) (s_handles s) (<[k := None]> (s_writers s)), ADone)
      | _ => (s, ABroken)
      end
  | ORead h ns =>
      match s_handles s !! h with
      | Some x => (s, answer_of (let? r := file_reader x in all_reads (run_reads (w_dev w) r ns)) AReads)
      | None => (s, ABroken)
      end
  | ORecord h i =>
      match s_handles s !! h with
      | Some x => (s, answer_of (file_record (w_dev w) x i) ABytes)
      | None => (s, ABroken)
      end
  | ODelete h =>
      match s_handles s !! h with
      | Some x => let '(w', r) := file_delete x w in (set_world w' s, answer_of r (fun _ => ADone))
      | None => (s, ABroken)
      end
  | ORename old new => let '(w', r) := w_rename old new w in (set_world w' s, answer_of r (fun _ => ADone))
  | OList => (s, answer_of (w_directory w) (fun es => AList (map entry_line es)))
  | OFree => (s, answer_of (w_blocks_free w) ACount)
  | OName => (s, match w_name w with Some n => ABytes n | None => AError EUnformatted end)
  | OValidate => (s, answer_of (validate w) AReport)
  | OInit => (set_world (initialize w) s, ADone)
  | OReopen => (mk_session (open_world (w_type w) (w_dev w)) [] [], ADone)
  | OFormat name id => let '(w', r) := write_format name id w in (set_world w' s, answer_of r (fun _ => ADone))
  end.

(** A sequence of calls and its answers. *)
Fixpoint calls (s : session) (os : list op) : session * list answer :=
  match os with
  | [] => (s, [])
  | o :: os => let '(s, r) := call s o in let '(s, rs) := calls s os in (s, r :: rs)
  end.
