(** A client that has begun to read a file, or to list the directory, and makes
    other calls before it goes on. *)
From Verif Require Import Base Layout Block Chain GeosTypes DirEntry Header World Directory Rel GeosFile File DirIter Spec SpecChain Session SpecDisk.

(** One turn: a call on the disk, or a step of what was begun. *)
Inductive turn (A : Type) := Other (o : op) | Step (x : A).
Arguments Other {A} o.
Arguments Step {A} x.

(** The steps among the turns. *)
Definition steps {A} (ts : list (turn A)) : list A :=
  concat (map (fun t => match t with Step x => [x] | Other _ => [] end) ts).

(** The table of files after the calls among the turns; [None] if one of them
    is outside its protocol, formats the disk, or opens the image again. *)
Fixpoint after {A} (t : disk_type) (a : astate) (ts : list (turn A)) : option astate :=
  match ts with
  | [] => Some a
  | Step _ :: ts => after t a ts
  | Other o :: ts =>
      match o with
      | OFormat _ _ | OReopen => None
      | _ => match astep t a o with Some (a', _) => after t a' ts | None => None end
      end
  end.

(** None of the calls writes to the file in slot [i], renames or deletes it. *)
Fixpoint untouched {A} (t : disk_type) (a : astate) (i : nat) (ts : list (turn A)) : Prop :=
  match ts with
  | [] => True
  | Step _ :: ts => untouched t a i ts
  | Other o :: ts =>
      about a o <> Some i
      /\ match astep t a o with Some (a', _) => untouched t a' i ts | None => True end
  end.

(** None of the calls deletes the file in slot [i]. *)
Fixpoint survives {A} (t : disk_type) (a : astate) (i : nat) (ts : list (turn A)) : Prop :=
  match ts with
  | [] => True
  | Step _ :: ts => survives t a i ts
  | Other o :: ts =>
      match o with ODelete _ => about a o <> Some i | _ => True end
      /\ match astep t a o with Some (a', _) => survives t a' i ts | None => True end
  end.

(** The answers to the reads of a reader, each of so many bytes, and the disk
    after the turns. *)
Fixpoint reading (s : session) (r : chain_reader) (ts : list (turn nat)) : list (res (list nat)) * session :=
  match ts with
  | [] => ([], s)
  | Other o :: ts => reading (fst (call s o)) r ts
  | Step n :: ts =>
      let '(r', x) := reader_read (w_dev (s_world s)) r n in
      let '(xs, s') := reading s r' ts in (x :: xs, s')
  end.

(** The answers of a reader when the image is [d1] at the first read, of [n1]
    bytes, [d2] at the second, and so on. *)
Fixpoint readings (ds : list (dev * nat)) (r : chain_reader) : list (res (list nat)) :=
  match ds with
  | [] => []
  | (d, n) :: ds => let '(r', x) := reader_read d r n in x :: readings ds r'
  end.

(** The bytes of an answer; has it fewer than were asked for? *)
Definition bytes_of (x : res (list nat)) : list nat := match x with Ok bs => bs | _ => [] end.
Definition comes_short (n : nat) (x : res (list nat)) : bool := match x with Ok bs => length bs <? n | _ => true end.

(** The same for a reader of the Convert stream of a GEOS file. *)
Fixpoint converting (s : session) (r : geos_reader) (ts : list (turn nat)) : list (res (list nat)) * session :=
  match ts with
  | [] => ([], s)
  | Other o :: ts => converting (fst (call s o)) r ts
  | Step n :: ts =>
      let '(r', x) := geos_read (w_dev (s_world s)) r n in
      let '(xs, s') := converting s r' ts in (x :: xs, s')
  end.

(** The answers of a directory iterator when the image is [d1] at the first
    call of [next], [d2] at the second, and so on. *)
Fixpoint answers (ds : list dev) (it : dir_iter) : list (option (res dirent)) :=
  match ds with
  | [] => []
  | d :: ds => let '(it', x) := dir_next d it in x :: answers ds it'
  end.

(** The answers among turns with other calls, and the disk after them. *)
Fixpoint iterating (s : session) (it : dir_iter) (ts : list (turn unit)) : list (option (res dirent)) * session :=
  match ts with
  | [] => ([], s)
  | Other o :: ts => iterating (fst (call s o)) it ts
  | Step _ :: ts =>
      let '(it', x) := dir_next (w_dev (s_world s)) it in
      let '(xs, s') := iterating s it' ts in (x :: xs, s')
  end.

(** The states the disk goes through. *)
Fixpoint moments {A} (s : session) (ts : list (turn A)) : list session :=
  match ts with
  | [] => [s]
  | Other o :: ts => s :: moments (fst (call s o)) ts
  | Step _ :: ts => moments s ts
  end.

(** Is the answer a file of this name? *)
Definition names (name : list nat) (x : option (res dirent)) : bool :=
  match x with Some (Ok e) => bool_decide (de_name e = name) | _ => false end.

(** A client that writes to a file through the writer [k], [Some buf], or
    flushes it, [None], and makes other calls in between: the calls it makes. *)
Definition call_of (k : nat) (x : turn (option (list nat))) : op :=
  match x with Other o => o | Step (Some buf) => OWrite k buf | Step None => OFlush k end.

(** What it writes. *)
Definition written (ts : list (turn (option (list nat)))) : list nat :=
  concat (map (fun x => match x with Step (Some buf) => buf | _ => [] end) ts).

(** None of the other calls writes to the file in slot [i], renames or deletes it. *)
Fixpoint elsewhere (t : disk_type) (a : astate) (k i : nat) (ts : list (turn (option (list nat)))) : Prop :=
  match ts with
  | [] => True
  | x :: ts =>
      match x with Other o => about a o <> Some i | Step _ => True end
      /\ match astep t a (call_of k x) with Some (a', _) => elsewhere t a' k i ts | None => True end
  end.
