(** Results, state transformers and byte-list operations shared by all model files. *)
From stdpp Require Export prelude list.
From Coq Require Export NArith ZArith Lia.

(** ** Errors: /repo/src/disk/error.rs lines 8-59 (enum DiskError, all variants). *)
Inductive disk_error :=
| EUnknown | EReadOnly | EInvalidLocation | EInvalidOffset | EInvalidHeader
| EInvalidBAM | EInvalidLayout | EInvalidRecord | EReadOverflow | EReadUnderrun
| EWriteUnderrun | EUnformatted | ENotFound | EChainLoop | EInvalidChainLink
| EInvalidRelativeFile | EUnpositioned | EFilenameTooLong | EFileExists
| EDiskFull | EInvalidRecordIndex | EUnknownFormat | EGEOSInfoNotFound
| ERecordTooLarge | ENonLinearFile.

Global Instance disk_error_eq_dec : EqDecision disk_error.
Proof. solve_decision. Defined.

(** The outcome of a Rust function returning [io::Result<A>]. [Panic] stands for
    any panic: failed assertion, index out of range, unwrap of an error,
    arithmetic overflow (checked arithmetic, as in a debug build). [NoFuel]
    is only produced when the fuel given to a model of a loop runs out. *)
Inductive res (A : Type) :=
| Ok (a : A)
| Err (e : disk_error)
| Panic
| NoFuel.
Arguments Ok {A} a.
Arguments Err {A} e.
Arguments Panic {A}.
Arguments NoFuel {A}.

(** The [?] operator on pure results. *)
Definition rbind {A B} (m : res A) (f : A -> res B) : res B :=
  match m with
  | Ok a => f a
  | Err e => Err e
  | Panic => Panic
  | NoFuel => NoFuel
  end.

(** A Rust method taking [&mut S] and returning [io::Result<A>]. The state is
    returned in all cases: an early return keeps the changes made so far. *)
Definition st (S A : Type) : Type := S -> S * res A.

Definition ret {S A} (a : A) : st S A := fun s => (s, Ok a).
Definition fail {S A} (e : disk_error) : st S A := fun s => (s, Err e).
Definition panic {S A} : st S A := fun s => (s, Panic).
Definition lift {S A} (r : res A) : st S A := fun s => (s, r).
(** Run a reader on the current state. *)
Definition asks {S A} (f : S -> res A) : st S A := fun s => (s, f s).
Definition gets {S A} (f : S -> A) : st S A := fun s => (s, Ok (f s)).
Definition modify {S} (f : S -> S) : st S unit := fun s => (f s, Ok tt).

(** Sequencing with the [?] operator. *)
Definition sbind {S A B} (m : st S A) (f : A -> st S B) : st S B :=
  fun s =>
    match m s with
    | (s', Ok a) => f a s'
    | (s', Err e) => (s', Err e)
    | (s', Panic) => (s', Panic)
    | (s', NoFuel) => (s', NoFuel)
    end.

Notation "'let?' x ':=' m 'in' k" := (rbind m (fun x => k))
  (at level 200, x pattern, m at level 100, k at level 200, right associativity).
Notation "'do!' x ':=' m 'in' k" := (sbind m (fun x => k))
  (at level 200, x pattern, m at level 100, k at level 200, right associativity).
Notation "'do_' m 'in' k" := (sbind m (fun _ => k))
  (at level 200, m at level 100, k at level 200, right associativity).

(** Run a transformer on a component of a larger state. *)
Definition zoom {S T A} (get : S -> T) (put : T -> S -> S) (m : st T A) : st S A :=
  fun s => let '(t, r) := m (get s) in (put t s, r).

(** A [for] loop whose body may return early with an error. *)
Fixpoint for_each {S X} (body : X -> st S unit) (xs : list X) : st S unit :=
  match xs with
  | [] => ret tt
  | x :: xs => do_ (body x) in for_each body xs
  end.

(** ** Byte lists *)

(** The range [a..b] (b included) of Rust's [a..=b]. *)
Definition range_incl (a b : nat) : list nat := seq a (S b - a).

(** [&l[off..off+n]] (only used in bounds). *)
Definition slice {A} (off n : nat) (l : list A) : list A := take n (drop off l).

(** [l[off..off+d.len()].copy_from_slice(d)] (only used in bounds). *)
Definition splice {A} (off : nat) (d l : list A) : list A :=
  take off l ++ d ++ drop (off + length d) l.

(** A block is a list of bytes; [b !!! i] is byte i. *)
Definition BLOCK_SIZE : nat := 256. (* /repo/src/disk/block.rs line 12 *)

Definition is_byte (b : nat) : Prop := b < 256.

(** /repo/src/disk/block.rs lines 149-150: [struct Location(u8, u8)]. *)
Notation location := (nat * nat)%type.

Definition zero_block : list nat := repeat 0 BLOCK_SIZE.

(** Sum of a list, for the iterator method [sum]. *)
Definition sum (l : list nat) : nat := fold_right Nat.add 0 l.
