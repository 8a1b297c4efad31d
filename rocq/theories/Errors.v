(** Errors as the callers of the library get them: /repo/src/disk/error.rs. The
    text of an error is [show_error] of Text.v. *)
From Coq Require Import Ascii String.
From Verif Require Import Base Text.
Local Open Scope list_scope.

(** std::io::ErrorKind; [KHost] stands for the kinds that neither the library
    nor cdisk uses. *)
Inductive io_kind := KNotFound | KAlreadyExists | KInvalidInput | KInvalidData | KOther | KHost (n : nat).

(** std::io::Error: made by [io::Error::new] from a DiskError or from a text, or
    made by the operating system (the text is the system's). *)
Inductive io_source := FromDisk (e : disk_error) | FromText (s : list N) | FromSystem (s : list N).
Record io_error := mk_io_error { io_kind_of : io_kind; io_source_of : io_source }.

(** Display for io::Error (std). *)
Definition show_io (x : io_error) : list N :=
  match io_source_of x with FromDisk e => show_error e | FromText s | FromSystem s => s end.

(** From<DiskError> for io::Error and DiskError::to_io_error: error.rs lines
    81-113 and 137-143. *)
Definition to_io (e : disk_error) : io_error :=
  mk_io_error
    (match e with
     | EUnknown => KOther
     | EReadOnly => KOther
     | EInvalidLocation => KInvalidInput
     | EInvalidOffset => KInvalidInput
     | EInvalidHeader => KInvalidData
     | EInvalidBAM => KInvalidData
     | EInvalidLayout => KInvalidData
     | EInvalidRecord => KInvalidInput
     | EReadOverflow => KInvalidInput
     | EReadUnderrun => KInvalidInput
     | EWriteUnderrun => KInvalidInput
     | EUnformatted => KInvalidData
     | ENotFound => KNotFound
     | EChainLoop => KInvalidData
     | EInvalidChainLink => KInvalidData
     | EInvalidRelativeFile => KInvalidData
     | EUnpositioned => KInvalidInput
     | EFilenameTooLong => KInvalidInput
     | EFileExists => KInvalidInput
     | EDiskFull => KOther
     | EInvalidRecordIndex => KInvalidInput
     | EUnknownFormat => KInvalidData
     | EGEOSInfoNotFound => KInvalidData
     | ERecordTooLarge => KInvalidData
     | ENonLinearFile => KInvalidInput
     end) (FromDisk e).

(** From<io::Error> for DiskError: error.rs lines 115-125. *)
Definition from_io (x : io_error) : disk_error :=
  match io_source_of x with FromDisk e => e | _ => EUnknown end.

(** DiskError::from_io_error: error.rs lines 128-135. *)
Definition from_io_error (x : io_error) : option disk_error :=
  match io_source_of x with FromDisk e => Some e | _ => None end.

(** PartialEq<io::Error> for DiskError and PartialEq<DiskError> for io::Error:
    error.rs lines 178-188. *)
Definition disk_eq_io (e : disk_error) (x : io_error) : bool :=
  match from_io_error x with Some e' => bool_decide (e' = e) | None => false end.
Definition io_eq_disk (x : io_error) (e : disk_error) : bool :=
  match from_io_error x with Some e' => bool_decide (e' = e) | None => false end.
