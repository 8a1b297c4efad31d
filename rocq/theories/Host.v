(** Image files on the host: opening and creating them by path. The host's file
    system maps a path to the bytes of a file; directories, links, permissions
    and failures of the system are not modelled. *)
From Coq Require Import Ascii String.
From Verif Require Import Base Layout Image Block Flat Cdisk Text Errors.
Local Open Scope list_scope.

Definition file_path : Type := list N.
Definition host : Type := file_path -> option (list nat).
Definition put_file (p : file_path) (bytes : list nat) (h : host) : host :=
  fun q => if bool_decide (q = p) then Some bytes else h q.

(** The part of a path after the last slash (std::path::Path::file_name). A path
    that ends in a slash or in ".." is not modelled. *)
Fixpoint file_name (p : file_path) : list N :=
  match p with
  | [] => []
  | c :: p' => if existsb (fun x => x =? 47)%N p' then file_name p' else if (c =? 47)%N then p' else p
  end.

(** Errors of the system: no such file; the file exists; mapping an empty file
    (the memmap library refuses it). *)
Definition missing : io_error := mk_io_error KNotFound (FromSystem (str "No such file or directory (os error 2)")).
Definition exists_already : io_error := mk_io_error KAlreadyExists (FromSystem (str "File exists (os error 17)")).
Definition empty_map : io_error := mk_io_error KInvalidInput (FromText (str "memory map must have a non-zero length")).

(** Results of the calls below. *)
Inductive outcome_of (A : Type) := Good (a : A) | Bad (e : io_error).
Arguments Good {A} a.
Arguments Bad {A} e.

(** MmapOptions::map and map_mut of the memmap library: the bytes of the file. *)
Definition map_file (k : image_kind) (bytes : list nat) : outcome_of image :=
  match bytes with [] => Bad empty_map | _ => Good (mk_image k bytes) end.

(** Image::open_read_only and Image::open_read_write: /repo/src/disk/image.rs lines 21-31. *)
Definition image_open (writable : bool) (p : file_path) (h : host) : outcome_of image :=
  match h p with
  | None => Bad missing
  | Some bytes => map_file (if writable then ReadWriteMap else ReadOnlyMap) bytes
  end.

(** File::set_len (std): cuts the file, or appends zeros. *)
Definition set_len (n : nat) (bytes : list nat) : list nat := take n bytes ++ repeat 0 (n - length bytes).

(** Image::create: image.rs lines 33-42. With [create_new] the file must not
    exist; without it the file is opened as it is. *)
Definition image_create (p : file_path) (n : nat) (create_new : bool) (h : host) : host * outcome_of image :=
  match h p, create_new with
  | Some _, true => (h, Bad exists_already)
  | None, false => (h, Bad missing)
  | o, _ =>
      let bytes := set_len n (default [] o) in
      (put_file p bytes h, map_file ReadWriteMap bytes)
  end.

(** D64::create, D71::create, D81::create up to the call of [initialize]: d64.rs
    lines 178-184, d71.rs lines 209-215, d81.rs lines 214-220. *)
Definition disk_create (t : disk_type) (p : file_path) (g : geometry) (create_new : bool) (h : host) : host * outcome_of flat_dev :=
  match image_create p (N.to_nat (geometry_size g)) create_new h with
  | (h', Good im) => (h', match flat_new t im with Ok d => Good d | Err e => Bad (to_io e) | _ => Bad (to_io EUnknown) end)
  | (h', Bad e) => (h', Bad e)
  end.

(** disk::open: /repo/src/disk/mod.rs lines 172-197. The type and the sectors of
    the image; every attempt opens the same file. *)
Definition disk_open_path (writable : bool) (p : file_path) (h : host) : outcome_of (disk_type * dev) :=
  match image_open writable p h with
  | Bad e => Bad e
  | Good im =>
      match disk_open (from_extension (file_name p)) im with
      | Ok (t, d) => Good (t, unflatten d)
      | Err e => Bad (to_io e)
      | _ => Bad (to_io EUnknown)
      end
  end.

(** The file behind an image when the program has ended: what the mapping holds. *)
Definition file_of_dev (d : dev) : list nat := im_bytes (fl_image (flatten ReadWriteMap d)).
