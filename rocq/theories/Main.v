(** The program cdisk, from its arguments to its effect on the host: main and the
    commands of /repo/src/bin/cdisk.rs. The clap library is modelled by what it
    guarantees here: required arguments are present, validators have accepted
    their arguments, and a type is one of the possible values; otherwise it
    prints a usage message and ends the program with status 1. *)
From Coq Require Import Ascii String.
From Verif Require Import Base Layout Image Block Petscii GeosTypes DirEntry Validate Flat Cdisk Text Errors Host.
Local Open Scope list_scope.

(** str::parse::<u8> (std): an optional plus sign and decimal digits, at most 255. *)
Fixpoint parse_digits (acc : N) (s : list N) : option N :=
  match s with
  | [] => Some acc
  | c :: s =>
      if ((48 <=? c) && (c <=? 57))%N then
        let n := (acc * 10 + (c - 48))%N in
        if (255 <? n)%N then None else parse_digits n s
      else None
  end.
Definition parse_u8 (s : list N) : option nat :=
  match s with
  | [] => None
  | [43%N] => None
  | c :: s' => option_map N.to_nat (parse_digits 0 (if (c =? 43)%N then s' else s))
  end.

(** optional_u8_parser: cdisk.rs lines 206-215; the outer [None] is [Err]. *)
Definition optional_u8_parser (v : list N) (min max : nat) : option (option nat) :=
  if bool_decide (v = str "all") then Some None
  else match parse_u8 v with
       | Some n => if (min <=? n) && (n <=? max) then Some (Some n) else None
       | None => None
       end.
(** optional_track_validator and optional_sector_validator: lines 217-231 and
    239-241; optional_track_parser and optional_sector_parser: lines 234-236 and
    243-245, which unwrap. *)
Definition track_arg (v : list N) : option (option nat) := optional_u8_parser v 1 40.
Definition sector_arg (v : list N) : option (option nat) := optional_u8_parser v 0 20.

(** FileType::from_string: /repo/src/disk/directory.rs lines 40-49. Of the letters
    outside ASCII only U+017F becomes one of the letters used here in upper case. *)
Definition upper (c : N) : N :=
  if ((97 <=? c) && (c <=? 122))%N then (c - 32)%N else if (c =? 383)%N then 83%N else c.
Definition type_from_string (s : list N) : option file_type :=
  let s := List.map upper s in
  if bool_decide (s = str "DEL") then Some DEL
  else if bool_decide (s = str "SEQ") then Some SEQ
  else if bool_decide (s = str "PRG") then Some PRG
  else if bool_decide (s = str "USR") then Some USR
  else if bool_decide (s = str "REL") then Some REL
  else None.
(** The argument -t: lines 70-77 (possible values, default) and 162-164. *)
Definition type_arg (v : option (list N)) : option file_type :=
  let v := default (str "seq") v in
  if bool_decide (v = str "prg") || bool_decide (v = str "seq") || bool_decide (v = str "usr")
  then Some (default SEQ (type_from_string v))
  else None.

(** The arguments after the name of the image: lines 23-136. *)
Inductive command :=
| CBamShow
| CBamEdit (allocate : bool) (track sector : list N)
| CRead (source : list N) (destination : option (list N))
| CWrite (ty : option (list N)) (source : list N) (destination : option (list N))
| CAppend (source : list N) (destination : option (list N))
| CGeosRead (source : list N) (destination : option (list N))
| CCreate
| CDir (verbosity : nat)
| CFormat (name id : list N)
| CRename (old new : list N)
| CDelete (name : list N)
| CDump (name : option (list N))
| CValidate.

(** What the program finds: standard input, as it is delivered; how reading a
    file delivers its bytes; the size of the buffer of [io::copy]; and how many
    steps we are willing to wait for a copy that may not end. *)
Record surroundings := mk_surroundings {
  su_stdin : list (list nat);
  su_cut : list nat -> list (list nat);
  su_buffer : nat;
  su_patience : nat
}.

(** How the program ends. [Unmodelled]: it has cut off the file that it has
    mapped, or it reads the file that it is changing. *)
Inductive ending := Finished (failure : option io_error) | Usage | Panicked | Endless | Unmodelled.
(** Its exit status, and what it prints on standard error: lines 201-203 (main
    returns normally after an error), clap (usage), std (panics). *)
Definition exit_status (e : ending) : option nat :=
  match e with
  | Finished _ => Some 0
  | Usage => Some 1
  | Panicked => Some 101
  | Endless | Unmodelled => None
  end.
Definition error_line (e : ending) : list N :=
  match e with Finished (Some x) => str "Error: " ++ show_io x ++ [10%N] | _ => [] end.

(** The files afterwards; standard output as text (dir, dump, ...) and as raw
    bytes (read, geosread). *)
Record result := mk_result { r_host : host; r_text : list N; r_bytes : list nat; r_end : ending }.

Definition finish (r : res unit) : ending :=
  match r with
  | Ok _ => Finished None
  | Err e => Finished (Some (to_io e))
  | Panic => Panicked
  | NoFuel => Endless
  end.
Definition with_image (writable : bool) (p : file_path) (h : host) (k : disk_type -> dev -> result) : result :=
  match disk_open_path writable p h with
  | Good (t, d) => k t d
  | Bad e => mk_result h [] [] (Finished (Some e))
  end.
Definition changed (p : file_path) (h : host) (x : dev * res unit) : result :=
  mk_result (put_file p (file_of_dev (fst x)) h) [] [] (finish (snd x)).
Definition printed (h : host) (x : list N * res unit) : result := mk_result h (fst x) [] (finish (snd x)).

(** STDINOUT_PSEUDOFILENAME, open_fs_reader, open_fs_writer: lines 16-18 and 355-371. *)
Definition dash : file_path := str "-".
Definition read_source (e : surroundings) (h : host) (source : file_path) : option (list (list nat)) :=
  if bool_decide (source = dash) then Some (su_stdin e) else option_map (su_cut e) (h source).
Definition copied_to (p destination : file_path) (h : host) (x : option (list nat) * res unit) : result :=
  match x with
  | (None, r) => mk_result h [] [] (finish r)
  | (Some out, r) =>
      if bool_decide (destination = dash) then mk_result h [] out (finish r)
      else if bool_decide (destination = p) then mk_result (put_file p [] h) [] [] Unmodelled
      else mk_result (put_file destination out h) [] [] (finish r)
  end.

(** main and the commands: lines 20-204, 269-510. *)
Definition invoke (e : surroundings) (p : file_path) (c : command) (h : host) : result :=
  match c with
  | CBamShow => with_image false p h (fun t d => printed h (cmd_bam_show t d []))
  | CBamEdit allocate track sector =>
      match track_arg track, sector_arg sector with
      | Some track, Some sector => with_image true p h (fun t d => changed p h (cmd_bam_edit t track sector allocate d))
      | _, _ => mk_result h [] [] Usage
      end
  | CRead source destination =>
      with_image false p h (fun t d => copied_to p (default source destination) h (cmd_read t source (su_buffer e) d))
  | CWrite ty source destination =>
      match type_arg ty with
      | None => mk_result h [] [] Usage
      | Some ft =>
          match read_source e h source with
          | None => mk_result h [] [] (Finished (Some missing))
          | Some pieces =>
              with_image true p h (fun t d =>
                if bool_decide (source = p) && negb (bool_decide (source = dash)) then mk_result h [] [] Unmodelled
                else changed p h (cmd_write t pieces (default source destination) ft d))
          end
      end
  | CAppend source destination =>
      match read_source e h source with
      | None => mk_result h [] [] (Finished (Some missing))
      | Some pieces => with_image false p h (fun t d => changed p h (cmd_append t pieces (default source destination) d))
      end
  | CGeosRead source destination =>
      with_image false p h (fun t d =>
        copied_to p (default source destination) h (cmd_geosread t (su_patience e) source (su_buffer e) d))
  | CCreate =>
      let text := match from_extension (file_name p) with
                  | Some _ => []
                  | None => str "Unknown file extension.  Assuming D64..." ++ [10%N]
                  end in
      match h p with
      | Some _ => mk_result h text [] (Finished (Some exists_already))
      | None =>
          let '(bytes, r) := cmd_create (file_name p) (su_buffer e) in
          mk_result (put_file p bytes h) text [] (finish r)
      end
  | CDir verbosity => with_image false p h (fun t d => printed h (print_dir t verbosity d []))
  | CFormat name id => with_image true p h (fun t d => changed p h (cmd_format t name id d))
  | CRename old new => with_image true p h (fun t d => changed p h (cmd_rename t old new d))
  | CDelete name => with_image true p h (fun t d => changed p h (cmd_delete t name d))
  | CDump name => with_image true p h (fun t d => printed h (cmd_dump t name d []))
  | CValidate =>
      with_image true p h (fun t d =>
        let '(out, r) := print_validate t d [] in
        mk_result h out []
          match r, cmd_validate t d with
          | Ok false, Ok vs =>
              Finished (Some (mk_io_error KOther (FromText (dec (length vs) ++ str " errors found during validation."))))
          | _, _ => finish (done r)
          end)
  end.

(** The program run several times, one run after another; each run finds its own
    surroundings and names its own image. *)
Fixpoint invoke_all (runs : list (surroundings * file_path * command)) (h : host) : host * list result :=
  match runs with
  | [] => (h, [])
  | (e, p, c) :: runs =>
      let r := invoke e p c h in
      let '(h', rs) := invoke_all runs (r_host r) in (h', r :: rs)
  end.
