(** PETSCII strings: /repo/src/petscii.rs. A [Petscii] (line 98) is a list of
    bytes; a Unicode string is a list of code points ([N]). *)
From Verif Require Import Base.

(** The end index computed by the loop of Petscii::from_padded_bytes: petscii.rs
    lines 108-115; [n] is the number of bytes still to be looked at. *)
Fixpoint padded_end (pad : nat) (bytes : list nat) (n : nat) : nat :=
  match n with
  | 0 => 0
  | S m => if bytes !!! m =? pad then padded_end pad bytes m else S m
  end.

(** Petscii::from_padded_bytes: petscii.rs lines 107-117. *)
Definition from_padded_bytes (bytes : list nat) (pad : nat) : list nat :=
  take (padded_end pad bytes (length bytes)) bytes.

(** Petscii::write_bytes_with_padding into a buffer of [dst_len] bytes:
    petscii.rs lines 152-168; [None] is PetsciiError::BufferExceeded, in which
    case nothing has been written. *)
Definition write_bytes_with_padding (s : list nat) (dst_len pad : nat) : option (list nat) :=
  if dst_len <? length s then None
  else Some (s ++ repeat pad (dst_len - length s)).

(** PETSCII_TO_CHAR_MAP: petscii.rs lines 17-75; NONE (line 9) is U+FFFD = 65533. *)
Definition petscii_map : list N := [
  65533;65533;65533;65533;65533;65533;65533;65533;65533;65533;65533;65533;65533;65533;65533;65533;
  65533;65533;65533;65533;65533;65533;65533;65533;65533;65533;65533;65533;65533;65533;65533;65533;
  32;33;34;35;36;37;38;39;40;41;42;43;44;45;46;47;
  48;49;50;51;52;53;54;55;56;57;58;59;60;61;62;63;
  64;97;98;99;100;101;102;103;104;105;106;107;108;109;110;111;
  112;113;114;115;116;117;118;119;120;121;122;91;163;93;8593;8592;
  9473;65;66;67;68;69;70;71;72;73;74;75;76;77;78;79;
  80;81;82;83;84;85;86;87;88;89;90;9547;65533;9475;9618;65533;
  65533;65533;65533;65533;65533;65533;65533;65533;65533;65533;65533;65533;65533;65533;65533;65533;
  65533;65533;65533;65533;65533;65533;65533;65533;65533;65533;65533;65533;65533;65533;65533;65533;
  160;9612;9604;9620;9601;9614;9618;9621;65533;65533;9621;9507;9623;9495;9491;9602;
  9487;9531;9523;9515;9614;9613;9621;9620;9620;9603;10003;9622;9629;9496;9624;9626;
  9473;65;66;67;68;69;70;71;72;73;74;75;76;77;78;79;
  80;81;82;83;84;85;86;87;88;89;90;9547;65533;9475;9618;65533;
  160;9612;9604;9620;9601;9614;9618;9621;65533;65533;9621;9507;9623;9495;9491;9602;
  9487;9531;9523;9515;9614;9613;9621;9620;9620;9603;10003;9622;9629;9496;9624;9618
]%N.

(** PETSCII_NONE: petscii.rs line 13. *)
Definition petscii_none : nat := 127.

(** petscii_to_unicode_char: petscii.rs lines 77-79. *)
Definition petscii_to_char (b : nat) : N := petscii_map !!! b.

(** Display for Petscii: petscii.rs lines 207-215. *)
Definition petscii_display (s : list nat) : list N := map petscii_to_char s.

(** The inner loop of Petscii::from_str_lossy: petscii.rs lines 126-131. *)
Fixpoint find_char (c : N) (m : list N) (p : nat) : option nat :=
  match m with
  | [] => None
  | x :: m => if (x =? c)%N then Some p else find_char c m (S p)
  end.

(** Petscii::from_str_lossy: petscii.rs lines 122-135. *)
Definition from_str_lossy (s : list N) : list nat :=
  map (fun c => match find_char c petscii_map 0 with Some p => p | None => petscii_none end) s.
