(** Hex dumps: /repo/src/util/mod.rs lines 4-55. Text is a list of code points. *)
From Verif Require Import Base.

(** One hex digit (lower case). *)
Definition hex_digit (n : nat) : nat := if n <? 10 then 48 + n else 87 + n.

(** [{:02x}] of a byte. *)
Definition hex2 (b : nat) : list nat := [hex_digit (b / 16); hex_digit (b mod 16)].

(** [{:04x}] of an offset: at least four digits, more when needed. *)
Fixpoint hex_digits (fuel n : nat) : list nat :=
  match fuel with
  | 0 => []
  | S fuel => (if n / 16 =? 0 then [] else hex_digits fuel (n / 16)) ++ [hex_digit (n mod 16)]
  end.
Definition hex4 (n : nat) : list nat :=
  let ds := hex_digits (S n) n in repeat 48 (4 - length ds) ++ ds.

(** The printable column: lines 42-45. *)
Definition ascii_or_dot (b : nat) : nat := if (32 <=? b) && (b <=? 126) then b else 46.

(** One row: lines 18-47. *)
Definition hex_row (prefix : list nat) (offset : nat) (row : list nat) : list nat :=
  prefix ++ hex4 offset ++ [58; 32]
  ++ concat (map (fun b => hex2 b ++ [32]) row)
  ++ concat (repeat [32; 32; 32] (16 - length row))
  ++ map ascii_or_dot row.

(** The loop of hexdump: lines 17-53; [buffer] is what is left to print. *)
Fixpoint hexdump_loop (fuel : nat) (prefix : list nat) (offset : nat) (buffer : list nat)
    : list nat :=
  match fuel with
  | 0 => []
  | S fuel =>
      match buffer with
      | [] => []
      | _ =>
          hex_row prefix offset (take 16 buffer)
          ++ (if 16 <? length buffer then [10] else [])
          ++ hexdump_loop fuel prefix (offset + 16) (drop 16 buffer)
      end
  end.

(** hexdump: lines 5-55. *)
Definition hexdump (prefix buffer : list nat) : list nat :=
  match buffer with
  | [] => prefix ++ hex4 0 ++ [58; 32]
  | _ => hexdump_loop (length buffer) prefix 0 buffer
  end.
