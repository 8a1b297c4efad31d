(** Specifications for sprite rendering and hex dumps. *)
From Verif Require Import Base.

(** ** Sprites *)

(** Pixel (x, y) of a 24x21 sprite: rows of three bytes, leftmost pixel in the
    highest bit; below the last row there are no pixels. *)
Definition pixel (data : list nat) (x y : nat) : bool :=
  (y <? 21) && N.testbit (N.of_nat (data !!! (y * 3 + x / 8))) (N.of_nat (7 - x mod 8)).

(** The Unicode block elements by the quadrants that are set. *)
Definition quadrants (ul ur ll lr : bool) : N :=
  match ul, ur, ll, lr with
  | false, false, false, false => 32      (* space *)
  | false, false, true, false => 9622     (* U+2596 lower left *)
  | false, false, false, true => 9623     (* U+2597 lower right *)
  | true, false, false, false => 9624     (* U+2598 upper left *)
  | true, false, true, true => 9625       (* U+2599 upper left and lower left and lower right *)
  | true, false, false, true => 9626      (* U+259A upper left and lower right *)
  | true, true, true, false => 9627       (* U+259B upper left and upper right and lower left *)
  | true, true, false, true => 9628       (* U+259C upper left and upper right and lower right *)
  | false, true, false, false => 9629     (* U+259D upper right *)
  | false, true, true, false => 9630      (* U+259E upper right and lower left *)
  | false, true, true, true => 9631       (* U+259F upper right and lower left and lower right *)
  | true, true, false, false => 9600      (* U+2580 upper half *)
  | false, false, true, true => 9604      (* U+2584 lower half *)
  | true, true, true, true => 9608        (* U+2588 full *)
  | true, false, true, false => 9612      (* U+258C left half *)
  | false, true, false, true => 9616      (* U+2590 right half *)
  end%N.

(** 11 lines of 12 glyphs, one for each 2x2 cell, each line ended by a newline. *)
Definition sprite_text (data : list nat) : list N :=
  concat (map (fun r =>
      map (fun c => quadrants (pixel data (2 * c) (2 * r)) (pixel data (2 * c + 1) (2 * r))
                              (pixel data (2 * c) (2 * r + 1)) (pixel data (2 * c + 1) (2 * r + 1)))
          (seq 0 12) ++ [10%N])
    (seq 0 11)).

(** ** Hex dumps: a reader for them *)

Definition hex_val (c : nat) : option nat :=
  if (48 <=? c) && (c <=? 57) then Some (c - 48)
  else if (97 <=? c) && (c <=? 102) then Some (c - 87)
  else None.

(** A number in hexadecimal up to a colon, and what follows the colon. *)
Fixpoint read_hex (acc : nat) (l : list nat) : option (nat * list nat) :=
  match l with
  | [] => None
  | c :: l =>
      if c =? 58 then Some (acc, l)
      else match hex_val c with Some v => read_hex (acc * 16 + v) l | None => None end
  end.

(** At most [n] groups of two hexadecimal digits and a space. *)
Fixpoint read_groups (n : nat) (l : list nat) : list nat :=
  match n with
  | 0 => []
  | S n =>
      match l with
      | h :: g :: 32 :: l =>
          match hex_val h, hex_val g with
          | Some a, Some b => (16 * a + b) :: read_groups n l
          | _, _ => []
          end
      | _ => []
      end
  end.

(** One line: a prefix of known length, the offset, a colon and a space, the groups. *)
Definition read_line (prefix offset : nat) (line : list nat) : option (list nat) :=
  match read_hex 0 (drop prefix line) with
  | Some (o, 32 :: rest) => if o =? offset then Some (read_groups 16 rest) else None
  | _ => None
  end.

Fixpoint split_lines (text : list nat) : list (list nat) :=
  match text with
  | [] => [[]]
  | c :: text =>
      if c =? 10 then [] :: split_lines text
      else match split_lines text with
           | l :: ls => (c :: l) :: ls
           | [] => [[c]]
           end
  end.

(** The bytes shown by the lines of a dump; each line must show the offset of
    its first byte. *)
Fixpoint read_lines (prefix offset : nat) (lines : list (list nat)) : option (list nat) :=
  match lines with
  | [] => Some []
  | l :: ls =>
      match read_line prefix offset l with
      | Some bs =>
          match read_lines prefix (offset + length bs) ls with
          | Some rest => Some (bs ++ rest)
          | None => None
          end
      | None => None
      end
  end.
Definition read_dump (prefix : nat) (text : list nat) : option (list nat) :=
  read_lines prefix 0 (split_lines text).
