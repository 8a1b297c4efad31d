(** Sprites: /repo/src/sprite.rs. *)
From Verif Require Import Base.

(** SPRITE_HEIGHT: line 3. *)
Definition SPRITE_HEIGHT : nat := 21.

(** UNICODE_BLOCK_ELEMENTS: lines 15-20, as code points. *)
Definition block_elements : list N :=
  [32; 9623; 9622; 9604; 9629; 9616; 9630; 9631;
   9624; 9626; 9612; 9625; 9600; 9628; 9627; 9608]%N.

(** [byte >> ((3 - block) * 2) & 0x03] *)
Definition two_bits (byte block : nat) : nat := byte / (4 ^ (3 - block)) mod 4.

(** Body of the loops of Sprite::to_unicode: lines 44-54. *)
Definition sprite_glyph (data : list nat) (row offset block : nat) : N :=
  let top := data !!! (row * 2 * 3 + offset) in
  let bottom :=
    if row * 2 + 1 <? SPRITE_HEIGHT then data !!! ((row * 2 + 1) * 3 + offset) else 0 in
  block_elements !!! (two_bits top block * 4 + two_bits bottom block).

(** Sprite::to_unicode: lines 35-60, as a list of code points (10 is newline). *)
Definition sprite_to_unicode (data : list nat) : list N :=
  concat (map (fun row =>
      concat (map (fun offset => map (sprite_glyph data row offset) (seq 0 4)) (seq 0 3))
      ++ [10%N])
    (seq 0 11)).
