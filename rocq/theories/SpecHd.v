(** Vocabulary for the distance between numbers the CRC accepts. *)
From Coq Require Import ZArith.
Open Scope Z_scope.

(** the number of binary digits 1 *)
Fixpoint ones_pos (p : positive) : Z := match p with xH => 1 | xO q => ones_pos q | xI q => 1 + ones_pos q end.
Definition ones (n : Z) : Z := match n with Z0 => 0 | Zpos p | Zneg p => ones_pos p end.

(** the place of bit [i] of a number, counted from the end, in the order in which the register takes the bits: bytes from the most
    significant one, in each byte the least significant bit first *)
Definition turn (i : Z) : Z := 8 * (i / 8) + (7 - i mod 8).
