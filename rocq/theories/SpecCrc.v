(** What the CRC is: the register of the reflected polynomial 0x1EDC6F41, one bit at a time. *)
From Coq Require Import ZArith List Bool.
Import ListNotations.
Open Scope Z_scope.

(** one shift of the register *)
Definition shift1 (c : Z) : Z := if Z.odd c then Z.lxor (Z.shiftr c 1) 0x82F63B78 else Z.shiftr c 1.
Fixpoint shifts (k : nat) (c : Z) : Z := match k with O => c | S k' => shifts k' (shift1 c) end.

(** one byte, and a sequence of bytes *)
Definition crc_byte (c b : Z) : Z := shifts 8 (Z.lxor c b).
Definition crc (c : Z) (bs : list Z) : Z := fold_left crc_byte bs c.

Definition byte (b : Z) : Prop := 0 <= b < 256.
Definition word (w : Z) : Prop := 0 <= w < 2 ^ 32.

(** the integer written by bytes, most significant first, and the one least significant first *)
Fixpoint big_endian (bs : list Z) : Z :=
  match bs with [] => 0 | b :: r => b * 256 ^ Z.of_nat (length r) + big_endian r end.
Fixpoint little_endian (bs : list Z) : Z := match bs with [] => 0 | b :: r => b + 256 * little_endian r end.

(** [bs] is the shortest big-endian form of [n] *)
Definition shortest (bs : list Z) (n : Z) : Prop :=
  Forall byte bs /\ big_endian bs = n /\ (forall b r, bs = b :: r -> b <> 0).

(** number of bytes of an integer *)
Definition nbytes (n : Z) : Z := if n =? 0 then 0 else Z.log2 (Z.abs n) / 8 + 1.

(** carry-less multiplication: polynomials over GF(2), bit i being the coefficient of x^i *)
Fixpoint clmul_pos (a : positive) (b : Z) : Z :=
  match a with
  | xH => b
  | xO a' => 2 * clmul_pos a' b
  | xI a' => Z.lxor b (2 * clmul_pos a' b)
  end.
Definition clmul (a b : Z) : Z := match a with Zpos p => clmul_pos p b | _ => 0 end.

(** x^32 + x^28 + x^27 + ... (Castagnoli) *)
Definition poly : Z := 0x11EDC6F41.

(** the bits of a byte sequence, least significant bit of each byte first, as a polynomial whose first bit
    is the highest coefficient *)
Definition bits_of (b : Z) : list bool := map (fun i => Z.testbit b (Z.of_nat i)) (seq 0 8).
Fixpoint poly_of (l : list bool) (a : Z) : Z := match l with [] => a | b :: r => poly_of r (2 * a + Z.b2z b) end.
Definition message_poly (bs : list Z) : Z := poly_of (flat_map bits_of bs) 0.

(** the 32 coefficients of a remainder, in the order of the register *)
Definition reflect32 (c : Z) : Z := poly_of (map (fun i => Z.testbit c (Z.of_nat i)) (seq 0 32)) 0.

(** parity of the number of set bits *)
Fixpoint parity_pos (p : positive) : bool := match p with xH => true | xO q => parity_pos q | xI q => negb (parity_pos q) end.
Definition parity (n : Z) : bool := match n with Z0 => false | Zpos p | Zneg p => parity_pos p end.

(** bytes usable in a block of 64-bit glibc: blocks are multiples of 16 bytes, at least 32, with 8 bytes of header *)
Definition glibc (len : Z) : Z := Z.max 32 ((len + 8 + 15) / 16 * 16) - 8.
