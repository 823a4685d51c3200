(** AES-128 as in FIPS 197. It stands for what EVP_aes_128_ctr of OpenSSL computes on one block (src/utilities/aes.cpp:55,106);
    everywhere else the block function is arbitrary. A block is the list of its 16 bytes in order; byte r + 4c is row r, column c. *)
From Coq Require Import ZArith List Bool.
From Verif Require Import AesModel.
Import ListNotations.
Open Scope Z_scope.

(** ** Bytes as polynomials modulo x^8 + x^4 + x^3 + x + 1 (FIPS 197, 4.2) *)
Definition xtime (a : Z) : Z := Z.lxor (Z.shiftl a 1) (if Z.testbit a 7 then 283 else 0).
Definition bmul (a b : Z) : Z :=
  fold_right (fun i acc => Z.lxor (xtime acc) (if Z.testbit b (Z.of_nat i) then a else 0)) 0 (seq 0 8).
Definition bpow (a : Z) (k : nat) : Z := Nat.iter k (bmul a) 1.

(** ** SubBytes (5.1.1): the inverse, x^254, followed by an affine map over the bits *)
Definition affine (b : Z) : Z :=
  let bit i := Z.testbit b (i mod 8) in
  fold_right (fun i acc => let i := Z.of_nat i in
    acc + 2 ^ i * Z.b2z (xorb (xorb (xorb (xorb (xorb (bit i) (bit (i + 4))) (bit (i + 5))) (bit (i + 6))) (bit (i + 7))) (Z.testbit 99 i)))
    0 (seq 0 8).
Definition sbox_table : list Z := Eval vm_compute in map (fun i => affine (bpow (Z.of_nat i) 254)) (seq 0 256).
Definition sbox (a : Z) : Z := nth (Z.to_nat a) sbox_table 0.
Definition sub_bytes (s : list Z) : list Z := map sbox s.

(** ** ShiftRows (5.1.2): row r moves by r columns *)
Definition shift_rows (s : list Z) : list Z :=
  map (fun i => nth (i mod 4 + 4 * ((i / 4 + i mod 4) mod 4)) s 0) (seq 0 16).

(** ** MixColumns (5.1.3) *)
Definition mix_column (a b c d : Z) : list Z :=
  let x2 := xtime in let x3 x := Z.lxor (xtime x) x in
  [Z.lxor (Z.lxor (x2 a) (x3 b)) (Z.lxor c d); Z.lxor (Z.lxor a (x2 b)) (Z.lxor (x3 c) d);
   Z.lxor (Z.lxor a b) (Z.lxor (x2 c) (x3 d)); Z.lxor (Z.lxor (x3 a) b) (Z.lxor c (x2 d))].
Fixpoint mix_columns (s : list Z) : list Z :=
  match s with
  | a :: b :: c :: d :: s' => mix_column a b c d ++ mix_columns s'
  | _ => []
  end.

(** ** Key expansion (5.2): the next round key from the last one *)
Definition next_key (rcon : Z) (k : list Z) : list Z :=
  let w i := firstn 4 (skipn (4 * i) k) in
  let t := match w 3%nat with [a; b; c; d] => [Z.lxor (sbox b) rcon; sbox c; sbox d; sbox a] | _ => [] end in
  let w0 := xor_bytes (w 0%nat) t in
  let w1 := xor_bytes (w 1%nat) w0 in
  let w2 := xor_bytes (w 2%nat) w1 in
  let w3 := xor_bytes (w 3%nat) w2 in
  w0 ++ w1 ++ w2 ++ w3.

(** ** The cipher (5.1) *)
Fixpoint rounds (rcons : list Z) (k s : list Z) : list Z :=
  match rcons with
  | [] => s
  | r :: rcons' =>
      let k' := next_key r k in
      let s' := shift_rows (sub_bytes s) in
      match rcons' with
      | [] => xor_bytes s' k'
      | _ => rounds rcons' k' (xor_bytes (mix_columns s') k')
      end
  end.
Definition rcons : list Z := [1; 2; 4; 8; 16; 32; 64; 128; 27; 54].

(** exactly 16 bytes of a list; nothing changes if there are 16 *)
Definition sixteen (l : list Z) : list Z := map (fun i => nth i l 0 mod 256) (seq 0 16).
Definition aes128 (k b : list Z) : list Z := rounds rcons (sixteen k) (xor_bytes (sixteen b) (sixteen k)).
