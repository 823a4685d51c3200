(** Curve constants.
    The field classes hard-code their modulus (/repo/src/fields/field_secp256r1.cpp:7-24,
    /repo/src/fields/field_bn254.cpp:7-24) and each curve class hard-codes its parameters
    (/repo/src/ecc/ecc_secp256r1.cpp:11-24, /repo/src/ecc/ecc_bn254.cpp:11-24). *)
From Coq Require Import ZArith.
Open Scope Z_scope.

(** One instantiation of the templates: the moduli of Field_XXX_p and Field_XXX_n, and the members
    prime, a, b, G.x, G.y, order, cofactor that the curve constructor sets.  No setter exists, so
    every live object of a curve class has these values. *)
Record cparams := {
  fieldp : Z;      (* modulus of Field_XXX_p *)
  fieldn : Z;      (* modulus of Field_XXX_n *)
  c_prime : Z;
  c_a : Z;
  c_b : Z;
  c_gx : Z;
  c_gy : Z;
  c_order : Z;
  c_cofactor : Z }.

Definition secp256r1 : cparams := {|
  fieldp := 0xffffffff00000001000000000000000000000000ffffffffffffffffffffffff;
  fieldn := 0xffffffff00000000ffffffffffffffffbce6faada7179e84f3b9cac2fc632551;
  c_prime := 0xffffffff00000001000000000000000000000000ffffffffffffffffffffffff;
  c_a := 0xffffffff00000001000000000000000000000000fffffffffffffffffffffffc;
  c_b := 0x5ac635d8aa3a93e7b3ebbd55769886bc651d06b0cc53b0f63bce3c3e27d2604b;
  c_gx := 0x6b17d1f2e12c4247f8bce6e563a440f277037d812deb33a0f4a13945d898c296;
  c_gy := 0x4fe342e2fe1a7f9b8ee7eb4a7c0f9e162bce33576b315ececbb6406837bf51f5;
  c_order := 0xffffffff00000000ffffffffffffffffbce6faada7179e84f3b9cac2fc632551;
  c_cofactor := 1 |}.

Definition bn254 : cparams := {|
  fieldp := 0x2523648240000001BA344D80000000086121000000000013A700000000000013;
  fieldn := 0x2523648240000001BA344D8000000007FF9F800000000010A10000000000000D;
  c_prime := 0x2523648240000001BA344D80000000086121000000000013A700000000000013;
  c_a := 0;
  c_b := 2;
  c_gx := 0x2523648240000001BA344D80000000086121000000000013A700000000000012;
  c_gy := 1;
  c_order := 0x2523648240000001BA344D8000000007FF9F800000000010A10000000000000D;
  c_cofactor := 1 |}.
