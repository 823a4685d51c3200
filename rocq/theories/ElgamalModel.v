(** Model of elgamal::ElGamal, /repo/src/elgamal/elgamal.cpp, /repo/includes/elgamal.hpp. The module is commented out of
    testsuit/CMakeLists.txt. The draw of the curve's generator is an explicit argument. *)
From Coq Require Import ZArith Bool List.
From Verif Require Import Outcome FieldModel CurveParams EccModel DmeModel.
Import ListNotations.
Open Scope Z_scope.

(** elgamal.cpp:8, static const unsigned int l *)
Definition EG_SHIFT : Z := 20.

(** elgamal.hpp:35: the only member is the curve; an object is the address of that curve and the curve's member G,
    which has a pointer of its own *)
Record elgamal := mkeg { eaddr : Z; egen : point }.

(** the structure KeyPair, elgamal.hpp:25-29 *)
Record eg_keypair := mkekp { esk : fe; epk : point }.

(** ElGamal(), elgamal.hpp:41, with the constructor of the curve, ecc_secp256r1.cpp:11-24 *)
Definition eg_new (a : Z) : elgamal := mkeg a (gen CV a).
(** the implicit copy constructor, into an object whose curve is at [a]: G keeps its pointer *)
Definition eg_copy (E : elgamal) (a : Z) : elgamal := mkeg a (egen E).

Section Elgamal.
  Variables (dbg : bool) (live : Z -> bool).
  Local Notation pmul := (pmul dbg live CV).
  Local Notation pmulz := (pmulz dbg live CV).
  Local Notation padd := (padd dbg live CV).
  Local Notation psub := (psub dbg live CV).
  Local Notation randS := (getRandomScalar live CV).

  (** keyGen, elgamal.hpp:44, with generateKeyPair, ecc_template.hpp:658-663: no return statement
      (nor a conversion from its base-class Point to Point_XXX, so that it may not even compile) *)
  Definition keyGen (E : elgamal) (r : Z) : res eg_keypair := do _ <- pmulz (egen E) r; Err MissingReturn.

  (** encrypt on points, elgamal.cpp:10-17; the structure CTXT of elgamal.hpp:17-21 has the members of dme::CTXT *)
  Definition eg_encrypt (E : elgamal) (pk : point) (msg : point) (r : Z) : res ctxt :=
    do s <- randS (Some (eaddr E)) r;
    do u <- pmul (egen E) s;
    do t <- pmul pk s;
    do mv <- padd t msg;
    Ok (mkct u mv).

  (** decode, elgamal.cpp:26-33; mpz_div_2exp rounds down *)
  Definition eg_decode (P : point) : Z := fval (px P) / 2 ^ EG_SHIFT.

  (** decrypt, elgamal.cpp:19-23 *)
  Definition eg_decrypt (sk : fe) (c : ctxt) : res Z :=
    do t <- pmul (cu c) sk;
    do P <- psub (cmv c) t;
    Ok (eg_decode P).

  (** encode, elgamal.cpp:35-46; as in DmeModel the values looked up have period p *)
  Definition eg_encode (E : elgamal) (m : Z) : res point :=
    match loop_upto (Z.to_pos FIELD_p) (encode_step dbg live (Some (eaddr E))) (m * 2 ^ EG_SHIFT) with
    | inl _ => Err Diverge
    | inr r => r
    end.

  (** encrypt on integers, elgamal.hpp:47 *)
  Definition eg_encryptZ (E : elgamal) (pk : point) (m : Z) (r : Z) : res ctxt :=
    do P <- eg_encode E m; eg_encrypt E pk P r.
End Elgamal.
