(** Vocabulary for what can be done to ElGamal ciphertexts without a key, with the operators of the library. *)
From Coq Require Import ZArith Bool List.
From Verif Require Import Outcome FieldModel CurveParams EccModel SpecEcc DmeModel SpecDme ElgamalModel.
Open Scope Z_scope.

Section Changes.
  Variables (dbg : bool) (live : Z -> bool).
  (** P - Q as P + (-1) * Q, which has no exception for the point at infinity *)
  Definition minus (P Q : point) : res point := do R <- pmulz dbg live CV Q (-1); padd dbg live CV P R.
  (** the sum of two ciphertexts *)
  Definition add_ctxt (c c' : ctxt) : res ctxt :=
    do u <- padd dbg live CV (cu c) (cu c');
    do v <- padd dbg live CV (cmv c) (cmv c');
    Ok (mkct u v).
  (** the message [P] of a ciphertext replaced by [Q] *)
  Definition replace (c : ctxt) (P Q : point) : res ctxt :=
    do d <- minus Q P;
    do v <- padd dbg live CV (cmv c) d;
    Ok (mkct (cu c) v).
  (** the message of [c'] from that of [c], when both were made with the same draw *)
  Definition from_known (c : ctxt) (P : point) (c' : ctxt) : res point :=
    do d <- minus (cmv c') (cmv c);
    padd dbg live CV d P.
End Changes.
