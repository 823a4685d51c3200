(** Property C93: ElGamal ciphertexts (src/elgamal) combined or changed without a key.
    [add_ctxt], [replace] and [from_known] use the operators of the library on ciphertexts and points only. *)
From Coq Require Import ZArith Bool List Lia.
From Verif Require Import Outcome FieldModel SpecField CurveParams EccModel SpecEcc DmeModel SpecDme DmeProofs ElgamalModel SpecElgamal SpecElgamal2 ElgamalProofs ElgamalProofs2.
Import ListNotations.
Open Scope Z_scope.

(** C93. The sum of two ciphertexts is a ciphertext of the sum of the points, and decrypts to its decoding. *)
Theorem C93_sum : forall dbg live E pk P1 P2 r1 r2 c1 c2, elgamal_ok live E -> is_valid live pk -> is_valid live P1 -> is_valid live P2 ->
  eg_encrypt dbg live E pk P1 r1 = Ok c1 -> eg_encrypt dbg live E pk P2 r2 = Ok c2 ->
  exists c P c', add_ctxt dbg live c1 c2 = Ok c /\ padd dbg live CV P1 P2 = Ok P /\ is_valid live P /\ eg_encrypt dbg live E pk P (r1 + r2) = Ok c' /\ same_ctxt c c' /\
    forall sk us, scal sk -> multiple live pk (fval sk) -> pmul dbg live CV (cu c) sk = Ok us -> pinf us = false -> pinf (cmv c) = false ->
      eg_decrypt dbg live sk c = Ok (fval (px P) / 1048576).
Proof. exact L_C93_sum. Qed.
Print Assumptions C93_sum.

(** Whoever knows the point in a ciphertext replaces it by any other: the result is the ciphertext of the other point with the same draw. *)
Theorem C93_replace : forall dbg live E pk P Q r c, elgamal_ok live E -> is_valid live pk -> is_valid live P -> is_valid live Q ->
  eg_encrypt dbg live E pk P r = Ok c ->
  exists c' c'', replace dbg live c P Q = Ok c' /\ eg_encrypt dbg live E pk Q r = Ok c'' /\ same_ctxt c' c''.
Proof. exact L_C93_replace. Qed.
Print Assumptions C93_replace.

(** A draw used twice shows in the ciphertexts, and one of the two points then gives the other. *)
Theorem C93_reuse : forall dbg live E pk P1 P2 r1 r2 c1 c2, elgamal_ok live E -> is_valid live pk -> is_valid live P1 -> is_valid live P2 ->
  eg_encrypt dbg live E pk P1 r1 = Ok c1 -> eg_encrypt dbg live E pk P2 r2 = Ok c2 ->
  (same_point (cu c1) (cu c2) <-> (order | r1 - r2)) /\
  (same_point (cu c1) (cu c2) -> exists R, from_known dbg live c1 P1 c2 = Ok R /\ same_point R P2).
Proof. exact L_C93_reuse. Qed.
Print Assumptions C93_reuse.

(** Adding a ciphertext of the point at infinity gives every ciphertext of the same point, for exactly one draw each. *)
Theorem C93_fresh : forall dbg live E pk P r c r', elgamal_ok live E -> is_valid live pk -> is_valid live P -> eg_encrypt dbg live E pk P r = Ok c ->
  exists! s, draw s /\ exists z c' c'', eg_encrypt dbg live E pk (pt_inf CV) s = Ok z /\ add_ctxt dbg live c z = Ok c' /\
    eg_encrypt dbg live E pk P r' = Ok c'' /\ same_ctxt c' c''.
Proof. exact L_C93_fresh. Qed.
Print Assumptions C93_fresh.

(** The public key and the ciphertext determine the point and the draw. *)
Theorem C93_binds : forall dbg live E E' pk pk' P P' r r' c c', elgamal_ok live E -> elgamal_ok live E' ->
  is_valid live pk -> is_valid live pk' -> is_valid live P -> is_valid live P' ->
  eg_encrypt dbg live E pk P r = Ok c -> eg_encrypt dbg live E' pk' P' r' = Ok c' -> same_point pk pk' -> same_ctxt c c' ->
  same_point P P' /\ (order | r - r').
Proof. exact L_C93_binds. Qed.
Print Assumptions C93_binds.

(** The ciphertext alone does not: it is one of any point, under exactly one key. *)
Theorem C93_any_point : forall dbg live E pk P r c Q a, elgamal_ok live E -> is_valid live pk -> is_valid live P -> is_valid live Q -> live a = true ->
  eg_encrypt dbg live E pk P r = Ok c -> ~ (order | r) ->
  exists! k, draw k /\ exists pk' c', getRandomPoint dbg live CV (Some a) k = Ok pk' /\ eg_encrypt dbg live E pk' Q r = Ok c' /\ same_ctxt c c'.
Proof. exact L_C93_any. Qed.
Print Assumptions C93_any_point.

(** secret key 3: the ciphertexts of G with draw 2 and of 5*G with draw 4, added, replaced, and the second made with the draw 2 *)
Example C93_case : forall dbg live a, live a = true ->
  exists pk Q c1 c2 c3 c P, pmulz dbg live CV (gen CV a) 3 = Ok pk /\ pmulz dbg live CV (gen CV a) 5 = Ok Q /\
    eg_encrypt dbg live (eg_new a) pk (gen CV a) 2 = Ok c1 /\ eg_encrypt dbg live (eg_new a) pk Q 4 = Ok c2 /\ eg_encrypt dbg live (eg_new a) pk Q 2 = Ok c3 /\
    add_ctxt dbg live c1 c2 = Ok c /\ multiple live P 6 /\ eg_decrypt dbg live (fe_new FIELD_n 3) c = Ok (fval (px P) / 1048576) /\
    ~ same_point (cu c1) (cu c2) /\ (exists R, from_known dbg live c1 (gen CV a) c3 = Ok R /\ same_point R Q) /\
    exists c', replace dbg live c1 (gen CV a) Q = Ok c' /\ same_ctxt c' c3.
Proof. exact L_C93_case. Qed.
