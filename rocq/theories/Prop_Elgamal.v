(** Property C55: ElGamal encryption (src/elgamal). *)
From Coq Require Import ZArith Bool List Lia.
From Verif Require Import Outcome FieldModel SpecField CurveParams EccModel SpecEcc DmeModel SpecDme ElgamalModel SpecElgamal ElgamalProofs.
Import ListNotations.
Open Scope Z_scope.

(** Objects made by the constructor, and copies of good objects, satisfy [elgamal_ok]. *)
Theorem C55_objects : forall live E a, live a = true ->
  elgamal_ok live (eg_new a) /\ (elgamal_ok live E -> elgamal_ok live (eg_copy E a)).
Proof. exact L_C55_objects. Qed.
Print Assumptions C55_objects.

(** C55: decrypting gives the decoding of the point encrypted, unless the draw makes r*sk*G or r*sk*G + P infinite. *)
Theorem C55_decrypts : forall dbg live E sk pk P r, elgamal_ok live E -> scal sk -> multiple live pk (fval sk) -> is_valid live P ->
  exists c us, eg_encrypt dbg live E pk P r = Ok c /\ ct_valid live c /\ pmul dbg live CV (cu c) sk = Ok us /\
    (pinf us = false -> pinf (cmv c) = false -> eg_decrypt dbg live sk c = Ok (fval (px P) / 1048576)) /\
    (pinf us = true <-> (order | r * fval sk)) /\
    (forall m, multiple live P m -> (pinf (cmv c) = true <-> (order | r * fval sk + m))).
Proof. exact L_C55_decrypts. Qed.
Print Assumptions C55_decrypts.

(** Every integer has an encoding: the first abscissa of a curve point at or above 2^20 * m, modulo p. *)
Theorem C55_encode : forall dbg live E m, live (eaddr E) = true ->
  exists i R, 0 <= i < FIELD_p /\ eg_encode dbg live E m = Ok R /\ finite live R /\
    fval (px R) = (1048576 * m + i) mod FIELD_p /\ on_curve_x (1048576 * m + i) /\
    (forall j, 0 <= j < i -> ~ on_curve_x (1048576 * m + j)).
Proof. exact L_C55_encode. Qed.
Print Assumptions C55_encode.

(** The integers whose encoding decodes to them. *)
Theorem C55_roundtrip : forall dbg live E m R, live (eaddr E) = true -> eg_encode dbg live E m = Ok R ->
  (eg_decode R = m <->
   0 <= m /\ exists i, 0 <= i < 1048576 /\ 1048576 * m + i < FIELD_p /\ on_curve_x (1048576 * m + i)).
Proof. exact L_C55_roundtrip. Qed.
Print Assumptions C55_roundtrip.

(** The integer interface. *)
Theorem C55_integer : forall dbg live E sk pk m r, elgamal_ok live E -> scal sk -> multiple live pk (fval sk) ->
  0 <= m -> (exists i, 0 <= i < 1048576 /\ 1048576 * m + i < FIELD_p /\ on_curve_x (1048576 * m + i)) ->
  exists c us, eg_encryptZ dbg live E pk m r = Ok c /\ pmul dbg live CV (cu c) sk = Ok us /\
    (pinf us = false -> pinf (cmv c) = false -> eg_decrypt dbg live sk c = Ok m).
Proof. exact L_C55_integer. Qed.
Print Assumptions C55_integer.

(** The excluded draws: debug builds dereference null, release builds decode another point, or by luck the right one. *)
Theorem C55_degenerate : forall dbg live E sk pk P r c us,
  elgamal_ok live E -> scal sk -> multiple live pk (fval sk) -> is_valid live P ->
  eg_encrypt dbg live E pk P r = Ok c -> pmul dbg live CV (cu c) sk = Ok us ->
  (dbg = true -> pinf us = true \/ pinf (cmv c) = true -> eg_decrypt dbg live sk c = Err NullDeref) /\
  (dbg = false -> pinf (cmv c) = true -> eg_decrypt dbg live sk c = Ok (fval (px P) / 1048576)) /\
  (dbg = false -> pinf us = true -> pinf (cmv c) = false ->
     same_point (cmv c) P /\ exists R, psub dbg live CV (cmv c) us = Ok R /\ ~ same_point R P /\
       eg_decrypt dbg live sk c = Ok (fval (px R) / 1048576)).
Proof. exact L_C55_degenerate. Qed.
Print Assumptions C55_degenerate.

(** secret key 3, message the generator, draw 2; the integer 7, whose encoding is 7 * 2^20 + 6 *)
Example C55_case : forall dbg live a, live a = true ->
  exists pk c, pmulz dbg live CV (gen CV a) 3 = Ok pk /\ scal (fe_new FIELD_n 3) /\ multiple live pk (fval (fe_new FIELD_n 3)) /\
    eg_encrypt dbg live (eg_new a) pk (gen CV a) 2 = Ok c /\
    eg_decrypt dbg live (fe_new FIELD_n 3) c = Ok (fval (px (gen CV a)) / 1048576) /\ on_curve_x (1048576 * 7 + 6).
Proof. exact L_C55_case. Qed.

(** the draw 0 *)
Example C55_degenerate_case : forall live a, live a = true ->
  exists pk c, pmulz true live CV (gen CV a) 3 = Ok pk /\
    eg_encrypt true live (eg_new a) pk (gen CV a) 0 = Ok c /\ eg_decrypt true live (fe_new FIELD_n 3) c = Err NullDeref.
Proof. exact L_C55_degenerate_case. Qed.

(** keyGen never returns a key pair: it falls off its end. *)
Theorem C55_keygen_refuted : forall dbg live E r, elgamal_ok live E -> keyGen dbg live E r = Err MissingReturn.
Proof. exact L_C55_keygen_ok. Qed.
Print Assumptions C55_keygen_refuted.

Theorem C55_keygen_never : forall dbg live E r kp, keyGen dbg live E r <> Ok kp.
Proof. exact L_C55_keygen. Qed.
Print Assumptions C55_keygen_never.

(** A copy keeps a pointer into the object it was copied from, so it cannot encrypt once that is destroyed. *)
Theorem C55_copy_refuted : forall dbg live a b pk P r, live a = false -> live b = true -> 2 <= r < order ->
  eg_encrypt dbg live (eg_copy (eg_new a) b) pk P r = Err UseAfterFree.
Proof. exact L_C55_copy. Qed.
Print Assumptions C55_copy_refuted.

Example C55_copy_case : let live := fun x => x =? 1 in live 0 = false /\ live 1 = true /\ 2 <= 5 < order.
Proof. split; [reflexivity|]. split; [reflexivity|]. split; [discriminate|reflexivity]. Qed.
