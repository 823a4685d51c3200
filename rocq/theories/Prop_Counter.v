(** Property C98: what OPPRFclient::correctDecryption returns (src/opprf/opprf.cpp:154-158). *)
From Coq Require Import ZArith Bool List.
From Verif Require Import Outcome FieldModel CurveParams EccModel DmeModel OtModel OpprfModel CounterModel CounterProofs.
Import ListNotations.
Open Scope Z_scope.

(** C98. In any sequence of fewer than 2^31 calls, on any clients and any points, the first, fifth, ninth ... call answers that the
    decryption is correct and the others that it is not. *)
Theorem C98_calls : forall l, Z.of_nat (length l) < 2 ^ 31 ->
  exists a, decryption_checks 0 l = Ok (map (fun k => Z.of_nat k mod 4 =? 0) (seq 0 (length l)), a).
Proof. exact L_C98_calls. Qed.
Print Assumptions C98_calls.

(** The call number 2^31 is undefined: the counter is an int. *)
Theorem C98_overflow : forall l, 2 ^ 31 <= Z.of_nat (length l) -> decryption_checks 0 l = Err SignedOverflow.
Proof. exact L_C98_overflow. Qed.
Print Assumptions C98_overflow.

(** Nothing else matters: neither the points, nor which client is asked. *)
Theorem C98_blind : forall l l', length l = length l' -> decryption_checks 0 l = decryption_checks 0 l'.
Proof. exact L_C98_blind. Qed.
Print Assumptions C98_blind.

(** So the answers are no function of the client and the point. *)
Theorem C98_function_refuted : forall (C : client) (P : point), ~ exists f : client * point -> bool, forall l rs a, decryption_checks 0 l = Ok (rs, a) -> rs = map f l.
Proof. exact L_C98_refuted. Qed.
Print Assumptions C98_function_refuted.

Example C98_case : let x := (client_new 1 crs_default, gen CV 1) in let y := (client_new 2 crs_default, pt_inf CV) in
  decryption_checks 0 [x; x; y; x; y; y] = Ok ([true; false; false; false; true; false], 6) /\
  decryption_checks (2 ^ 31 - 2) [x; x] = Err SignedOverflow.
Proof. split; vm_compute; reflexivity. Qed.
