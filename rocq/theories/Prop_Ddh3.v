(** Property C113: many ElGamal encryptions under one key, with messages chosen adaptively (src/elgamal/elgamal.cpp). The
    counts are those of Prop_Ddh. Nothing is lost in the number n of messages: divided by the numbers of coins and draws,
    both sides differ by the factor (order - 1) / order alone. *)
From Coq Require Import ZArith List Bool.
From Verif Require Import Outcome CurveParams EccModel SpecEcc DmeModel SpecDme ElgamalModel SpecElgamal SpecCount SpecDdh SpecDdh2 SpecDdh3 DdhCases DdhServe DdhServeCase.
Import ListNotations.
Open Scope Z_scope.

(** C113. Two ways of choosing n messages, each message when the public key and all earlier ciphertexts are known, are
    told apart exactly as well as two distinguishers together break Diffie-Hellman. *)
Theorem C113_cpa : forall dbg live E, elgamal_ok live E -> forall (T : Type) (coin : T -> Prop) K, how_many coin K -> forall n M0 M1 A,
  (forall t X l, is_valid live (M0 t X l)) -> (forall t X l, is_valid live (M1 t X l)) ->
  exists N0 N1 g0 g1, service_guess dbg live E n coin M0 A N0 /\ service_guess dbg live E n coin M1 A N1 /\
    ddh_gap (and_pairs n coin) (with_messages M0 A) g0 /\ ddh_gap (and_pairs n coin) (with_messages M1 A) g1 /\
    order ^ (Z.of_nat n + 1) * (order - 1) * (N0 - N1) = g0 - g1.
Proof. exact @L_C113_cpa. Qed.
Print Assumptions C113_cpa.

(** A service that encrypts what it is asked to against one that encrypts random points. *)
Theorem C113_random : forall dbg live E, elgamal_ok live E -> forall (T : Type) (coin : T -> Prop) K, how_many coin K -> forall n M A,
  (forall t X l, is_valid live (M t X l)) ->
  exists N W g, service_guess dbg live E n coin M A N /\ service_guess_random dbg live E n coin A W /\ ddh_gap (and_pairs n coin) (with_messages M A) g /\
    order * (order - 1) * (order ^ Z.of_nat n * N - W) = g.
Proof. exact @L_C113_random. Qed.
Print Assumptions C113_random.

(** Two messages, the second of which depends on the first ciphertext, against two points at infinity. *)
Example C113_case : forall dbg live a, live a = true -> how_many no_coin 1 /\
  service_guess dbg live (eg_new a) 2 no_coin (second_gen a) all_inf 0 /\ service_guess dbg live (eg_new a) 2 no_coin (fun _ _ _ => pt_inf CV) all_inf order.
Proof. exact (fun dbg live a L => conj no_coins (case_service dbg live a L)). Qed.
