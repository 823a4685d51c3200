(** Properties C105, C106, C107: reductions to the decisional Diffie-Hellman problem in the group of CURVE
    (src/elgamal/elgamal.cpp, src/dme/dme.cpp, src/ot/ot.cpp). The coin is any predicate with K solutions, adversaries
    are arbitrary functions, and every number counts the coins and draws that make an adversary say yes; there is only
    one such number (C105_counts). *)
From Coq Require Import ZArith List Bool.
From Verif Require Import Outcome CurveParams EccModel SpecEcc DmeModel SpecDme OtModel ElgamalModel SpecElgamal SpecCount CountMath SpecDdh DdhProofs DdhProofs2 DdhProofs3 DdhCases.
Open Scope Z_scope.

(** A count is determined by what is counted. *)
Theorem C105_counts : forall (X : Type) (P : X -> Prop) n m, how_many P n -> how_many P m -> n = m.
Proof. exact @how_many_unique. Qed.
Print Assumptions C105_counts.

(** C105. Encryptions of two messages, each chosen after seeing the public key, are told apart exactly as well as two
    distinguishers together tell (a*G, b*G, ab*G) from (a*G, b*G, c*G). *)
Theorem C105_cpa : forall dbg live E, elgamal_ok live E -> forall (T : Type) (coin : T -> Prop) K, how_many coin K ->
  forall M0 M1 A, (forall t X, is_valid live (M0 t X)) -> (forall t X, is_valid live (M1 t X)) ->
  exists N0 N1 g0 g1, eg_guess dbg live E coin M0 A N0 /\ eg_guess dbg live E coin M1 A N1 /\
    ddh_gap coin (with_message M0 A) g0 /\ ddh_gap coin (with_message M1 A) g1 /\ order * (N0 - N1) = g0 - g1.
Proof. exact @L_C105_cpa. Qed.
Print Assumptions C105_cpa.

(** An encryption of a chosen message against one of a random point. *)
Theorem C105_random : forall dbg live E, elgamal_ok live E -> forall (T : Type) (coin : T -> Prop) K, how_many coin K ->
  forall M A, (forall t X, is_valid live (M t X)) ->
  exists N R g, eg_guess dbg live E coin M A N /\ eg_guess_random dbg live E coin A R /\ ddh_gap coin (with_message M A) g /\ order * N - R = g.
Proof. exact @L_C105_random. Qed.
Print Assumptions C105_random.

(** Nothing weaker than the Diffie-Hellman assumption will do: a distinguisher breaks the encryption as well as it
    breaks Diffie-Hellman. *)
Theorem C105_converse : forall dbg live E, elgamal_ok live E -> forall (T : Type) (coin : T -> Prop) K, how_many coin K ->
  forall M D, (forall t X, is_valid live (M t X)) ->
  exists N R g, eg_guess dbg live E coin M (less_message M D) N /\ eg_guess_random dbg live E coin (less_message M D) R /\ ddh_gap coin D g /\ order * N - R = g.
Proof. exact @L_C105_converse. Qed.
Print Assumptions C105_converse.

(** C106. The strings of the two constructors are told apart no better than Diffie-Hellman, up to twice the chance of
    drawing zero. *)
Theorem C106_crs : forall dbg live c, live c = true -> forall (T : Type) (coin : T -> Prop) K, how_many coin K ->
  forall A, exists Nd Nm g, dec_guess dbg live c coin A Nd /\ messy_guess dbg live c coin A Nm /\
    ddh_gap (and_draw coin) (blown A) g /\ Z.abs (order * Nd - Nm - g) <= K * (2 * order ^ 3).
Proof. exact @L_C106_crs. Qed.
Print Assumptions C106_crs.

(** C107. The public key a receiver sends tells the sender the branch no better than two distinguishers together
    break Diffie-Hellman, up to four times the chance of drawing zero: for the string of DME_DDH(), *)
Theorem C107_random : forall dbg live c, live c = true -> forall (T : Type) (coin : T -> Prop) K, how_many coin K ->
  forall A, exists N0 N1 g0 g1, branch_guess dbg live c 0 coin A N0 /\ branch_guess dbg live c 1 coin A N1 /\
    ddh_gap (and_draw (and_draw (and_draw coin))) (first_half (fun _ y => y) A) g0 /\
    ddh_gap (and_draw (and_draw (and_draw coin))) (second_half (fun _ y => y) A) g1 /\
    Z.abs (order * (N0 - N1) - (g0 - g1)) <= K * (4 * order ^ 5).
Proof. exact @L_C107_branch. Qed.
Print Assumptions C107_random.

(** and for that of DME_DDH(messy), with half the slack. *)
Theorem C107_messy : forall dbg live c, live c = true -> forall (T : Type) (coin : T -> Prop) K, how_many coin K ->
  forall A, exists N0 N1 g0 g1, branch_guess_messy dbg live c 0 coin A N0 /\ branch_guess_messy dbg live c 1 coin A N1 /\
    ddh_gap (and_draw (and_draw (and_draw coin))) (first_half (fun x y => x * y) A) g0 /\
    ddh_gap (and_draw (and_draw (and_draw coin))) (second_half (fun x y => x * y) A) g1 /\
    Z.abs (order * (N0 - N1) - (g0 - g1)) <= K * (2 * order ^ 5).
Proof. exact @L_C107_messy. Qed.
Print Assumptions C107_messy.

(** Concrete cases, without coins. A distinguisher whose gap is not zero: it says yes to two points at infinity. *)
Example C105_gap : how_many no_coin 1 /\ ddh_gap no_coin both_inf (order * order - order).
Proof. exact (conj no_coins case_gap). Qed.
(** It tells an encryption of the point at infinity from one of the generator. *)
Example C105_case : forall dbg live a, live a = true ->
  eg_guess dbg live (eg_new a) no_coin (fun _ _ => pt_inf CV) both_inf order /\ eg_guess dbg live (eg_new a) no_coin (fun _ _ => gen CV a) both_inf 0.
Proof. exact case_eg. Qed.
(** Why C106 needs slack: this test separates the strings and the distinguisher made of it has no gap. *)
Example C106_case : forall dbg live c, live c = true ->
  dec_guess dbg live c no_coin half_inf 0 /\ messy_guess dbg live c no_coin half_inf (order * order * (order - 1)) /\ ddh_gap (and_draw no_coin) (blown half_inf) 0.
Proof. exact case_crs. Qed.
(** A test that separates the branches whenever g0 is infinite. *)
Example C107_case : forall dbg live c, live c = true ->
  branch_guess dbg live c 0 no_coin key_finite 0 /\ branch_guess dbg live c 1 no_coin key_finite (order ^ 2 * (order - 1) ^ 2).
Proof. exact case_branch. Qed.
Example C107_case_messy : forall dbg live c, live c = true -> branch_guess_messy dbg live c 0 no_coin key_finite 0.
Proof. exact case_branch_messy. Qed.
