(** Property C108: all the public keys of a receiver, and the client of the OPPRF (src/ot/ot.cpp, src/opprf/opprf.cpp).
    The counts are those of Prop_Ddh; the slack does not grow with the number of keys when it is divided by the number of
    draws and coins, K * order^(2n+6). *)
From Coq Require Import ZArith List Bool.
From Verif Require Import Outcome CurveParams EccModel SpecEcc DmeModel SpecDme OtModel AesModel OpprfModel SpecOpprf OpprfCase SpecCount SpecDdh SpecDdh2 DdhCases DdhCases2 DdhMany2 Prop_Aes Prop_Opprf.
Import ListNotations.
Open Scope Z_scope.

(** C108. Keys for two lists of branches are told apart no better than four distinguishers break Diffie-Hellman. *)
Theorem C108_random : forall dbg live c, live c = true -> forall (T : Type) (coin : T -> Prop) K, how_many coin K ->
  forall bs bs' A, Forall branch bs -> Forall branch bs' -> length bs = length bs' ->
  let n := length bs in let coins := and_pairs n (and_draw (and_draw (and_draw coin))) in
  exists N N' g1 g2 g1' g2', keys_guess dbg live c bs coin A N /\ keys_guess dbg live c bs' coin A N' /\
    ddh_gap coins (first_keys (fun _ y => y) bs A) g1 /\ ddh_gap coins (second_keys (fun _ y => y) bs A) g2 /\
    ddh_gap coins (first_keys (fun _ y => y) bs' A) g1' /\ ddh_gap coins (second_keys (fun _ y => y) bs' A) g2' /\
    Z.abs (order ^ (Z.of_nat n + 2) * (N - N') - (g1 + g2 - g1' - g2')) <= K * (12 * order ^ (2 * Z.of_nat n + 5)).
Proof. exact @L_C108_random. Qed.
Print Assumptions C108_random.

Theorem C108_messy : forall dbg live c, live c = true -> forall (T : Type) (coin : T -> Prop) K, how_many coin K ->
  forall bs bs' A, Forall branch bs -> Forall branch bs' -> length bs = length bs' ->
  let n := length bs in let coins := and_pairs n (and_draw (and_draw (and_draw coin))) in
  exists N N' g1 g2 g1' g2', keys_guess_messy dbg live c bs coin A N /\ keys_guess_messy dbg live c bs' coin A N' /\
    ddh_gap coins (first_keys (fun x y => x * y) bs A) g1 /\ ddh_gap coins (second_keys (fun x y => x * y) bs A) g2 /\
    ddh_gap coins (first_keys (fun x y => x * y) bs' A) g1' /\ ddh_gap coins (second_keys (fun x y => x * y) bs' A) g2' /\
    Z.abs (order ^ (Z.of_nat n + 2) * (N - N') - (g1 + g2 - g1' - g2')) <= K * (12 * order ^ (2 * Z.of_nat n + 5)).
Proof. exact @L_C108_messy. Qed.
Print Assumptions C108_messy.

(** The keys of the sixteen rounds of a client that has received the string of DME_DDH(), for two messages. *)
Theorem C108_client : forall dbg live c, live c = true -> forall (T : Type) (coin : T -> Prop) K, how_many coin K ->
  forall c' x x' A, live c' = true ->
  let coins := and_pairs 16 (and_draw (and_draw (and_draw coin))) in
  exists N N' g1 g2 g1' g2', client_guess dbg live c c' x coin A N /\ client_guess dbg live c c' x' coin A N' /\
    ddh_gap coins (first_keys (fun _ y => y) (bits_of x) A) g1 /\ ddh_gap coins (second_keys (fun _ y => y) (bits_of x) A) g2 /\
    ddh_gap coins (first_keys (fun _ y => y) (bits_of x') A) g1' /\ ddh_gap coins (second_keys (fun _ y => y) (bits_of x') A) g2' /\
    Z.abs (order ^ 18 * (N - N') - (g1 + g2 - g1' - g2')) <= K * (12 * order ^ 37).
Proof. exact @L_C108_client. Qed.
Print Assumptions C108_client.

(** Whatever ciphertexts a client accepts between its rounds, it sends the same keys; *)
Theorem C108_answers : forall dbg live e iv l C pks, talks dbg live e iv C l = Ok pks -> asks dbg live C (map fst l) = Ok pks.
Proof. exact L_C108_answers. Qed.
Print Assumptions C108_answers.

(** in particular those of a complete evaluation. *)
Theorem C108_session : forall dbg live e iv S C d R, session dbg live e iv S C d = Ok R ->
  exists cts pks, length cts = MSG_BITS /\ talks dbg live e iv C (combine (map (fun r => (r, rd_key (sd_round d r))) rounds) cts) = Ok pks /\
    asks dbg live C (map (fun r => (r, rd_key (sd_round d r))) rounds) = Ok pks.
Proof. exact L_C108_session. Qed.
Print Assumptions C108_session.

(** A server that looks for a finite key beside an infinite g0 tells the messages 0 and 32768 apart when the string
    happens to be like that. *)
Example C108_case : forall dbg live c c', live c = true -> live c' = true -> how_many no_coin 1 /\
  client_guess dbg live c c' 0 no_coin some_finite 0 /\ client_guess dbg live c c' 32768 no_coin some_finite (order ^ 17 * (order - 1) ^ 2).
Proof. intros dbg live c c' L L'. exact (conj no_coins (conj (case_client_0 dbg live c c' L L') (case_client_top dbg live c c' L L'))). Qed.
Example C108_bits : bits_of 5 = repeat 0 13 ++ [1; 0; 1] /\ Forall branch (bits_of 5).
Proof. exact (conj eq_refl (bits_branch 5)). Qed.
(** The evaluation of C50_case: the client talks for sixteen rounds. *)
Example C108_talk : forall dbg live c0 c1 c2, live c0 = true -> live c1 = true -> live c2 = true ->
  exists C l pks, length l = MSG_BITS /\ talks dbg live small iv0 C l = Ok pks.
Proof.
  intros dbg live c0 c1 c2 L0 L1 L2. destruct (C50_case dbg live c0 c1 c2 L0 L1 L2) as [D [Q [S0 [S [S' [C' [_ [_ [_ [_ [E _]]]]]]]]]]].
  destruct (L_C108_session _ _ _ _ _ _ _ _ E) as [cts [pks [L [ET _]]]]. eexists _, _, pks. split; [|exact ET]. rewrite combine_length, map_length, L. reflexivity.
Qed.
