(** Property C114: someone who listens to oblivious transfers learns nothing about the messages (src/ot/ot.cpp,
    src/dme/dme.cpp). The counts are those of Prop_Ddh. A conversation takes [needs l] draws besides the four of the
    string, so dividing by the number K * order ^ (needs l + 4) of cases and by order ^ 3, what is lost against the
    distinguisher is (keys_in l + 4) / order, whatever the number of transfers. *)
From Coq Require Import ZArith List Bool.
From Verif Require Import Outcome CurveParams EccModel SpecEcc DmeModel SpecDme OtModel SpecCount SpecDdh SpecDdh2 SpecDdh3 SpecDdh4 DdhCases DdhHear6 DdhHearCase.
Import ListNotations.
Open Scope Z_scope.

(** C114. A conversation is told apart from one in which all ciphertexts are random elements, as well as a distinguisher
    breaks Diffie-Hellman and a little more. The messages are chosen by M, which has heard everything said before. *)
Theorem C114_silent : forall dbg live c c1 c2, live c = true -> live c1 = true -> live c2 = true ->
  forall (T : Type) (coin : T -> Prop) K, how_many coin K ->
  forall l M A, key_first l -> good_steps l -> (forall t k h, coin t -> is_valid live (fst (M t k h)) /\ is_valid live (snd (M t k h))) ->
  exists N W g, overheard_guess dbg live c c1 c2 l coin M A N /\ silent_guess dbg live c c1 l coin A W /\
    ddh_gap (and_steps l (and_draw (and_draw (and_draw (and_draw coin))))) (with_string l M A) g /\
    Z.abs (order ^ 3 * (N - W) - g) <= (4 + Z.of_nat (keys_in l)) * K * order ^ (Z.of_nat (needs l) + 6).
Proof. exact L_C114_silent. Qed.
Print Assumptions C114_silent.

(** Two ways of choosing the messages are told apart as well as two distinguishers break Diffie-Hellman and a little more. *)
Theorem C114_messages : forall dbg live c c1 c2, live c = true -> live c1 = true -> live c2 = true ->
  forall (T : Type) (coin : T -> Prop) K, how_many coin K -> forall l M0 M1 A, key_first l -> good_steps l ->
  (forall t k h, coin t -> is_valid live (fst (M0 t k h)) /\ is_valid live (snd (M0 t k h))) ->
  (forall t k h, coin t -> is_valid live (fst (M1 t k h)) /\ is_valid live (snd (M1 t k h))) ->
  exists N0 N1 g0 g1, overheard_guess dbg live c c1 c2 l coin M0 A N0 /\ overheard_guess dbg live c c1 c2 l coin M1 A N1 /\
    ddh_gap (and_steps l (and_draw (and_draw (and_draw (and_draw coin))))) (with_string l M0 A) g0 /\
    ddh_gap (and_steps l (and_draw (and_draw (and_draw (and_draw coin))))) (with_string l M1 A) g1 /\
    Z.abs (order ^ 3 * (N0 - N1) - (g0 - g1)) <= 2 * (4 + Z.of_nat (keys_in l)) * K * order ^ (Z.of_nat (needs l) + 6).
Proof. exact L_C114_messages. Qed.
Print Assumptions C114_messages.

(** One transfer: infinity or the generator for branch 0, or random elements. *)
Example C114_case : forall dbg live c c1 c2, live c = true -> live c1 = true -> live c2 = true -> how_many no_coin 1 /\
  overheard_guess dbg live c c1 c2 one_transfer no_coin sends_inf first_inf (order ^ 7) /\
  overheard_guess dbg live c c1 c2 one_transfer no_coin (sends_gen c) first_inf 0 /\
  silent_guess dbg live c c1 one_transfer no_coin first_inf (order ^ 6).
Proof. exact (fun dbg live c c1 c2 L L1 L2 => conj no_coins (case_hear dbg live c c1 c2 L L1 L2)). Qed.
