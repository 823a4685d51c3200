(** Property C118: a receiver of oblivious transfers that sends a point off the curve, twice, as its public key (src/ot/ot.cpp,
    src/dme/dme.cpp, src/opprf/opprf.cpp). [guesses] are the three points that it can compute from one ciphertext without any key. *)
From Coq Require Import ZArith Bool List Lia.
From Verif Require Import Outcome FieldModel ZpField SpecField ECGroup ECOrder CurveParams EccModel SpecEcc DmeModel SpecDme OtModel SpecOt SpecCount SpecDdh SpecTrick.
From Verif Require Import CrcModel SpecCrc AesModel SpecAes OpprfModel SpecOpprf SpecOpprf6 OpprfProofs OpprfCase TrickProofs2 TrickCase Prop_Aes.
Import ListNotations.
Open Scope Z_scope.

(** C118. The two points of the key are finite, and isValid rejects them. *)
Theorem C118_off : forall dbg live c, live c = true -> isValid dbg live CV (trick c) = Ok false /\ pinf (trick c) = false.
Proof. exact L_C118_off. Qed.
Print Assumptions C118_off.

(** encMsgs does not ask: whatever the string and the draws, both messages are among the guesses. *)
Theorem C118_refused_refuted : forall dbg live S c m0 m1 s0 t0 s1 t1, dme_ok live (sdme S) -> live c = true -> is_valid live m0 -> is_valid live m1 ->
  exists S' c0 c1, encMsgs dbg live S (trick_key c) m0 m1 s0 t0 s1 t1 = Ok (S', [c0; c1]) /\
    (exists M, In (Ok M) (guesses dbg live c c0) /\ is_valid live M /\ same_point M m0) /\
    (exists M, In (Ok M) (guesses dbg live c c1) /\ is_valid live M /\ same_point M m1).
Proof. exact L_C118_guesses. Qed.
Print Assumptions C118_refused_refuted.

(** The second part of a ciphertext that isValid accepts is the message itself or its negative. *)
Theorem C118_known : forall dbg live S c m0 m1 s0 t0 s1 t1 S' c0 c1, dme_ok live (sdme S) -> live c = true -> is_valid live m0 -> is_valid live m1 ->
  encMsgs dbg live S (trick_key c) m0 m1 s0 t0 s1 t1 = Ok (S', [c0; c1]) ->
  (isValid dbg live CV (cmv c0) = Ok true -> same_point (cmv c0) m0 \/ gadd CV (den CV (cmv c0)) (den CV m0) = None) /\
  (isValid dbg live CV (cmv c1) = Ok true -> same_point (cmv c1) m1 \/ gadd CV (den CV (cmv c1)) (den CV m1) = None).
Proof. exact L_C118_known. Qed.
Print Assumptions C118_known.

(** Both messages are sent in the clear for ((n^2+2)/3)^2 of the n^4 draws, that is in one transfer of nine. *)
Theorem C118_often : forall dbg live S c m0 m1, dme_ok live (sdme S) -> live c = true -> is_valid live m0 -> is_valid live m1 ->
  how_many (fun '(s0, t0, s1, t1) => draw s0 /\ draw t0 /\ draw s1 /\ draw t1 /\
    exists S' c0 c1, encMsgs dbg live S (trick_key c) m0 m1 s0 t0 s1 t1 = Ok (S', [c0; c1]) /\ same_point (cmv c0) m0 /\ same_point (cmv c1) m1)
    (((order ^ 2 + 2) / 3) ^ 2).
Proof. exact L_C118_often. Qed.
Print Assumptions C118_often.

(** In the oblivious PRF the key, in any round, gives nine candidates for the server's secret, one of which is right. *)
Theorem C118_secret : forall dbg live e iv S0 C0 a l S C c r qa qb qc qp u v,
  fresh_server S0 -> server_ready live S0 a -> history dbg live e iv l (S0, C0) = Ok (S, C) ->
  live c = true -> 1 <= r <= 16 -> loaded l r ->
  exists S' o c0 c1 P0 P1 N Q G, runOTRound dbg live S r (trick_key c) qa qb qc qp u v = Ok (S', o) /\ ocprf o = [c0; c1] /\
    In (Ok P0) (guesses dbg live c c0) /\ In (Ok P1) (guesses dbg live c c1) /\
    pmulz dbg live CV P0 (-1) = Ok N /\ padd dbg live CV P1 N = Ok Q /\ pmulz dbg live CV Q (halve (r - 1)) = Ok G /\
    is_valid live G /\ same_point G (ga S0).
Proof. exact L_C118_secret. Qed.
Print Assumptions C118_secret.

(** the draws 1, 2 leave the first message as it is; the draws 1, 0 hide the second behind the point *)
Example C118_case : forall dbg live c, live c = true ->
  exists D m0 m1 S' c0 c1 M, dme_new dbg live c messy 1 2 3 4 = Ok D /\ getRandomPoint dbg live CV (Some c) 7 = Ok m0 /\ getRandomPoint dbg live CV (Some c) 14 = Ok m1 /\
    encMsgs dbg live (otsndr_new D) (trick_key c) m0 m1 1 2 1 0 = Ok (S', [c0; c1]) /\ same_point (cmv c0) m0 /\
    ~ same_point (cmv c1) m1 /\ padd dbg live CV (cmv c1) (mirrored c) = Ok M /\ same_point M m1.
Proof. exact case118. Qed.

(** threshold 9, secret three times the generator, round 4 *)
Example C118_secret_case : forall dbg live c0 c1 c2 c, live c0 = true -> live c1 = true -> live c2 = true -> live c = true ->
  exists D Q N S0 S1 S2 o p0 p1 P0 P1 M R G, dme_new dbg live c0 dec 1 1 1 0 = Ok D /\ getRandomPoint dbg live CV (Some c0) 3 = Ok Q /\
    server_new dbg live c1 9 (dcrs D) 1 = Ok N /\ setSecret dbg live N Q = Ok (S0, set_curve Q (Some c1)) /\
    prepareKeysAndInputs dbg live small iv0 S0 case_prep = Ok S1 /\
    runOTRound dbg live S1 4 (trick_key c) case_quad case_quad case_quad case_quad 16 33 = Ok (S2, o) /\ ocprf o = [p0; p1] /\
    In (Ok P0) (guesses dbg live c p0) /\ In (Ok P1) (guesses dbg live c p1) /\
    pmulz dbg live CV P0 (-1) = Ok M /\ padd dbg live CV P1 M = Ok R /\ pmulz dbg live CV R (halve 3) = Ok G /\
    is_valid live G /\ same_point G Q.
Proof. exact case118_secret. Qed.
