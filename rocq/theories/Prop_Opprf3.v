(** Properties C87-C88: messages of the oblivious PRF that someone in between, or a server, has changed (src/opprf).
    [offline] is what a client with given draws makes of a transcript; [round_bit x r] is the branch the input asks for in round [r]. *)
From Coq Require Import ZArith Bool List Lia.
From Verif Require Import Outcome FieldModel SpecField CurveParams EccModel SpecEcc DmeModel SpecDme OtModel SpecOt CrcModel AesModel SpecAes.
From Verif Require Import OpprfModel SpecOpprf SpecOpprf2 SpecOpprf3 OpprfProofs5 OpprfProofs9 OpprfCase OpprfCase2 OpprfCase3 Prop_Aes.
Import ListNotations.
Open Scope Z_scope.

(** C87. The client looks at the branches its input asks for and at nothing else the server sends in the rounds. *)
Theorem C87_other_branch : forall dbg live e iv C x d t t', cx C = Some x -> same_for x rounds (tr_rounds t) (tr_rounds t') ->
  tr_masks t' = tr_masks t -> offline dbg live e iv C d t' = offline dbg live e iv C d t.
Proof. exact L_C87_same. Qed.
Print Assumptions C87_other_branch.

(** A round without its branch 1 goes unnoticed if the bit of the input is 0 and stops the client if it is 1. *)
Theorem C87_selective_failure : forall dbg live e iv C x d t C1 r, cx C = Some x -> 1 <= r <= 16 -> length (tr_rounds t) = 16%nat ->
  offline dbg live e iv C d t = Ok C1 ->
  offline dbg live e iv C d (cut_round r t) = if round_bit x r =? 0 then Ok C1 else Err OutOfBounds.
Proof. exact L_C87_cut. Qed.
Print Assumptions C87_selective_failure.

(** Which of the sixteen changed transcripts stop the client spells its input. *)
Theorem C87_reads_input : forall dbg live e iv C x d t C1, cx C = Some x -> 0 <= x < 2 ^ 16 -> length (tr_rounds t) = 16%nat ->
  offline dbg live e iv C d t = Ok C1 ->
  number (map (fun r => match offline dbg live e iv C d (cut_round r t) with Ok _ => 0 | Err _ => 1 end) rounds) = x.
Proof. exact L_C87_reads. Qed.
Print Assumptions C87_reads_input.

(** threshold 9, secret 3*G, input 5 = 101b *)
Example C87_case : forall dbg live c0 c1 c2, live c0 = true -> live c1 = true -> live c2 = true ->
  exists D Q S0 S t C1, dme_new dbg live c0 dec 2 1 1 0 = Ok D /\ getRandomPoint dbg live CV (Some c0) 3 = Ok Q /\
    server_new dbg live c1 9 (dcrs D) 1 = Ok S0 /\ setSecret dbg live S0 Q = Ok (S, set_curve Q (Some c1)) /\
    let C := setMessage (client_new c2 (dcrs D)) 5 in let d := with_keys case_draws (key2 5) in
    talk dbg live small iv0 S C d = Ok t /\ offline dbg live small iv0 C d t = Ok C1 /\
    offline dbg live small iv0 C d (cut_round 1 t) = Err OutOfBounds /\
    offline dbg live small iv0 C d (cut_round 2 t) = Ok C1 /\
    offline dbg live small iv0 C d (cut_round 3 t) = Err OutOfBounds /\
    forall r, 4 <= r <= 16 -> offline dbg live small iv0 C d (cut_round r t) = Ok C1.
Proof. exact case87. Qed.

(** C88. PRF ciphertexts whose two branches are shifted by different multiples of the generator are accepted, and the result moves by
    the shifts of the branches the input asks for. *)
Theorem C88_tilt : forall dbg live e iv C x d ks t t' C1, dme_ok live (rdme (otr C)) -> cx C = Some x -> is_valid live (result C) ->
  (forall r, 1 <= r <= 16 -> ~ (order | rd_key (sd_round d r))) -> (length (tr_rounds t) <= 16)%nat ->
  tilt_rounds live ks (tr_rounds t) (tr_rounds t') -> tr_masks t' = tr_masks t -> offline dbg live e iv C d t = Ok C1 ->
  exists C1', offline dbg live e iv C d t' = Ok C1' /\ key C1' = key C1 /\ is_valid live (result C1') /\
    den CV (result C1') = gadd CV (den CV (result C1)) (gmul CV (tilted x rounds ks) (ggen CV)).
Proof. exact L_C88_tilt. Qed.
Print Assumptions C88_tilt.

(** Shifting branch 1 of every round by [k] times the weight of its bit gives the client the value of the secret [a + k], at every
    input: someone who knows neither the secret nor the input has changed the secret of the function. *)
Theorem C88_other_secret : forall dbg live e iv S C d a x z k, aes_ready e iv -> server_ready live S a -> client_ready live C x ->
  same_crs (dcrs (sdme (ots S))) (dcrs (rdme (otr C))) ->
  good_draws dbg live e iv (dcrs (rdme (otr C))) (sdme (ots S)) (theta S) a x d -> multiple live (result C) z ->
  exists t, talk dbg live e iv S C d = Ok t /\
    forall t', tilt_rounds live (weighted k) (tr_rounds t) (tr_rounds t') -> tr_masks t' = tr_masks t ->
    exists C', offline dbg live e iv C d t' = Ok C' /\ multiple live (result C') (z + outcome_log d (theta S) (a + k) x).
Proof. exact L_C88_secret. Qed.
Print Assumptions C88_other_secret.

(** threshold 9, secret 3*G, input 5, tilted by 7: the result is off by 7*5*G *)
Example C88_case : forall dbg live c0 c1 c2, live c0 = true -> live c1 = true -> live c2 = true ->
  exists D Q S0 S t t' C1 C1', dme_new dbg live c0 dec 2 1 1 0 = Ok D /\ getRandomPoint dbg live CV (Some c0) 3 = Ok Q /\
    server_new dbg live c1 9 (dcrs D) 1 = Ok S0 /\ setSecret dbg live S0 Q = Ok (S, set_curve Q (Some c1)) /\
    let C := setMessage (client_new c2 (dcrs D)) 5 in let d := with_keys case_draws (key2 5) in
    talk dbg live small iv0 S C d = Ok t /\ tilt_rounds live (weighted 7) (tr_rounds t) (tr_rounds t') /\ tr_masks t' = tr_masks t /\
    offline dbg live small iv0 C d t = Ok C1 /\ offline dbg live small iv0 C d t' = Ok C1' /\
    den CV (result C1') = gadd CV (den CV (result C1)) (gmul CV 35 (ggen CV)).
Proof. exact case88. Qed.
