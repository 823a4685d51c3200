(** Properties C78-C83: who learns what in an evaluation of the oblivious PRF (src/opprf).
    [talk] is the transcript of an evaluation: the public key and the answer of every round, then the masks.
    [offline] is what a client with given draws makes of a transcript, without any server. *)
From Coq Require Import ZArith Bool List Lia.
From Verif Require Import Outcome FieldModel SpecField CurveParams EccModel SpecEcc DmeModel SpecDme OtModel SpecOt CrcModel AesModel SpecAes.
From Verif Require Import OpprfModel SpecOpprf SpecOpprf2 OpprfProofs5 OpprfProofs6 OpprfProofs7 OpprfProofs8 OpprfCase OpprfCase2 Prop_Aes.
Import ListNotations.
Open Scope Z_scope.

(** An evaluation gives a transcript, and the client's result depends on nothing else the server does. *)
Theorem C78_transcript : forall dbg live e iv S C d S' C', session dbg live e iv S C d = Ok (S', C') ->
  exists t, talk dbg live e iv S C d = Ok t /\ offline dbg live e iv C d t = Ok C'.
Proof. exact L_session_talk. Qed.
Print Assumptions C78_transcript.

(** C78. The same transcript comes of any two inputs, with the keys [interchange] pairs. *)
Theorem C78_same : forall dbg live e iv c c' r1 r2 r3 r4 D, live c = true -> live c' = true ->
  ~ (order | r1) -> ~ (order | r2) -> ~ (order | r3) -> dme_new dbg live c dec r1 r2 r3 r4 = Ok D ->
  forall S C d f f' x x', rdme (otr C) = dme_new_crs c' (dcrs D) -> interchange r1 x x' f f' ->
  talk dbg live e iv S (setMessage C x) (with_keys d f) = talk dbg live e iv S (setMessage C x') (with_keys d f').
Proof. exact L_C78_same. Qed.
Print Assumptions C78_same.

(** ... and for every transcript and every other input there are such keys, exactly one draw for each round. *)
Theorem C78_hides : forall dbg live e iv c c' r1 r2 r3 r4 D, live c = true -> live c' = true ->
  ~ (order | r1) -> ~ (order | r2) -> ~ (order | r3) -> dme_new dbg live c dec r1 r2 r3 r4 = Ok D ->
  forall S C d f x x' t, rdme (otr C) = dme_new_crs c' (dcrs D) ->
  talk dbg live e iv S (setMessage C x) (with_keys d f) = Ok t ->
  exists f', (forall r, draw (f' r)) /\ talk dbg live e iv S (setMessage C x') (with_keys d f') = Ok t /\
    forall g, (forall r, 1 <= r <= 16 -> draw (g r)) -> talk dbg live e iv S (setMessage C x') (with_keys d g) = Ok t ->
      forall r, 1 <= r <= 16 -> g r = f' r.
Proof. exact L_C78_hides. Qed.
Print Assumptions C78_hides.

(** threshold 9, secret 3*G: one transcript for the inputs 5 and 0, with different keys *)
Example C78_case : forall dbg live c0 c1 c2, live c0 = true -> live c1 = true -> live c2 = true ->
  exists D Q S0 S t, dme_new dbg live c0 dec 2 1 1 0 = Ok D /\ getRandomPoint dbg live CV (Some c0) 3 = Ok Q /\
    server_new dbg live c1 9 (dcrs D) 1 = Ok S0 /\ setSecret dbg live S0 Q = Ok (S, set_curve Q (Some c1)) /\
    talk dbg live small iv0 S (setMessage (client_new c2 (dcrs D)) 5) (with_keys case_draws (key2 5)) = Ok t /\
    talk dbg live small iv0 S (setMessage (client_new c2 (dcrs D)) 0) (with_keys case_draws (key2 0)) = Ok t /\
    key2 5 1 <> key2 0 1.
Proof. exact case78. Qed.

(** C79. Whoever knows the draw [r1] of a decryption-mode CRS turns one transcript into the PRF value of every input up to the
    threshold, whatever the input of the evaluation was. *)
Theorem C79_all_values : forall dbg live e iv c c' r1 r2 r3 r4 D, live c = true -> live c' = true ->
  ~ (order | r1) -> ~ (order | r2) -> ~ (order | r3) -> dme_new dbg live c dec r1 r2 r3 r4 = Ok D ->
  forall S a d x f t, aes_ready e iv -> server_ready live S a -> same_crs (dcrs (sdme (ots S))) (dcrs D) ->
  talk dbg live e iv S (setMessage (client_new c' (dcrs D)) x) (with_keys d f) = Ok t ->
  forall x' f', 0 <= x' <= theta S -> interchange r1 x x' f f' ->
  good_draws dbg live e iv (dcrs (dme_new_crs c' (dcrs D))) (sdme (ots S)) (theta S) a x' (with_keys d f') ->
  exists C', offline dbg live e iv (setMessage (client_new c' (dcrs D)) x') (with_keys d f') t = Ok C' /\ is_valid live (result C') /\
    den CV (result C') = gadd CV (gmul CV (d_kopprf (sd_prep d)) (ggen CV)) (gmul CV x' (den CV (ga S))).
Proof. exact L_C79. Qed.
Print Assumptions C79_all_values.

(** ... and two such values differ by a known multiple of the server's secret, by the secret itself for neighbouring inputs *)
Theorem C79_secret : forall live S a P Q k x x', multiple live (ga S) a ->
  P = gadd CV (gmul CV k (ggen CV)) (gmul CV x (den CV (ga S))) -> Q = gadd CV (gmul CV k (ggen CV)) (gmul CV x' (den CV (ga S))) ->
  Q = gadd CV P (gmul CV (x' - x) (den CV (ga S))).
Proof. exact L_C79_secret. Qed.
Print Assumptions C79_secret.

(** threshold 9, secret 3*G, input 5: the values of 0 and 1 from that transcript, which differ by the secret *)
Example C79_case : forall dbg live c0 c1 c2, live c0 = true -> live c1 = true -> live c2 = true ->
  exists D Q S0 S t C0 C1, dme_new dbg live c0 dec 2 1 1 0 = Ok D /\ getRandomPoint dbg live CV (Some c0) 3 = Ok Q /\
    server_new dbg live c1 9 (dcrs D) 1 = Ok S0 /\ setSecret dbg live S0 Q = Ok (S, set_curve Q (Some c1)) /\
    talk dbg live small iv0 S (setMessage (client_new c2 (dcrs D)) 5) (with_keys case_draws (key2 5)) = Ok t /\
    offline dbg live small iv0 (setMessage (client_new c2 (dcrs D)) 0) (with_keys case_draws (key2 0)) t = Ok C0 /\
    offline dbg live small iv0 (setMessage (client_new c2 (dcrs D)) 1) (with_keys case_draws (key2 1)) t = Ok C1 /\
    den CV (result C1) = gadd CV (den CV (result C0)) (gmul CV 1 (den CV Q)).
Proof. exact case79. Qed.

(** C80. Whoever created a messy-mode CRS reads the client's input off the transcript with FindMessy. *)
Theorem C80_reads_input : forall dbg live e iv c c' r1 r2 r3 r4 D, live c = true -> live c' = true ->
  ~ (order | r1) -> ~ (order | r2) -> ~ (order | r3) -> ~ (order | r4) -> ~ (order | r1 - r2) -> dme_new dbg live c messy r1 r2 r3 r4 = Ok D ->
  forall S C x d t, 0 <= x < 2 ^ 16 -> rdme (otr C) = dme_new_crs c' (dcrs D) ->
  (forall r, 1 <= r <= 16 -> ~ (order | rd_key (sd_round d r))) ->
  talk dbg live e iv S (setMessage C x) d = Ok t ->
  exists bs, mapM (fun m => FindMessy dbg live D (fst m)) (tr_rounds t) = Ok bs /\ number (map (fun b => 1 - b) bs) = x.
Proof. exact L_C80. Qed.
Print Assumptions C80_reads_input.

Example C80_case : forall dbg live c0 c1 c2, live c0 = true -> live c1 = true -> live c2 = true ->
  exists D Q S0 S t bs, dme_new dbg live c0 messy 2 3 1 2 = Ok D /\ getRandomPoint dbg live CV (Some c0) 3 = Ok Q /\
    server_new dbg live c1 9 (dcrs D) 1 = Ok S0 /\ setSecret dbg live S0 Q = Ok (S, set_curve Q (Some c1)) /\
    talk dbg live small iv0 S (setMessage (client_new c2 (dcrs D)) 5) case_draws = Ok t /\
    mapM (fun m => FindMessy dbg live D (fst m)) (tr_rounds t) = Ok bs /\ number (map (fun b => 1 - b) bs) = 5.
Proof. exact case80. Qed.

(** C81. Two evaluations after one prepareKeysAndInputs, of inputs up to the threshold: with a factor that exists for every input,
    the two results give the value of every input, above the threshold too. *)
Theorem C81_factor : forall x1 x2 x, 0 <= x1 < 2 ^ 16 -> 0 <= x2 < 2 ^ 16 -> x1 <> x2 -> exists k, draw k /\ (order | k * (x2 - x1) - (x - x1)).
Proof. exact L_C81_factor. Qed.
Print Assumptions C81_factor.

Theorem C81_two_evaluations : forall dbg live e iv S S1 C1 C2 d1 d2 a x1 x2, aes_ready e iv -> server_ready live S a ->
  client_ready live C1 x1 -> client_ready live C2 x2 ->
  same_crs (dcrs (sdme (ots S))) (dcrs (rdme (otr C1))) -> same_crs (dcrs (sdme (ots S))) (dcrs (rdme (otr C2))) ->
  good_draws dbg live e iv (dcrs (rdme (otr C1))) (sdme (ots S)) (theta S) a x1 d1 ->
  good_draws dbg live e iv (dcrs (rdme (otr C2))) (sdme (ots S)) (theta S) a x2 d2 -> sd_prep d2 = sd_prep d1 ->
  x1 <= theta S -> x2 <= theta S -> result C1 = pt_inf CV -> result C2 = pt_inf CV ->
  prepareKeysAndInputs dbg live e iv S (sd_prep d1) = Ok S1 ->
  exists S2 C1' S3 C2', evaluate dbg live e iv S1 C1 d1 = Ok (S2, C1') /\ evaluate dbg live e iv S2 C2 d2 = Ok (S3, C2') /\
    forall x k, (order | k * (x2 - x1) - (x - x1)) ->
      gadd CV (den CV (result C1')) (gmul CV k (gadd CV (den CV (result C2')) (gneg CV (den CV (result C1'))))) =
      gadd CV (gmul CV (d_kopprf (sd_prep d1)) (ggen CV)) (gmul CV x (den CV (ga S))).
Proof. exact L_C81. Qed.
Print Assumptions C81_two_evaluations.

(** threshold 9, secret 3*G, inputs 5 and 1: the value of 9 *)
Example C81_case : forall dbg live c0 c1 c2 c3, live c0 = true -> live c1 = true -> live c2 = true -> live c3 = true ->
  exists D Q S0 S S1 S2 C1 S3 C2, dme_new dbg live c0 dec 2 1 1 0 = Ok D /\ getRandomPoint dbg live CV (Some c0) 3 = Ok Q /\
    server_new dbg live c1 9 (dcrs D) 1 = Ok S0 /\ setSecret dbg live S0 Q = Ok (S, set_curve Q (Some c1)) /\
    prepareKeysAndInputs dbg live small iv0 S case_prep = Ok S1 /\
    evaluate dbg live small iv0 S1 (setMessage (client_new c2 (dcrs D)) 5) (with_keys case_draws (key2 5)) = Ok (S2, C1) /\
    evaluate dbg live small iv0 S2 (setMessage (client_new c3 (dcrs D)) 1) (with_keys case_draws (key2 1)) = Ok (S3, C2) /\
    gadd CV (den CV (result C1)) (gmul CV (-1) (gadd CV (den CV (result C2)) (gneg CV (den CV (result C1))))) =
      gadd CV (gmul CV 17 (ggen CV)) (gmul CV 9 (den CV (ga S))).
Proof. exact case81. Qed.

(** C82. Anyone between the parties can shift a ciphertext, ... *)
Theorem C82_anyone : forall dbg live c ct k, live c = true -> finite live (cu ct) -> finite live (cmv ct) ->
  gadd CV (den CV (cmv ct)) (gmul CV k (ggen CV)) <> None ->
  exists P R, getRandomPoint dbg live CV (Some c) k = Ok P /\ padd dbg live CV (cmv ct) P = Ok R /\ shift_ctxt live k ct (mkct (cu ct) R).
Proof. exact L_C82_anyone. Qed.
Print Assumptions C82_anyone.

(** ... and a client that gets shifted PRF ciphertexts accepts them and ends with a result shifted by the sum. *)
Theorem C82_shift : forall dbg live e iv C x d ks t t' C1, dme_ok live (rdme (otr C)) -> cx C = Some x -> is_valid live (result C) ->
  (forall r, 1 <= r <= 16 -> ~ (order | rd_key (sd_round d r))) -> (length (tr_rounds t) <= 16)%nat ->
  shift_rounds live ks (tr_rounds t) (tr_rounds t') -> tr_masks t' = tr_masks t -> offline dbg live e iv C d t = Ok C1 ->
  exists C1', offline dbg live e iv C d t' = Ok C1' /\ key C1' = key C1 /\ is_valid live (result C1') /\
    den CV (result C1') = gadd CV (den CV (result C1)) (gmul CV (total ks) (ggen CV)).
Proof. exact L_C82. Qed.
Print Assumptions C82_shift.

(** threshold 9, secret 3*G, input 5, every round shifted by 7: the result is off by 112*G *)
Example C82_case : forall dbg live c0 c1 c2, live c0 = true -> live c1 = true -> live c2 = true ->
  exists D Q S0 S t t' C1 C1', dme_new dbg live c0 dec 2 1 1 0 = Ok D /\ getRandomPoint dbg live CV (Some c0) 3 = Ok Q /\
    server_new dbg live c1 9 (dcrs D) 1 = Ok S0 /\ setSecret dbg live S0 Q = Ok (S, set_curve Q (Some c1)) /\
    let C := setMessage (client_new c2 (dcrs D)) 5 in let d := with_keys case_draws (key2 5) in
    talk dbg live small iv0 S C d = Ok t /\ shift_rounds live (repeat 7 16) (tr_rounds t) (tr_rounds t') /\ tr_masks t' = tr_masks t /\
    offline dbg live small iv0 C d t = Ok C1 /\ offline dbg live small iv0 C d t' = Ok C1' /\
    den CV (result C1') = gadd CV (den CV (result C1)) (gmul CV 112 (ggen CV)).
Proof. exact case82. Qed.

(** C83. With a CRS none of whose keys opens both branches, a transcript fits every other secret as well: with exactly one choice
    of the draws the client has no part in (the PRF point, the sixteen scalars, the nonces of the branches not asked for) for
    which the value at the client's input is the same. *)
Theorem C83_server_privacy : forall dbg live e iv S S' P P' C a a' a0 a1 b0 b1 x d t,
  aes_ready e iv -> server_ready live S a -> multiple live P a' -> ~ (order | a') -> setSecret dbg live S P = Ok (S', P') ->
  dme_ok live (rdme (otr C)) -> same_crs (dcrs (rdme (otr C))) (dcrs (sdme (ots S))) ->
  crs_logs live (dcrs (sdme (ots S))) a0 a1 b0 b1 -> ~ (order | a0 * b1 - a1 * b0) ->
  0 <= x < 2 ^ 16 -> (forall s j, (j < 16)%nat -> 2 ^ 120 <= level_key (sd_prep d) s j < 2 ^ 128) ->
  ~ (order | d_r (sd_prep d)) -> (forall r, 1 <= r <= 16 -> ~ (order | rd_key (sd_round d r))) ->
  talk dbg live e iv S (setMessage C x) d = Ok t ->
  exists d' t', agree_on x d d' /\ hidden_range x d' /\ talk dbg live e iv S' (setMessage C x) d' = Ok t' /\ same_transcript t t' /\
    prf_value d' (ga S') x = prf_value d (ga S) x /\
    forall d2 t2, agree_on x d d2 -> hidden_range x d2 -> talk dbg live e iv S' (setMessage C x) d2 = Ok t2 -> same_transcript t t2 ->
      prf_value d2 (ga S') x = prf_value d (ga S) x -> same_hidden x d2 d'.
Proof. exact L_C83. Qed.
Print Assumptions C83_server_privacy.

(** threshold 9, input 5, secrets 3*G and 7*G: one transcript, with 17*G and -3*G as PRF points *)
Example C83_case : forall dbg live c0 c1 c2, live c0 = true -> live c1 = true -> live c2 = true ->
  exists D Q Q' S0 S S' t d' t', dme_new dbg live c0 messy 2 3 1 2 = Ok D /\ getRandomPoint dbg live CV (Some c0) 3 = Ok Q /\
    getRandomPoint dbg live CV (Some c0) 7 = Ok Q' /\
    server_new dbg live c1 9 (dcrs D) 1 = Ok S0 /\ setSecret dbg live S0 Q = Ok (S, set_curve Q (Some c1)) /\
    setSecret dbg live S Q' = Ok (S', set_curve Q' (Some c1)) /\
    talk dbg live small iv0 S (setMessage (client_new c2 (dcrs D)) 5) case_draws = Ok t /\
    talk dbg live small iv0 S' (setMessage (client_new c2 (dcrs D)) 5) d' = Ok t' /\ same_transcript t t' /\
    agree_on 5 case_draws d' /\ d_kopprf (sd_prep d') = order - 3.
Proof. exact case83. Qed.
