(** Property C117: a receiver of oblivious transfers that sends any public key it likes (src/ot/ot.cpp, src/dme/dme.cpp,
    src/opprf/opprf.cpp). [hidden] says that the answer of the sender says nothing about the message of a branch, [revealed] that
    it determines it. *)
From Coq Require Import ZArith Bool List Lia.
From Verif Require Import Outcome FieldModel ZpField SpecField ECGroup ECOrder CurveParams EccModel SpecEcc DmeModel SpecDme OtModel SpecOt SpecCount SpecDdh SpecDdh3 SpecCheat.
From Verif Require Import CrcModel SpecCrc AesModel SpecAes OpprfModel SpecOpprf SpecOpprf6 OpprfProofs OpprfCase CheatProofs2 CheatProofs3 CheatCase Prop_Aes.
Import ListNotations.
Open Scope Z_scope.

(** C117. Whatever public key of curve points is sent, each message is either perfectly hidden or determined by the answer, ... *)
Theorem C117_either : forall dbg live S pk b, dme_ok live (sdme S) -> pk_valid live pk -> branch b ->
  hidden dbg live S pk b \/ revealed dbg live S pk b.
Proof. exact L_C117_either. Qed.
Print Assumptions C117_either.

(** ... and never both. *)
Theorem C117_not_both : forall dbg live S pk b, dme_ok live (sdme S) -> hidden dbg live S pk b -> ~ revealed dbg live S pk b.
Proof. exact L_C117_not_both. Qed.
Print Assumptions C117_not_both.

(** A string of DME_DDH() on which some key other than that of two infinities reveals both messages: exactly (n^2-1)(n-1) of the n^4 ... *)
Theorem C117_strings : forall dbg live c c2, live c = true -> live c2 = true ->
  how_many (fun '(r1, r2, r3, r4) => draw r1 /\ draw r2 /\ draw r3 /\ draw r4 /\
    exists D, dme_new_random dbg live c r1 r2 r3 r4 = Ok D /\ double_string dbg live (otsndr_new (dme_new_crs c2 (dcrs D))))
    ((order ^ 2 - 1) * (order - 1)).
Proof. exact L_C117_strings. Qed.
Print Assumptions C117_strings.

(** ... and on every other string every such key leaves at least one message perfectly hidden. *)
Theorem C117_one : forall dbg live c c2, live c = true -> live c2 = true -> forall r1 r2 r3 r4 D pk,
  dme_new_random dbg live c r1 r2 r3 r4 = Ok D -> ~ double_string dbg live (otsndr_new (dme_new_crs c2 (dcrs D))) -> some_key live pk ->
  hidden dbg live (otsndr_new (dme_new_crs c2 (dcrs D))) pk 0 \/ hidden dbg live (otsndr_new (dme_new_crs c2 (dcrs D))) pk 1.
Proof. exact L_C117_one. Qed.
Print Assumptions C117_one.

(** The key of two infinities is not refused: both messages are sent in the clear, on every string. *)
Theorem C117_refused_refuted : forall dbg live S pk m0 m1 s0 t0 s1 t1, dme_ok live (sdme S) -> pinf (pg pk) = true -> pinf (ph pk) = true ->
  exists S' c0 c1, encMsgs dbg live S pk m0 m1 s0 t0 s1 t1 = Ok (S', [c0; c1]) /\ sdme S' = sdme S /\ cmv c0 = m0 /\ cmv c1 = m1.
Proof. exact L_C117_clear. Qed.
Print Assumptions C117_refused_refuted.

(** In the oblivious PRF one such key, in any round, gives the server's secret away. *)
Theorem C117_secret : forall dbg live e iv S0 C0 a l S C r pk qa qb qc qp u v,
  fresh_server S0 -> server_ready live S0 a -> history dbg live e iv l (S0, C0) = Ok (S, C) ->
  1 <= r <= 16 -> loaded l r -> pinf (pg pk) = true -> pinf (ph pk) = true ->
  exists S' o c0 c1 N Q G, runOTRound dbg live S r pk qa qb qc qp u v = Ok (S', o) /\ ocprf o = [c0; c1] /\
    pmulz dbg live CV (cmv c0) (-1) = Ok N /\ padd dbg live CV (cmv c1) N = Ok Q /\ pmulz dbg live CV Q (halve (r - 1)) = Ok G /\
    is_valid live G /\ same_point G (ga S0).
Proof. exact L_C117_secret. Qed.
Print Assumptions C117_secret.

(** A client that sends it in round 16, reads the answer as it is, and goes through the other rounds and the masks with the functions
    of the library asks for every round once and gets the values at all inputs, also above the threshold. *)
Theorem C117_session : forall dbg live e iv S0 C0 d a x pk, aes_ready e iv -> server_ready live S0 a -> client_ready live C0 x ->
  same_crs (dcrs (sdme (ots S0))) (dcrs (rdme (otr C0))) ->
  good_draws dbg live e iv (dcrs (rdme (otr C0))) (sdme (ots S0)) (theta S0) a x d -> x <= theta S0 -> pinf (pg pk) = true -> pinf (ph pk) = true ->
  exists S1 S2 k0 k1 p0 p1 N Q G, prepareKeysAndInputs dbg live e iv S0 (sd_prep d) = Ok S1 /\
    (let r := sd_round d 16 in runOTRound dbg live S1 16 pk (rd_a r) (rd_b r) (rd_c r) (rd_p r) (rd_u r) (rd_v r)) = Ok (S2, mkoc [[k0; k1]; []; []] [p0; p1]) /\
    pmulz dbg live CV (cmv p0) (-1) = Ok N /\ padd dbg live CV (cmv p1) N = Ok Q /\ pmulz dbg live CV Q (halve 15) = Ok G /\
    let b := bit x 15 in let C1 := mkcli (otr C0) (ccur C0) (cx C0) (cmv (if b =? 0 then p0 else p1)) (decode (cmv (if b =? 0 then k0 else k1))) in
    exists S3 C3 ms C4, foldM (one_round dbg live e iv) (map (fun r => (r, sd_round d r)) (tl rounds)) (S2, C1) = Ok (S3, C3) /\
      sendEncryptedMasks dbg live e iv S3 (sd_random d) (sd_u d) (sd_v d) = Ok ms /\ unmaskResult dbg live e iv C3 ms (sd_mask d) = Ok C4 /\
      forall y, exists T V, pmulz dbg live CV G (y - x) = Ok T /\ padd dbg live CV (result C4) T = Ok V /\ is_valid live V /\
        den CV V = gadd CV (den CV (kopprf S3)) (gmul CV y (den CV (ga S0))).
Proof. exact L_C117_session. Qed.
Print Assumptions C117_session.

(** the key (7G, 14G) on the strings of the draws 1 2 3 4 and 1 2 2 4 *)
Example C117_case : forall dbg live c c2, live c = true -> live c2 = true ->
  exists D D' P Q, dme_new_random dbg live c 1 2 3 4 = Ok D /\ dme_new_random dbg live c 1 2 2 4 = Ok D' /\
    getRandomPoint dbg live CV (Some c) 7 = Ok P /\ getRandomPoint dbg live CV (Some c) 14 = Ok Q /\ some_key live (mkpk P Q) /\
    ~ double_string dbg live (otsndr_new (dme_new_crs c2 (dcrs D))) /\
    revealed dbg live (otsndr_new (dme_new_crs c2 (dcrs D))) (mkpk P Q) 0 /\ hidden dbg live (otsndr_new (dme_new_crs c2 (dcrs D))) (mkpk P Q) 1 /\
    double_string dbg live (otsndr_new (dme_new_crs c2 (dcrs D'))) /\
    revealed dbg live (otsndr_new (dme_new_crs c2 (dcrs D'))) (mkpk P Q) 0 /\ revealed dbg live (otsndr_new (dme_new_crs c2 (dcrs D'))) (mkpk P Q) 1.
Proof. exact case117. Qed.

(** threshold 9, input 5; the value at 60000 comes out *)
Example C117_session_case : forall dbg live c0 c1 c2, live c0 = true -> live c1 = true -> live c2 = true ->
  exists D Q N S0 S1 S2 k0 k1 p0 p1 M Q' G S3 C3 ms C4 T V, dme_new dbg live c0 dec 1 1 1 0 = Ok D /\ getRandomPoint dbg live CV (Some c0) 3 = Ok Q /\
    server_new dbg live c1 9 (dcrs D) 1 = Ok N /\ setSecret dbg live N Q = Ok (S0, set_curve Q (Some c1)) /\ theta S0 = 9 /\
    prepareKeysAndInputs dbg live small iv0 S0 case_prep = Ok S1 /\
    runOTRound dbg live S1 16 pkey_default case_quad case_quad case_quad case_quad 16 33 = Ok (S2, mkoc [[k0; k1]; []; []] [p0; p1]) /\
    pmulz dbg live CV (cmv p0) (-1) = Ok M /\ padd dbg live CV (cmv p1) M = Ok Q' /\ pmulz dbg live CV Q' (halve 15) = Ok G /\
    foldM (one_round dbg live small iv0) (map (fun r => (r, sd_round case_draws r)) (tl rounds))
      (S2, mkcli (otr (client_new c2 (dcrs D))) (Some c2) (Some 5) (cmv p0) (decode (cmv k0))) = Ok (S3, C3) /\
    sendEncryptedMasks dbg live small iv0 S3 1 4 2 = Ok ms /\ unmaskResult dbg live small iv0 C3 ms 1 = Ok C4 /\
    pmulz dbg live CV G (60000 - 5) = Ok T /\ padd dbg live CV (result C4) T = Ok V /\
    den CV V = gadd CV (den CV (kopprf S3)) (gmul CV 60000 (den CV Q)).
Proof. exact case117_session. Qed.
