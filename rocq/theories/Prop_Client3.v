(** Property C124: when one round of the oblivious PRF gives the secret away to a client that asks for branch 1
    (src/opprf/opprf.cpp:33-135). [revealed _ _ 1] (C117) says that the key is good for branch 1. *)
From Coq Require Import ZArith Bool List Lia.
From Verif Require Import Outcome FieldModel ECGroup CurveParams EccModel SpecEcc DmeModel SpecDme OtModel AesModel OpprfModel SpecOpprf SpecCount SpecDdh SpecDdh3 SpecCheat SpecIdeal OpprfCase SpecClient SpecClient2 ClientProofs6 ClientCase3 Prop_Aes.
Import ListNotations.
Open Scope Z_scope.

(** C124. What the client makes of the answer is the secret exactly when the draw of r or the scalar of the round is zero in the group: for
    2n - 1 of the n^2 pairs of draws. It needs neither the server's secret nor its draws for this. *)
Theorem C124_guess : forall dbg live O pk, dme_ok live (sdme O) -> pk_valid live pk -> revealed dbg live O pk 1 ->
  exists f, forall e iv S a p r qa qb qc qp u v, aes_ready e iv -> server_ready live S a -> sdme (ots S) = sdme O ->
    (forall s j, (j < 16)%nat -> 2 ^ 120 <= level_key p s j < 2 ^ 128) -> 1 <= r <= 16 ->
    (exists S1 S2 o, prepareKeysAndInputs dbg live e iv S p = Ok S1 /\ runOTRound dbg live S1 r pk qa qb qc qp u v = Ok (S2, o) /\
      (f r (reply_of o) = den CV (ga S) <-> (order | d_r p * d_ok p (Z.to_nat (r - 1))))) /\
    how_many (fun w : Z * Z => draw (fst w) /\ draw (snd w) /\ exists S1 S2 o, prepareKeysAndInputs dbg live e iv S (with_pair p (fst w) r (snd w)) = Ok S1 /\
      runOTRound dbg live S1 r pk qa qb qc qp u v = Ok (S2, o) /\ f r (reply_of o) = den CV (ga S)) (2 * order - 1).
Proof. exact L_C124_guess. Qed.
Print Assumptions C124_guess.

(** threshold 9, secret 3G, the key (3G, 4G) on the string of the draws 1 2 3 4: round 5 with r = 0, with the scalar 0, and with neither *)
Example C124_case : forall dbg live c c2, live c = true -> live c2 = true ->
  exists D P Q G T0 S f, dme_new_random dbg live c 1 2 3 4 = Ok D /\ getRandomPoint dbg live CV (Some c) 3 = Ok P /\ getRandomPoint dbg live CV (Some c) 4 = Ok Q /\
    getRandomPoint dbg live CV (Some c) 3 = Ok G /\ server_new dbg live c2 9 (dcrs D) 1 = Ok T0 /\ setSecret dbg live T0 G = Ok (S, set_curve G (Some c2)) /\
    revealed dbg live (ots S) (mkpk P Q) 1 /\
    (exists S1 S2 o, prepareKeysAndInputs dbg live small iv0 S (with_pair case_prep 0 5 1) = Ok S1 /\
      runOTRound dbg live S1 5 (mkpk P Q) case_quad case_quad case_quad case_quad 16 33 = Ok (S2, o) /\ f 5 (reply_of o) = den CV G) /\
    (exists S1 S2 o, prepareKeysAndInputs dbg live small iv0 S (with_pair case_prep 1 5 0) = Ok S1 /\
      runOTRound dbg live S1 5 (mkpk P Q) case_quad case_quad case_quad case_quad 16 33 = Ok (S2, o) /\ f 5 (reply_of o) = den CV G) /\
    exists S1 S2 o, prepareKeysAndInputs dbg live small iv0 S (with_pair case_prep 1 5 1) = Ok S1 /\
      runOTRound dbg live S1 5 (mkpk P Q) case_quad case_quad case_quad case_quad 16 33 = Ok (S2, o) /\ f 5 (reply_of o) <> den CV G.
Proof. exact case124. Qed.
