(** Property C122: any number of evaluations of the oblivious PRF with a client that makes its public keys as it likes, on any string
    (src/opprf/opprf.cpp, src/ot/ot.cpp, src/dme/dme.cpp). [double_string] (C117) says that some key other than that of two infinities
    reveals both messages of a transfer. *)
From Coq Require Import ZArith Bool List Lia.
From Verif Require Import Outcome FieldModel ECGroup CurveParams EccModel SpecEcc DmeModel SpecDme OtModel AesModel OpprfModel SpecOpprf SpecCount SpecDdh SpecDdh3 SpecCheat SpecIdeal OpprfCase SpecClient ClientProofs5 ClientCase ClientCase2 Prop_Aes.
Import ListNotations.
Open Scope Z_scope.

(** C122. On every other string servers with different secrets are seen equally often to do whatever one asks for; ... *)
Theorem C122_secret : forall dbg live e iv S S' a a' K E A n, aes_ready e iv -> server_ready live S a -> server_ready live S' a' ->
  sdme (ots S') = sdme (ots S) -> theta S' = theta S -> ~ double_string dbg live (ots S) ->
  (forall H h, some_key live (K H h)) ->
  (forall H s j, (j < 16)%nat -> 2 ^ 120 <= level_key (sd_prep (fst (E H))) s j < 2 ^ 128) -> (forall H, ~ (order | d_r (sd_prep (fst (E H))))) ->
  exists N, convinced (fun l => evaluations dbg live e iv S K E l []) n A N /\ convinced (fun l => evaluations dbg live e iv S' K E l []) n A N.
Proof. exact L_C122_secret. Qed.
Print Assumptions C122_secret.

(** ... on a double string one key, in any one round, with any draws, gives away the secret of every server: it is a function of the answer. *)
Theorem C122_double : forall dbg live O, dme_ok live (sdme O) -> double_string dbg live O ->
  exists pk f, some_key live pk /\ forall e iv S a p r qa qb qc qp u v, aes_ready e iv -> server_ready live S a -> sdme (ots S) = sdme O ->
    (forall s j, (j < 16)%nat -> 2 ^ 120 <= level_key p s j < 2 ^ 128) -> 1 <= r <= 16 ->
    exists S1 S2 o, prepareKeysAndInputs dbg live e iv S p = Ok S1 /\ runOTRound dbg live S1 r pk qa qb qc qp u v = Ok (S2, o) /\ f r (reply_of o) = den CV (ga S).
Proof. exact L_C122_double. Qed.
Print Assumptions C122_double.

(** threshold 9, secrets 3G and 7G: two evaluations with the keys (7G, 14G) and (7G, 21G) in turns on the string of the draws 1 2 3 4 *)
Example C122_case : forall dbg live c c2, live c = true -> live c2 = true ->
  exists D P Q R G G' T0 S T0' S' H N, dme_new_random dbg live c 1 2 3 4 = Ok D /\
    getRandomPoint dbg live CV (Some c) 7 = Ok P /\ getRandomPoint dbg live CV (Some c) 14 = Ok Q /\ getRandomPoint dbg live CV (Some c) 21 = Ok R /\
    getRandomPoint dbg live CV (Some c) 3 = Ok G /\ getRandomPoint dbg live CV (Some c) 7 = Ok G' /\
    server_new dbg live c2 9 (dcrs D) 1 = Ok T0 /\ setSecret dbg live T0 G = Ok (S, set_curve G (Some c2)) /\
    server_new dbg live c2 9 (dcrs D) 1 = Ok T0' /\ setSecret dbg live T0' G' = Ok (S', set_curve G' (Some c2)) /\ ~ double_string dbg live (ots S) /\
    let K := changing (mkpk P Q) (mkpk P R) in let E := fun _ => (case_draws, 1) in let A := fun H : list sight => (length H =? 2)%nat in
    fits all_ones /\ evaluations dbg live small iv0 S K E [all_ones; all_ones] [] = Ok H /\ length H = 2%nat /\ 0 < N /\
    convinced (fun l => evaluations dbg live small iv0 S K E l []) 2 A N /\ convinced (fun l => evaluations dbg live small iv0 S' K E l []) 2 A N.
Proof. exact case122. Qed.

(** the string of the draws 1 2 2 4 *)
Example C122_case_double : forall dbg live c c2, live c = true -> live c2 = true ->
  exists D G T0 S pk f, dme_new_random dbg live c 1 2 2 4 = Ok D /\ getRandomPoint dbg live CV (Some c) 3 = Ok G /\
    server_new dbg live c2 9 (dcrs D) 1 = Ok T0 /\ setSecret dbg live T0 G = Ok (S, set_curve G (Some c2)) /\ double_string dbg live (ots S) /\ some_key live pk /\
    forall r, 1 <= r <= 16 -> exists S1 S2 o, prepareKeysAndInputs dbg live small iv0 S case_prep = Ok S1 /\
      runOTRound dbg live S1 r pk case_quad case_quad case_quad case_quad 16 33 = Ok (S2, o) /\ f r (reply_of o) = den CV G.
Proof. exact case122_double. Qed.
