(** Property C121: any number of evaluations of the oblivious PRF with a client that makes its public keys as it likes
    (src/opprf/opprf.cpp, src/ot/ot.cpp, src/dme/dme.cpp). [evaluations] are the answers of the server: sixteen rounds and the masks
    each time, cleaned in between; the client sees them before it makes its next key. *)
From Coq Require Import ZArith Bool List Lia.
From Verif Require Import Outcome FieldModel CurveParams EccModel SpecEcc DmeModel SpecDme OtModel AesModel OpprfModel SpecOpprf SpecCount SpecDdh SpecDdh3 SpecCheat SpecIdeal OpprfCase SpecClient ClientProofs4 ClientCase Prop_Aes.
Import ListNotations.
Open Scope Z_scope.

(** C121. On a messy string servers with different secrets are seen equally often to do whatever one asks for: the draws that hide the
    shares and the PRF keys make up for the difference. *)
Theorem C121_secret : forall dbg live e iv c c2 r1 r2 r3 r4 D S S' a a' K E A n, live c = true -> live c2 = true ->
  dme_new dbg live c messy r1 r2 r3 r4 = Ok D -> ~ (order | r1 - r2) ->
  aes_ready e iv -> server_ready live S a -> server_ready live S' a' ->
  sdme (ots S) = dme_new_crs c2 (dcrs D) -> sdme (ots S') = dme_new_crs c2 (dcrs D) -> theta S' = theta S ->
  (forall H h, some_key live (K H h)) ->
  (forall H s j, (j < 16)%nat -> 2 ^ 120 <= level_key (sd_prep (fst (E H))) s j < 2 ^ 128) -> (forall H, ~ (order | d_r (sd_prep (fst (E H))))) ->
  exists N, convinced (fun l => evaluations dbg live e iv S K E l []) n A N /\ convinced (fun l => evaluations dbg live e iv S' K E l []) n A N.
Proof. exact L_C121_secret. Qed.
Print Assumptions C121_secret.

(** The server answers all sixteen keys. *)
Theorem C121_answers : forall dbg live e iv c c2 r1 r2 r3 r4 D S a K d z, live c = true -> live c2 = true ->
  dme_new dbg live c messy r1 r2 r3 r4 = Ok D -> ~ (order | r1 - r2) ->
  aes_ready e iv -> server_ready live S a -> sdme (ots S) = dme_new_crs c2 (dcrs D) ->
  (forall h, some_key live (K h)) -> (forall s j, (j < 16)%nat -> 2 ^ 120 <= level_key (sd_prep d) s j < 2 ^ 128) -> fits z ->
  exists S1 S2 h, prepareKeysAndInputs dbg live e iv S (with_shares (sd_prep d) (snd z) (fst z)) = Ok S1 /\ asks dbg live S1 K d 16 (fst z) [] = Ok (S2, h) /\ length h = 16%nat.
Proof. exact L_C121_answers. Qed.
Print Assumptions C121_answers.

(** threshold 9, secrets 3G and 7G: two evaluations with the keys (7G, 14G) and (7G, 21G) in turns on a string with the trapdoor (2, 3) *)
Example C121_case : forall dbg live c c2, live c = true -> live c2 = true ->
  exists D P Q R G G' T0 S T0' S' H N, dme_new dbg live c messy 2 3 1 2 = Ok D /\
    getRandomPoint dbg live CV (Some c) 7 = Ok P /\ getRandomPoint dbg live CV (Some c) 14 = Ok Q /\ getRandomPoint dbg live CV (Some c) 21 = Ok R /\
    getRandomPoint dbg live CV (Some c) 3 = Ok G /\ getRandomPoint dbg live CV (Some c) 7 = Ok G' /\
    server_new dbg live c2 9 (dcrs D) 1 = Ok T0 /\ setSecret dbg live T0 G = Ok (S, set_curve G (Some c2)) /\
    server_new dbg live c2 9 (dcrs D) 1 = Ok T0' /\ setSecret dbg live T0' G' = Ok (S', set_curve G' (Some c2)) /\
    let K := changing (mkpk P Q) (mkpk P R) in let E := fun _ => (case_draws, 1) in let A := fun H : list sight => (length H =? 2)%nat in
    fits all_ones /\ evaluations dbg live small iv0 S K E [all_ones; all_ones] [] = Ok H /\ length H = 2%nat /\ 0 < N /\
    convinced (fun l => evaluations dbg live small iv0 S K E l []) 2 A N /\ convinced (fun l => evaluations dbg live small iv0 S' K E l []) 2 A N.
Proof. exact case121. Qed.
