(** Property C119: any number of oblivious transfers with a receiver that makes its public keys as it likes (src/ot/ot.cpp,
    src/dme/dme.cpp). [transfers] are the sender's answers; [simulated] are the answers of somebody who has the trapdoor of the string
    and asks the sender for one message of every transfer only. *)
From Coq Require Import ZArith Bool List Lia.
From Verif Require Import Outcome FieldModel CurveParams EccModel SpecEcc DmeModel SpecDme OtModel SpecCount SpecDdh SpecDdh3 SpecCheat SpecIdeal IdealProofs2 IdealCase.
Import ListNotations.
Open Scope Z_scope.

(** C119. On a messy string, whatever the keys, the messages and the number of transfers, everybody says yes to the answers equally often in both worlds. *)
Theorem C119_ideal : forall dbg live c c2 r1 r2 r3 r4 D K M A n, live c = true -> live c2 = true ->
  dme_new dbg live c messy r1 r2 r3 r4 = Ok D -> ~ (order | r1 - r2) ->
  (forall h, some_key live (K h)) -> (forall h, is_valid live (message_of (M h) 0) /\ is_valid live (message_of (M h) 1)) ->
  exists N, counted (fun ds => transfers dbg live (otsndr_new (dme_new_crs c2 (dcrs D))) K M ds []) n A N /\
    counted (fun ds => simulated dbg live D (otsndr_new (dme_new_crs c2 (dcrs D))) K M ds []) n A N.
Proof. exact L_C119_ideal. Qed.
Print Assumptions C119_ideal.

(** So the answers say nothing about the messages of the branches that FindMessy names. *)
Theorem C119_messages : forall dbg live c c2 r1 r2 r3 r4 D K M M' A n, live c = true -> live c2 = true ->
  dme_new dbg live c messy r1 r2 r3 r4 = Ok D -> ~ (order | r1 - r2) ->
  (forall h, some_key live (K h)) -> (forall h, is_valid live (message_of (M h) 0) /\ is_valid live (message_of (M h) 1)) ->
  (forall h, is_valid live (message_of (M' h) 0) /\ is_valid live (message_of (M' h) 1)) ->
  (forall h b, FindMessy dbg live D (K h) = Ok b -> message_of (M h) (1 - b) = message_of (M' h) (1 - b)) ->
  exists N, counted (fun ds => transfers dbg live (otsndr_new (dme_new_crs c2 (dcrs D))) K M ds []) n A N /\
    counted (fun ds => transfers dbg live (otsndr_new (dme_new_crs c2 (dcrs D))) K M' ds []) n A N.
Proof. exact L_C119_messages. Qed.
Print Assumptions C119_messages.

(** With the key of two infinities the two worlds are as different as can be: on every messy string somebody always says yes in the one and never in the other. *)
Theorem C119_infinite_key_refuted : forall dbg live c c2 r1 r2 r3 r4 D, live c = true -> live c2 = true ->
  dme_new dbg live c messy r1 r2 r3 r4 = Ok D ->
  exists M A, (forall h, is_valid live (message_of (M h) 0) /\ is_valid live (message_of (M h) 1)) /\
    counted (fun ds => transfers dbg live (otsndr_new (dme_new_crs c2 (dcrs D))) (fun _ => pkey_default) M ds []) 1 A (order ^ 4) /\
    counted (fun ds => simulated dbg live D (otsndr_new (dme_new_crs c2 (dcrs D))) (fun _ => pkey_default) M ds []) 1 A 0.
Proof. exact L_C119_infinite. Qed.
Print Assumptions C119_infinite_key_refuted.

(** two transfers with the keys (7G, 14G) and (7G, 21G) on a string with the trapdoor (2, 3): the messages of branch 0 and of branch 1 are asked for *)
Example C119_case : forall dbg live c c2, live c = true -> live c2 = true ->
  exists D P Q R N, dme_new dbg live c messy 2 3 1 1 = Ok D /\ ~ (order | 2 - 3) /\
    getRandomPoint dbg live CV (Some c) 7 = Ok P /\ getRandomPoint dbg live CV (Some c) 14 = Ok Q /\ getRandomPoint dbg live CV (Some c) 21 = Ok R /\
    FindMessy dbg live D (mkpk P Q) = Ok 1 /\ FindMessy dbg live D (mkpk P R) = Ok 0 /\
    (forall h, some_key live (by_turns (mkpk P Q) (mkpk P R) h)) /\ is_valid live P /\ is_valid live Q /\
    counted (fun ds => transfers dbg live (otsndr_new (dme_new_crs c2 (dcrs D))) (by_turns (mkpk P Q) (mkpk P R)) (fun _ => (P, Q)) ds []) 2 (fun h => (length h =? 2)%nat) N /\
    counted (fun ds => simulated dbg live D (otsndr_new (dme_new_crs c2 (dcrs D))) (by_turns (mkpk P Q) (mkpk P R)) (fun _ => (P, Q)) ds []) 2 (fun h => (length h =? 2)%nat) N.
Proof. exact case119. Qed.
