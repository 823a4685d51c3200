(** Property C123: any number of oblivious transfers on any string, with a receiver that sends any public keys (src/ot/ot.cpp,
    src/dme/dme.cpp). [hidden] and [revealed] (C117) are about one transfer; here they are carried over to any number. *)
From Coq Require Import ZArith Bool List Lia.
From Verif Require Import Outcome FieldModel CurveParams EccModel SpecEcc DmeModel SpecDme OtModel SpecCount SpecDdh SpecDdh3 SpecCheat SpecIdeal ComposeProofs ComposeCase.
Import ListNotations.
Open Scope Z_scope.

(** C123. Messages that differ only where the key hides them are seen equally often to give whatever one asks for, ... *)
Theorem C123_hidden : forall dbg live S K M M' A n, dme_ok live (sdme S) -> (forall h, pk_valid live (K h)) ->
  (forall h, is_valid live (message_of (M h) 0) /\ is_valid live (message_of (M h) 1)) ->
  (forall h, is_valid live (message_of (M' h) 0) /\ is_valid live (message_of (M' h) 1)) ->
  (forall h b, branch b -> hidden dbg live S (K h) b \/ same_point (message_of (M h) b) (message_of (M' h) b)) ->
  exists N, counted (fun ds => transfers dbg live S K M ds []) n A N /\ counted (fun ds => transfers dbg live S K M' ds []) n A N.
Proof. exact L_C123_hidden. Qed.
Print Assumptions C123_hidden.

(** ... and messages that differ where the first key reveals them are told apart with certainty. *)
Theorem C123_revealed : forall dbg live S K M M' b n, dme_ok live (sdme S) -> (forall h, pk_valid live (K h)) ->
  (forall h, is_valid live (message_of (M h) 0) /\ is_valid live (message_of (M h) 1)) ->
  (forall h, is_valid live (message_of (M' h) 0) /\ is_valid live (message_of (M' h) 1)) ->
  branch b -> revealed dbg live S (K []) b -> ~ same_point (message_of (M []) b) (message_of (M' []) b) -> (0 < n)%nat ->
  exists A, counted (fun ds => transfers dbg live S K M ds []) n A (order ^ (4 * Z.of_nat n)) /\ counted (fun ds => transfers dbg live S K M' ds []) n A 0.
Proof. exact L_C123_revealed. Qed.
Print Assumptions C123_revealed.

(** three transfers with the key (7G, 14G) on the string of the draws 1 2 3 4: branch 1 is hidden, branch 0 is not *)
Example C123_case : forall dbg live c c2, live c = true -> live c2 = true ->
  exists D P Q, dme_new_random dbg live c 1 2 3 4 = Ok D /\ getRandomPoint dbg live CV (Some c) 7 = Ok P /\ getRandomPoint dbg live CV (Some c) 14 = Ok Q /\
    let run := fun mm ds => transfers dbg live (otsndr_new (dme_new_crs c2 (dcrs D))) (fun _ => mkpk P Q) (fun _ => mm) ds [] in
    (forall A, exists N, counted (run (P, Q)) 3 A N /\ counted (run (P, P)) 3 A N) /\
    exists A, counted (run (P, Q)) 3 A (order ^ 12) /\ counted (run (Q, Q)) 3 A 0.
Proof. exact case123. Qed.
