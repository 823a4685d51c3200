(** Property C120: any number of oblivious transfers with a sender that answers as it likes (src/ot/ot.cpp, src/dme/dme.cpp).
    [received] is what the receiver sends and gets; [extracted] is the same made by somebody who has the trapdoor of the string, opens
    both parts of every answer, and hands the receiver the one that it wants. *)
From Coq Require Import ZArith Bool List Lia.
From Verif Require Import Outcome FieldModel CurveParams EccModel SpecEcc DmeModel SpecDme OtModel SpecCount SpecDdh SpecDdh2 SpecTrick SpecSend SendProofs2.
Import ListNotations.
Open Scope Z_scope.

(** C120. On a string of the decryption mode, whatever the answers, the choices and the number of transfers, everybody says yes to the
    exchanges equally often in both worlds. The answers may be any lists of any points, also off the curve, and an outcome may be an error. *)
Theorem C120_ideal : forall dbg live c c2 r1 r2 r3 r4 D B G A n, live c = true -> live c2 = true ->
  dme_new dbg live c dec r1 r2 r3 r4 = Ok D -> ~ (order | r1) -> (forall h, branch (B h)) ->
  exists N, tried (fun rs => received dbg live (otrecv_new (dme_new_crs c2 (dcrs D))) B G rs []) n A N /\
    tried (fun rs => extracted dbg live D B G rs []) n A N.
Proof. exact L_C120_ideal. Qed.
Print Assumptions C120_ideal.

(** So a sender that sees the public keys learns nothing about the choices, even if these depend on what the receiver got before. *)
Theorem C120_choices : forall dbg live c c2 r1 r2 r3 r4 D B B' (G : list (elt * elt) -> elt * elt -> list ctxt) (A : list (elt * elt) -> bool) n,
  live c = true -> live c2 = true -> dme_new dbg live c dec r1 r2 r3 r4 = Ok D -> ~ (order | r1) ->
  (forall h, branch (B h)) -> (forall h, branch (B' h)) ->
  exists N, tried (fun rs => received dbg live (otrecv_new (dme_new_crs c2 (dcrs D))) B (fun h => G (map fst h)) rs []) n (fun h => A (map fst h)) N /\
    tried (fun rs => received dbg live (otrecv_new (dme_new_crs c2 (dcrs D))) B' (fun h => G (map fst h)) rs []) n (fun h => A (map fst h)) N.
Proof. exact L_C120_choices. Qed.
Print Assumptions C120_choices.

(** Without the proviso on the trapdoor it fails: the receiver sends its key, but TrapKeyGen has none. *)
Theorem C120_zero_trapdoor_refuted : forall dbg live c c2 r1 r2 r3 r4 D B G, live c = true -> live c2 = true ->
  dme_new dbg live c dec r1 r2 r3 r4 = Ok D -> (order | r1) -> (forall h, branch (B h)) ->
  tried (fun rs => received dbg live (otrecv_new (dme_new_crs c2 (dcrs D))) B G rs []) 1 (fun _ => true) order /\
  tried (fun rs => extracted dbg live D B G rs []) 1 (fun _ => true) 0.
Proof. exact L_C120_zero. Qed.
Print Assumptions C120_zero_trapdoor_refuted.

(** a sender that answers with a point off the curve; the receiver's draw 4 for branch 1 goes with the draw 8 of TrapKeyGen *)
Example C120_case : forall dbg live c c2, live c = true -> live c2 = true ->
  exists D h, dme_new dbg live c dec 2 1 3 0 = Ok D /\ ~ (order | 2) /\
    received dbg live (otrecv_new (dme_new_crs c2 (dcrs D))) (fun _ => 1) (tricky c) [4] [] = Ok h /\
    extracted dbg live D (fun _ => 1) (tricky c) [8] [] = Ok h /\ map fst h = [(pow 8, pow 24)].
Proof. exact case120. Qed.
