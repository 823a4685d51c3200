(** Property C115: someone who listens to oblivious transfers learns nothing about the choices either (src/ot/ot.cpp,
    src/dme/dme.cpp). The counts are those of Prop_Ddh4: there are K * order ^ (needs l + 4) cases. Divided by them and by
    order ^ (n + 2), where n is the number of transfers, what is lost against the distinguishers is (2 n + 20) / order. *)
From Coq Require Import ZArith List Bool.
From Verif Require Import Outcome CurveParams EccModel SpecEcc DmeModel SpecDme OtModel SpecCount SpecDdh SpecDdh2 SpecDdh3 SpecDdh4 SpecDdh5 DdhCases DdhHearCase DdhChoose DdhChooseCase.
Import ListNotations.
Open Scope Z_scope.

(** C115. Two conversations that differ in the branches of the keys, in the messages, or in both, are told apart as well
    as six distinguishers break Diffie-Hellman and a little more. *)
Theorem C115_choices : forall dbg live c c1 c2, live c = true -> live c1 = true -> live c2 = true ->
  forall (T : Type) (coin : T -> Prop) K, how_many coin K -> forall l l' M M' A, key_first l -> same_shape l l' -> good_steps l -> good_steps l' ->
  (forall t k h, coin t -> is_valid live (fst (M t k h)) /\ is_valid live (snd (M t k h))) ->
  (forall t k h, coin t -> is_valid live (fst (M' t k h)) /\ is_valid live (snd (M' t k h))) ->
  let n := keys_in l in let four_draws := and_draw (and_draw (and_draw (and_draw coin))) in
  let coins := and_pairs n (and_draw (and_draw (and_draw (and_steps (pairs_in l) coin)))) in
  exists N N' g g' g1 g2 g1' g2', overheard_guess dbg live c c1 c2 l coin M A N /\ overheard_guess dbg live c c1 c2 l' coin M' A N' /\
    ddh_gap (and_steps l four_draws) (with_string l M A) g /\ ddh_gap (and_steps l' four_draws) (with_string l' M' A) g' /\
    ddh_gap coins (first_keys (fun _ y => y) (branches l) (keyed l A)) g1 /\ ddh_gap coins (second_keys (fun _ y => y) (branches l) (keyed l A)) g2 /\
    ddh_gap coins (first_keys (fun _ y => y) (branches l') (keyed l A)) g1' /\ ddh_gap coins (second_keys (fun _ y => y) (branches l') (keyed l A)) g2' /\
    Z.abs (order ^ (Z.of_nat n + 2) * (N - N') - (order ^ (Z.of_nat n - 1) * (g - g') + (g1 + g2 - g1' - g2'))) <=
      (20 + 2 * Z.of_nat n) * K * order ^ (Z.of_nat (needs l) + Z.of_nat n + 5).
Proof. exact L_C115_choices. Qed.
Print Assumptions C115_choices.

(** One transfer on each branch: someone who looks for a finite key beside an infinite g0 tells them apart when the
    string happens to be like that. *)
Example C115_case : forall dbg live c c1 c2, live c = true -> live c1 = true -> live c2 = true ->
  how_many no_coin 1 /\ same_shape one_transfer other_transfer /\
  overheard_guess dbg live c c1 c2 one_transfer no_coin sends_inf finite_key 0 /\
  overheard_guess dbg live c c1 c2 other_transfer no_coin sends_inf finite_key (order ^ 6 * (order - 1) ^ 2).
Proof.
  intros dbg live c c1 c2 L L1 L2. split; [exact no_coins|]. split; [|exact (case_choose dbg live c c1 c2 L L1 L2)].
  constructor; [exact I|constructor; [exact I|constructor]].
Qed.
