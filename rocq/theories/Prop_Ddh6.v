(** Property C116: someone who listens to an evaluation of the oblivious PRF learns nothing about the client's input, the
    server's threshold or its secret (src/opprf/opprf.cpp, src/ot/ot.cpp, src/dme/dme.cpp). Who listens hears the common
    reference string, the sixteen keys, all ciphertexts and the encrypted masks, and knows everything the server draws for
    itself: only the draws of the transfers are hidden. There are K * order ^ 268 cases. Divided by them and by order ^ 18,
    what is lost against the distinguishers is 52 / order. *)
From Coq Require Import ZArith List Bool.
From Verif Require Import Outcome CurveParams EccModel SpecEcc DmeModel SpecDme OtModel AesModel Prop_Aes OpprfModel SpecOpprf SpecOpprf2 SpecOpprf6 OpprfCase SpecCount SpecDdh SpecDdh2 SpecDdh3 SpecDdh4 SpecDdh5 SpecDdh6 DdhCases DdhWire3 DdhWireCase.
Import ListNotations.
Open Scope Z_scope.

(** C116. Evaluations that differ in the input, the threshold, the secret, or all of them, are told apart as well as six
    distinguishers break Diffie-Hellman and a little more. *)
Theorem C116_listens : forall dbg live e iv c c1 c2, live c = true -> live c1 = true -> live c2 = true ->
  forall (T : Type) (coin : T -> Prop) K, how_many coin K -> forall x x' (s s' : setting T) A,
  (forall t, coin t -> all_set dbg live e iv c2 s t /\ all_set dbg live e iv c2 s' t /\ s_draws s t = s_draws s' t) ->
  let four_draws := and_draw (and_draw (and_draw (and_draw coin))) in let H := hears dbg live e iv c2 s A in
  let coins := and_pairs 16 (and_draw (and_draw (and_draw (and_steps (pairs_in (script x)) coin)))) in
  exists N N' g g' g1 g2 g1' g2', wire_guess dbg live e iv c c1 c2 x s coin A N /\ wire_guess dbg live e iv c c1 c2 x' s' coin A N' /\
    ddh_gap (and_steps (script x) four_draws) (with_string (script x) (says dbg live e iv c2 s) H) g /\
    ddh_gap (and_steps (script x') four_draws) (with_string (script x') (says dbg live e iv c2 s') H) g' /\
    ddh_gap coins (first_keys (fun _ y => y) (branches (script x)) (keyed (script x) H)) g1 /\ ddh_gap coins (second_keys (fun _ y => y) (branches (script x)) (keyed (script x) H)) g2 /\
    ddh_gap coins (first_keys (fun _ y => y) (branches (script x')) (keyed (script x) H)) g1' /\ ddh_gap coins (second_keys (fun _ y => y) (branches (script x')) (keyed (script x) H)) g2' /\
    Z.abs (order ^ 18 * (N - N') - (order ^ 15 * (g - g') + (g1 + g2 - g1' - g2'))) <= 52 * K * order ^ 285.
Proof. exact L_C116_listens. Qed.
Print Assumptions C116_listens.

(** C116. The masks depend on neither threshold nor secret. *)
Theorem C116_masks : forall dbg live e iv c th g P th' g' P' d V ms V' ms',
  offstage dbg live e iv c th g P d = Ok (V, ms) -> offstage dbg live e iv c th' g' P' d = Ok (V', ms') -> ms' = ms.
Proof. exact L_C116_masks. Qed.
Print Assumptions C116_masks.

(** C116. A server is all set when the secret is not infinite, the threshold has sixteen bits, keys are of sixteen bytes
    and the two points it masks with can be encoded. *)
Theorem C116_set : forall dbg live e iv c (T : Type) (s : setting T) t a, live c = true -> aes_ready e iv ->
  0 <= s_theta s t < 2 ^ 16 -> multiple live (s_secret s t) a -> ~ (order | a) ->
  (forall l j, (j < 16)%nat -> 2 ^ 120 <= level_key (sd_prep (s_draws s t)) l j < 2 ^ 128) ->
  visible e (mask_of_prep (sd_prep (s_draws s t))) -> visible e (sd_random (s_draws s t)) -> all_set dbg live e iv c s t.
Proof. exact L_C116_set. Qed.
Print Assumptions C116_set.

(** A server with threshold 9, asked with 5 or with 32773: someone who looks for a finite key in the first round beside an
    infinite g0 tells them apart when the string happens to be like that. *)
Example C116_case : forall dbg live c c1 c2, live c = true -> live c1 = true -> live c2 = true ->
  exists P, multiple live P 3 /\ how_many no_coin 1 /\ all_set dbg live small iv0 c2 (case_setting 9 P) tt /\
  wire_guess dbg live small iv0 c c1 c2 5 (case_setting 9 P) no_coin first_key 0 /\
  wire_guess dbg live small iv0 c c1 c2 32773 (case_setting 9 P) no_coin first_key (order ^ 265 * (order - 1) ^ 2).
Proof.
  intros dbg live c c1 c2 L L1 L2. destruct (case_secret dbg live c L) as [P [M [N TH]]]. exists P. split; [exact M|]. split; [exact no_coins|]. split; [|split].
  - exact (case_set dbg live c2 9 P 3 L2 TH M N).
  - exact (case_wire dbg live c c1 c2 5 9 P 3 L L1 L2 TH M N).
  - exact (case_wire dbg live c c1 c2 32773 9 P 3 L L1 L2 TH M N).
Qed.
