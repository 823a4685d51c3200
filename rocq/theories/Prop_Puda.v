(** Properties C37-C40, C62 and C63: private data aggregation (src/puda). *)
From Coq Require Import ZArith Bool List Lia.
From Verif Require Import Outcome FieldModel ZpField SpecField ECGroup ECOrder CurveParams EccModel SpecEcc DmeModel SpecDme SpecOt PudaModel SpecPuda PudaProofs.
Import ListNotations.
Open Scope Z_scope.

(** C37: for any number of users the aggregator gets the sum of the messages and the sum of the tags. *)
Theorem C37_sum : forall dbg live c1 c2 rh ra ds ms t, live c1 = true -> live c2 = true ->
  length ds = length ms -> Forall u16 ms -> sumz ms < 65535 ->
  exists o, session dbg live c1 c2 rh ra ds ms t = Ok o /\ o_sum o = sumz ms /\
    is_valid live (o_tag o) /\ den CV (o_tag o) = total (o_tags o).
Proof. exact L_C37. Qed.
Print Assumptions C37_sum.

(** What the run produces, as multiples of the generator, whatever the sum. *)
Theorem C37_session : forall dbg live c1 c2 rh ra ds ms t, live c1 = true -> live c2 = true -> length ds = length ms ->
  exists o, session dbg live c1 c2 rh ra ds ms t = Ok o /\
    o_sum o = (let s := sumz ms mod order in if s <? 65535 then s else 0) /\
    is_valid live (o_tag o) /\ den CV (o_tag o) = total (o_tags o) /\
    multiple live (vk_1 (o_vk o)) (sumz (map snd ds)) /\ multiple live (vk_2 (o_vk o)) ra /\
    multiple live (o_tag o) (sumz (map snd ds) * (t * rh) + ra * sumz ms) /\
    multiple live (ppg1 (o_pp o)) 1 /\ multiple live (ppg2 (o_pp o)) 1 /\ multiple live (pphash (o_pp o)) rh /\
    Forall2 (fun c x => multiple live c (fst (fst x) * (t * rh) + snd x)) (o_ctxts o) (combine ds ms) /\
    Forall2 (fun c x => multiple live c (snd (fst x) * (t * rh) + ra * snd x)) (o_tags o) (combine ds ms).
Proof. exact L_puda. Qed.
Print Assumptions C37_session.

Example C37_case : forall dbg live, live 1 = true -> live 2 = true ->
  exists o, session dbg live 1 2 11 12 [(3, 4); (5, 6); (7, 8)] [100; 20000; 45434] 2023 = Ok o /\ o_sum o = 65534.
Proof.
  intros dbg live L1 L2.
  destruct (L_C37 dbg live 1 2 11 12 [(3, 4); (5, 6); (7, 8)] [100; 20000; 45434] 2023 L1 L2 eq_refl) as [o [E [S _]]].
  - repeat constructor; unfold u16; lia.
  - reflexivity.
  - exists o. split; [exact E|]. rewrite S. reflexivity.
Qed.

(** C38: a sum of 65535 or more comes out as 0. *)
Theorem C38_overflow : forall dbg live c1 c2 rh ra ds ms t, live c1 = true -> live c2 = true -> length ds = length ms ->
  65535 <= sumz ms < order ->
  exists o, session dbg live c1 c2 rh ra ds ms t = Ok o /\ o_sum o = 0.
Proof. exact L_C38. Qed.
Print Assumptions C38_overflow.

(** a single user with the largest message, and nobody reporting anything, cannot be told apart *)
Example C38_case : forall dbg live, live 1 = true -> live 2 = true ->
  (exists o, session dbg live 1 2 11 12 [(3, 4)] [65535] 1 = Ok o /\ o_sum o = 0) /\
  (exists o, session dbg live 1 2 11 12 [(3, 4)] [0] 1 = Ok o /\ o_sum o = 0).
Proof.
  intros dbg live L1 L2. split.
  - apply (L_C38 dbg live 1 2 11 12 [(3, 4)] [65535] 1 L1 L2 eq_refl). split; vm_compute; [discriminate|reflexivity].
  - destruct (L_C37 dbg live 1 2 11 12 [(3, 4)] [0] 1 L1 L2 eq_refl) as [o [E [S _]]];
      [repeat constructor; unfold u16; lia|reflexivity|]. exists o. split; [exact E|exact S].
Qed.

(** C39: Verify accepts everything, so the claim that it accepts only the claimed sum is false. *)
Theorem C39_verify_refuted : forall pp vk sum tag t, Verify pp vk sum tag t = true.
Proof. exact L_C39_any. Qed.
Print Assumptions C39_verify_refuted.

(** The aggregate tag satisfies e(tag, g2) = e(hash*t, vk_1) + e(g1*sum, vk_2) for every map e that is
    bilinear on the multiples of the generator. *)
Theorem C39_relation : forall dbg live c1 c2 rh ra ds ms t (X : Type) (add : X -> X -> X)
    (e : ept (c_prime CV) -> ept (c_prime CV) -> X),
  live c1 = true -> live c2 = true -> length ds = length ms ->
  (let g k := gmul CV k (ggen CV) in
   (forall j k l, e (g (j + k)) (g l) = add (e (g j) (g l)) (e (g k) (g l))) /\
   (forall j k l, e (g (j * k)) (g l) = e (g j) (g (k * l)))) ->
  exists o, session dbg live c1 c2 rh ra ds ms t = Ok o /\
    let pp := o_pp o in let vk := o_vk o in
    e (den CV (o_tag o)) (den CV (ppg2 pp)) =
    add (e (gmul CV t (den CV (pphash pp))) (den CV (vk_1 vk))) (e (gmul CV (sumz ms) (den CV (ppg1 pp))) (den CV (vk_2 vk))).
Proof. exact L_C39. Qed.
Print Assumptions C39_relation.

(** such maps exist, and not only degenerate ones *)
Example C39_case :
  (let g k := gmul CV k (ggen CV) in
   (forall j k l, pairing (g (j + k)) (g l) = fadd _ (pairing (g j) (g l)) (pairing (g k) (g l))) /\
   (forall j k l, pairing (g (j * k)) (g l) = pairing (g j) (g (k * l))) /\
   pairing (g 1) (g 1) <> f0 _).
Proof. exact L_pairing. Qed.

(** C40: at timestamp 0 the key does not enter the ciphertext. *)
Theorem C40_timestamp_zero : forall dbg live pp rh ek m,
  multiple live (ppg1 pp) 1 -> multiple live (pphash pp) rh -> scal ek ->
  exists R, PEnc dbg live pp ek m 0 = Ok R /\ is_valid live R /\ den CV R = gmul CV m (ggen CV).
Proof. exact L_C40_zero. Qed.
Print Assumptions C40_timestamp_zero.

(** At other timestamps different keys give different ciphertexts. *)
Theorem C40_keys_matter : forall dbg live pp rh ek ek' m t R,
  multiple live (ppg1 pp) 1 -> multiple live (pphash pp) rh -> scal ek -> scal ek' ->
  ~ (order | rh) -> ~ (order | t) -> PEnc dbg live pp ek m t = Ok R ->
  exists R', PEnc dbg live pp ek' m t = Ok R' /\ (same_point R R' <-> ek = ek').
Proof. exact L_C40_distinct. Qed.
Print Assumptions C40_keys_matter.

(** public parameters as Setup makes them meet the hypotheses *)
Example C40_case : forall dbg live, live 1 = true -> live 2 = true ->
  exists o, session dbg live 1 2 11 12 [(3, 4)] [5] 1 = Ok o /\
    multiple live (ppg1 (o_pp o)) 1 /\ multiple live (pphash (o_pp o)) 11 /\ ~ (order | 11) /\ ~ (order | 1).
Proof.
  intros dbg live L1 L2.
  destruct (L_puda dbg live 1 2 11 12 [(3, 4)] [5] 1 L1 L2 eq_refl) as [o [E [_ [_ [_ [_ [_ [_ [G1 [_ [H _]]]]]]]]]]].
  exists o. split; [exact E|]. split; [exact G1|]. split; [exact H|].
  split; apply DmeProofs.ndiv; split; vm_compute; reflexivity.
Qed.

(** C62: whoever knows one message of a user and its ciphertext at a timestamp other than 0 opens all other ciphertexts
    of the user, at every timestamp, with public values only. *)
Theorem C62_known_message : forall dbg live pp rh ek m t c,
  multiple live (ppg1 pp) 1 -> multiple live (pphash pp) rh -> scal ek -> int32 t -> t <> 0 ->
  PEnc dbg live pp ek m t = Ok c ->
  exists w K, (order | t * w - 1) /\ key_point dbg live pp c m w = Ok K /\
    forall m' t' c', 0 <= m' < 65535 -> PEnc dbg live pp ek m' t' = Ok c' -> open_with dbg live pp K c' t' = Ok m'.
Proof. exact L_C62. Qed.
Print Assumptions C62_known_message.

(** Two ciphertexts at one timestamp differ by the difference of the messages. *)
Theorem C62_same_timestamp : forall dbg live pp rh ek m m' t c c',
  multiple live (ppg1 pp) 1 -> multiple live (pphash pp) rh -> scal ek ->
  PEnc dbg live pp ek m t = Ok c -> PEnc dbg live pp ek m' t = Ok c' ->
  gadd CV (den CV c) (gmul CV m' (ggen CV)) = gadd CV (den CV c') (gmul CV m (ggen CV)).
Proof. exact L_C62_reuse. Qed.
Print Assumptions C62_same_timestamp.

(** message 7 at time 1 is known; message 30000 at time -3 is read *)
Example C62_case : forall dbg live, live 1 = true -> live 2 = true ->
  exists pp c c' w K, PEnc dbg live pp (mkfe 5 FIELD_n) 7 1 = Ok c /\ PEnc dbg live pp (mkfe 5 FIELD_n) 30000 (-3) = Ok c' /\
    key_point dbg live pp c 7 w = Ok K /\ open_with dbg live pp K c' (-3) = Ok 30000.
Proof.
  intros dbg live L1 L2.
  destruct (L_puda dbg live 1 2 11 12 [] [] 1 L1 L2 eq_refl) as [o [_ [_ [_ [_ [_ [_ [_ [G1 [_ [H _]]]]]]]]]]].
  assert (S : scal (mkfe 5 FIELD_n)) by (split; [reflexivity|split; vm_compute; [discriminate|reflexivity]]).
  destruct (L_C40_total dbg live (o_pp o) 11 (mkfe 5 FIELD_n) 7 1 G1 H S) as [c E].
  destruct (L_C40_total dbg live (o_pp o) 11 (mkfe 5 FIELD_n) 30000 (-3) G1 H S) as [c' E'].
  destruct (L_C62 dbg live (o_pp o) 11 (mkfe 5 FIELD_n) 7 1 c G1 H S) as [w [K [_ [EK A]]]];
    [split; vm_compute; [discriminate|reflexivity]|discriminate|exact E|].
  exists (o_pp o), c, c', w, K. split; [exact E|]. split; [exact E'|]. split; [exact EK|].
  apply (A 30000 (-3) c'); [split; [discriminate|reflexivity]|exact E'].
Qed.

(** C63: two tags of a user determine the tags of all messages and timestamps, by a combination with public coefficients. *)
Theorem C63_forge : forall dbg live pp rh sk m1 t1 T1 m2 t2 T2 w,
  multiple live (ppg1 pp) 1 -> multiple live (pphash pp) rh -> scal (sktk sk) ->
  PTag dbg live pp sk m1 t1 = Ok T1 -> PTag dbg live pp sk m2 t2 = Ok T2 ->
  (order | (m1 * t2 - m2 * t1) * w - 1) ->
  forall m t, exists F T, combine_tags dbg live T1 T2 ((m * t2 - m2 * t) * w) ((m1 * t - m * t1) * w) = Ok F /\
    PTag dbg live pp sk m t = Ok T /\ same_point F T.
Proof. exact L_C63. Qed.
Print Assumptions C63_forge.

(** tags of 1 at time 1 and of 1 at time 2 give that of 500 at time 9 *)
Example C63_case : forall dbg live, live 1 = true -> live 2 = true ->
  exists pp T1 T2 F T, let sk := mksk 12 (mkfe 5 FIELD_n) in
    PTag dbg live pp sk 1 1 = Ok T1 /\ PTag dbg live pp sk 1 2 = Ok T2 /\
    combine_tags dbg live T1 T2 (500 * 2 - 1 * 9) (1 * 9 - 500 * 1) = Ok F /\ PTag dbg live pp sk 500 9 = Ok T /\ same_point F T.
Proof.
  intros dbg live L1 L2.
  destruct (L_puda dbg live 1 2 11 12 [] [] 1 L1 L2 eq_refl) as [o [_ [_ [_ [_ [_ [_ [_ [G1 [_ [H _]]]]]]]]]]].
  set (sk := mksk 12 (mkfe 5 FIELD_n)).
  assert (S : scal (sktk sk)) by (split; [reflexivity|split; vm_compute; [discriminate|reflexivity]]).
  destruct (L_C63_total dbg live (o_pp o) 11 sk 1 1 G1 H S) as [T1 E1].
  destruct (L_C63_total dbg live (o_pp o) 11 sk 1 2 G1 H S) as [T2 E2].
  destruct (L_C63 dbg live (o_pp o) 11 sk 1 1 T1 1 2 T2 1 G1 H S E1 E2 ltac:(exists 0; reflexivity) 500 9) as [F [T [EF [ET Q]]]].
  exists (o_pp o), T1, T2, F, T. split; [exact E1|]. split; [exact E2|]. split; [exact EF|]. split; [exact ET|exact Q].
Qed.
