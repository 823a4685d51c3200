(** Properties C109 and C110: the check that Puda::Verify leaves in a comment (src/puda/puda.cpp:94-98). *)
From Coq Require Import ZArith Bool List Lia.
From Verif Require Import Outcome FieldModel ZpField ECGroup ECOrder CurveParams EccModel SpecEcc DmeModel SpecDme SpecOt PudaModel SpecPuda PudaProofs SpecPair PairMath PairProofs.
Import ListNotations.
Open Scope Z_scope.

(** C109: the order n of a curve divides p^k - 1 exactly for the multiples k of its degree: (n - 1)/3 for secp256r1, 12 for bn254. *)
Theorem C109_degree : forall c k, 0 < k -> ((c_order (params c) | c_prime (params c) ^ k - 1) <-> (degree c | k)).
Proof. exact L_C109_degree. Qed.
Print Assumptions C109_degree.

Example C109_sizes : degree Bn254 = 12 /\ 2 ^ 254 < degree Secp256r1 /\ 3 * degree Secp256r1 = c_order secp256r1 - 1.
Proof. vm_compute. repeat split. Qed.

(** A map that is additive on the left, into a finite abelian group whose size n does not divide, is constant. *)
Theorem C109_trivial : forall c X (D : X -> Prop) mul one inv e, abelian D mul one inv -> additive (params c) D mul e ->
  forall N, has_size D N -> ~ (c_order (params c) | N) -> forall j l, e (mult (params c) j) (mult (params c) l) = one.
Proof. exact (fun c X D mul one inv e G A => L_C109_trivial c D mul one inv G e A). Qed.
Print Assumptions C109_trivial.

(** So no pairing has its values in the units of a field with p^k elements unless k is at least the degree, *)
Theorem C109_field : forall c X (D : X -> Prop) mul one inv e, abelian D mul one inv -> additive (params c) D mul e ->
  forall k, 0 < k < degree c -> has_size D (c_prime (params c) ^ k - 1) -> forall j l, e (mult (params c) j) (mult (params c) l) = one.
Proof. exact (fun c X D mul one inv e G A => L_C109_field c D mul one inv G e A). Qed.
Print Assumptions C109_field.

(** and with such a map the check of the comment, on the curve the class uses, accepts every sum, tag and timestamp. *)
Theorem C109_accepts : forall live X (D : X -> Prop) mul one inv e, abelian D mul one inv ->
  forall k pp vk sum tag t, additive CV D mul e -> 0 < k < degree Secp256r1 -> has_size D (c_prime CV ^ k - 1) ->
  public_valid live pp vk -> is_valid live tag -> check mul e pp vk sum tag t.
Proof. exact (fun live X D mul one inv e G => L_C109_accepts live D mul one inv G e). Qed.
Print Assumptions C109_accepts.

(** the units modulo p meet the hypotheses; the residues modulo n show that the condition on the size is needed *)
Example C109_case : let p := c_prime (params Secp256r1) in
  abelian (fun x => 1 <= x < p) (fun x y => (x * y) mod p) 1 (fun x => x ^ (p - 2) mod p) /\ has_size (fun x => 1 <= x < p) (p ^ 1 - 1) /\
  additive (params Secp256r1) (fun x => 1 <= x < p) (fun x y => (x * y) mod p) (fun _ _ => 1) /\ 0 < 1 < degree Secp256r1.
Proof.
  intros p. destruct (units_group Secp256r1) as [A S]. split; [exact A|]. split; [exact S|]. split; [exact (constant_additive Secp256r1)|].
  split; reflexivity.
Qed.
Example C109_needed : let n := fieldn CV in
  abelian (fun _ : Fp n => True) (fadd n) (f0 n) (fopp n) /\ has_size (fun _ : Fp n => True) (c_order CV) /\
  bilinear CV (fun _ : Fp n => True) (fadd n) pairing /\ pairing (ggen CV) (ggen CV) <> f0 n.
Proof.
  intros n. destruct residues_group as [A S]. destruct pairing_bilinear as [B N].
  split; [exact A|]. split; [exact S|]. split; [exact B|exact N].
Qed.

(** C110: with a bilinear map that is not constant, the check accepts one tag for each sum: the aggregate tag moved by a*(sum - real sum). *)
Theorem C110_exact : forall dbg live X (D : X -> Prop) mul one inv e, abelian D mul one inv ->
  bilinear CV D mul e -> e (ggen CV) (ggen CV) <> one ->
  forall c1 c2 rh ra ds ms t o sum tag, live c1 = true -> live c2 = true -> length ds = length ms ->
  session dbg live c1 c2 rh ra ds ms t = Ok o -> is_valid live tag ->
  (check mul e (o_pp o) (o_vk o) sum tag t <-> den CV tag = gadd CV (den CV (o_tag o)) (gmul CV (ra * (sum - sumz ms)) (ggen CV))).
Proof. exact (fun dbg live X D mul one inv e G B N => L_C110_exact dbg live D mul one inv G e B N). Qed.
Print Assumptions C110_exact.

(** The result of an honest aggregator is accepted exactly if the sum fits, unless the signing key a is zero. *)
Theorem C110_honest : forall dbg live X (D : X -> Prop) mul one inv e, abelian D mul one inv ->
  bilinear CV D mul e -> e (ggen CV) (ggen CV) <> one ->
  forall c1 c2 rh ra ds ms t o, live c1 = true -> live c2 = true -> length ds = length ms ->
  Forall u16 ms -> sumz ms < order ->
  session dbg live c1 c2 rh ra ds ms t = Ok o ->
  (check mul e (o_pp o) (o_vk o) (o_sum o) (o_tag o) t <-> sumz ms < 65535 \/ (order | ra)).
Proof. exact (fun dbg live X D mul one inv e G B N => L_C110_honest dbg live D mul one inv G e B N). Qed.
Print Assumptions C110_honest.

(** The aggregate tags of two timestamps give accepted tags for every sum at every timestamp. *)
Theorem C110_forge : forall dbg live X (D : X -> Prop) mul one inv e, abelian D mul one inv ->
  bilinear CV D mul e -> e (ggen CV) (ggen CV) <> one ->
  forall c1 c2 rh ra ds ms1 t1 o1 ms2 t2 o2 w, live c1 = true -> live c2 = true -> length ds = length ms1 -> length ds = length ms2 ->
  session dbg live c1 c2 rh ra ds ms1 t1 = Ok o1 -> session dbg live c1 c2 rh ra ds ms2 t2 = Ok o2 ->
  (order | (sumz ms1 * t2 - sumz ms2 * t1) * w - 1) ->
  forall s t, exists F, combine_tags dbg live (o_tag o1) (o_tag o2) ((s * t2 - sumz ms2 * t) * w) ((sumz ms1 * t - s * t1) * w) = Ok F /\
    check mul e (o_pp o1) (o_vk o1) s F t.
Proof. exact (fun dbg live X D mul one inv e G B N => L_C110_forge dbg live D mul one inv G e B N). Qed.
Print Assumptions C110_forge.

(** two users report 1 and 2 at time 2 and 1 and 0 at time 1: a tag for 60000 at time 7 *)
Example C110_case : forall dbg live, live 1 = true -> live 2 = true ->
  exists o1 o2 F, session dbg live 1 2 11 12 [(3, 4); (5, 6)] [1; 2] 2 = Ok o1 /\
    session dbg live 1 2 11 12 [(3, 4); (5, 6)] [1; 0] 1 = Ok o2 /\
    combine_tags dbg live (o_tag o1) (o_tag o2) ((60000 * 1 - 1 * 7) * 1) ((3 * 7 - 60000 * 2) * 1) = Ok F /\
    check (fadd (fieldn CV)) pairing (o_pp o1) (o_vk o1) 60000 F 7.
Proof.
  intros dbg live L1 L2.
  destruct (L_puda dbg live 1 2 11 12 [(3, 4); (5, 6)] [1; 2] 2 L1 L2 eq_refl) as [o1 [E1 _]].
  destruct (L_puda dbg live 1 2 11 12 [(3, 4); (5, 6)] [1; 0] 1 L1 L2 eq_refl) as [o2 [E2 _]].
  destruct residues_group as [A _]. destruct pairing_bilinear as [B N].
  destruct (L_C110_forge dbg live _ _ _ _ A _ B N 1 2 11 12 [(3, 4); (5, 6)] [1; 2] 2 o1 [1; 0] 1 o2 1 L1 L2 eq_refl eq_refl E1 E2 (Z.divide_0_r _) 60000 7) as [F [EF K]].
  exists o1, o2, F. split; [exact E1|]. split; [exact E2|]. split; [exact EF|exact K].
Qed.

(** one user reports 65535: the honest result, 0, is rejected *)
Example C110_reject : forall dbg live, live 1 = true -> live 2 = true ->
  exists o, session dbg live 1 2 11 12 [(3, 4)] [65535] 1 = Ok o /\
    ~ check (fadd (fieldn CV)) pairing (o_pp o) (o_vk o) (o_sum o) (o_tag o) 1.
Proof.
  intros dbg live L1 L2. destruct (L_puda dbg live 1 2 11 12 [(3, 4)] [65535] 1 L1 L2 eq_refl) as [o [E _]].
  exists o. split; [exact E|]. destruct residues_group as [A _]. destruct pairing_bilinear as [B N]. intros K.
  apply (L_C110_honest dbg live _ _ _ _ A _ B N 1 2 11 12 [(3, 4)] [65535] 1 o L1 L2 eq_refl) in K.
  - destruct K as [K|K]; [discriminate K|]. apply Z.divide_pos_le in K; [|reflexivity]. revert K. vm_compute. intros K. apply K. reflexivity.
  - repeat constructor; unfold u16; lia.
  - reflexivity.
  - exact E.
Qed.
