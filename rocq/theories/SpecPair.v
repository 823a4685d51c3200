(** Vocabulary for the statements about the check that Puda::Verify leaves in a comment, /repo/src/puda/puda.cpp:96. *)
From Coq Require Import ZArith Bool List.
From Verif Require Import Outcome FieldModel ECGroup ECOrder CurveParams EccModel SpecEcc DmeModel SpecDme PudaModel SpecPuda.
Import ListNotations.
Open Scope Z_scope.

(** the elements of X that satisfy D form an abelian group *)
Record abelian {X : Type} (D : X -> Prop) (mul : X -> X -> X) (one : X) (inv : X -> X) : Prop := mkab {
  ab_one : D one;
  ab_mul : forall x y, D x -> D y -> D (mul x y);
  ab_inv : forall x, D x -> D (inv x);
  ab_assoc : forall x y z, D x -> D y -> D z -> mul (mul x y) z = mul x (mul y z);
  ab_comm : forall x y, D x -> D y -> mul x y = mul y x;
  ab_one_l : forall x, D x -> mul one x = x;
  ab_inv_l : forall x, D x -> mul (inv x) x = one }.

(** it has N elements *)
Definition has_size {X : Type} (D : X -> Prop) (N : Z) : Prop :=
  exists l, NoDup l /\ (forall x, D x <-> In x l) /\ Z.of_nat (length l) = N.

(** the point k*G *)
Definition mult (C : cparams) (k : Z) : ept (c_prime C) := gmul C k (ggen C).

(** e maps pairs of points into the group and turns sums on the left into products *)
Definition additive {X : Type} (C : cparams) (D : X -> Prop) (mul : X -> X -> X) (e : ept (c_prime C) -> ept (c_prime C) -> X) : Prop :=
  (forall j l, D (e (mult C j) (mult C l))) /\
  (forall j k l, e (gadd C (mult C j) (mult C k)) (mult C l) = mul (e (mult C j) (mult C l)) (e (mult C k) (mult C l))).
(** and it does so on the right as well *)
Definition bilinear {X : Type} (C : cparams) (D : X -> Prop) (mul : X -> X -> X) (e : ept (c_prime C) -> ept (c_prime C) -> X) : Prop :=
  additive C D mul e /\
  (forall j k l, e (mult C l) (gadd C (mult C j) (mult C k)) = mul (e (mult C l) (mult C j)) (e (mult C l) (mult C k))).

(** the least k such that the order of the curve divides p^k - 1, for the two curves *)
Definition degree (k : cname) : Z := match k with Secp256r1 => (c_order secp256r1 - 1) / 3 | Bn254 => 12 end.

(** the check of the comment: e(tag, g2) == e(hash*t, vk_1) + e(g1*sum, vk_2) *)
Definition check {X : Type} (mul : X -> X -> X) (e : ept (c_prime CV) -> ept (c_prime CV) -> X)
    (pp : pp_t) (vk : vk_t) (sum : Z) (tag : point) (t : Z) : Prop :=
  e (den CV tag) (den CV (ppg2 pp)) =
  mul (e (gmul CV t (den CV (pphash pp))) (den CV (vk_1 vk))) (e (gmul CV sum (den CV (ppg1 pp))) (den CV (vk_2 vk))).

(** all point objects of a run's public data are valid *)
Definition public_valid (live : Z -> bool) (pp : pp_t) (vk : vk_t) : Prop :=
  is_valid live (ppg1 pp) /\ is_valid live (ppg2 pp) /\ is_valid live (pphash pp) /\ is_valid live (vk_1 vk) /\ is_valid live (vk_2 vk).
