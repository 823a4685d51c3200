(** Properties C01-C06: the field classes (includes/field_template.hpp, src/fields). *)
From Coq Require Import ZArith Znumtheory Bool List Lia.
From Verif Require Import Outcome FieldModel ZpField CurveParams SpecField FieldProofs.
Import ListNotations.
Open Scope Z_scope.

(** C01: the constructor stores the canonical representative of any integer, *)
Theorem C01_construct : forall c v, represents c (fe_new (modulus c) v) v.
Proof. exact L_C01_construct. Qed.
Print Assumptions C01_construct.

(** which is the only one, *)
Theorem C01_unique : forall c v r,
  0 <= r < modulus c -> (modulus c | v - r) -> fe_new (modulus c) v = mkfe r (modulus c).
Proof. exact L_C01_unique. Qed.
Print Assumptions C01_unique.

(** and == decides congruence. *)
Theorem C01_equality : forall c v w,
  fe_eq (fe_new (modulus c) v) (fe_new (modulus c) w) = true <-> (modulus c | v - w).
Proof. exact L_C01_eq. Qed.
Print Assumptions C01_equality.

(** The constructors of the base class: the class constructor is the one with the class modulus; the one without
    modulus always divides by zero. *)
Theorem C01_base : forall v q, (0 < q -> pf_two v q = Ok (fe_new q v)) /\ (q < 0 -> pf_two v q = Ok (mkfe (v mod (- q)) q)) /\
  pf_two v 0 = Err DivByZero /\ pf_one v = Err DivByZero.
Proof. exact L_C01_base. Qed.
Print Assumptions C01_base.

Example C01_case :
  map (fun v => fval (fe_new (modulus Bn254_n) v)) [-1; 0; modulus Bn254_n + 5] = [modulus Bn254_n - 1; 0; 5].
Proof. vm_compute. reflexivity. Qed.

(** C02: every operator returns the canonical representative of the exact integer result. *)
Theorem C02_operators : forall c dbg x y a, elem c x -> elem c y ->
  returns c (fe_add dbg (modulus c) x y) (fval x + fval y) /\
  returns c (fe_sub dbg (modulus c) x y) (fval x - fval y) /\
  returns c (fe_mul dbg (modulus c) x y) (fval x * fval y) /\
  returns c (fe_neg (modulus c) x) (- fval x) /\
  returns c (fe_mulz (modulus c) x a) (fval x * a) /\
  returns c (fe_square (modulus c) x) (fval x * fval x).
Proof. exact L_C02_ops. Qed.
Print Assumptions C02_operators.

(** The compound operators compute what the binary ones return. *)
Theorem C02_compound : forall c dbg x y a, elem c x -> elem c y ->
  fe_add_eq dbg x y = fe_add dbg (modulus c) x y /\
  fe_sub_eq dbg x y = fe_sub dbg (modulus c) x y /\
  fe_mul_eq dbg x y = fe_mul dbg (modulus c) x y /\
  fe_mulz_eq x a = fe_mulz (modulus c) x a /\
  fe_div_eq dbg (modulus c) x y = fe_div dbg (modulus c) x y.
Proof. exact L_C02_compound. Qed.
Print Assumptions C02_compound.

(** In place, on objects i and j of a store, i = j allowed: object i receives the binary result,
    the other objects are untouched. *)
Theorem C02_aliasing : forall c dbg s i j, (forall k, elem c (s k)) ->
  (exists s', exec dbg (modulus c) s (IAdd i j) = Ok s' /\ fe_add dbg (modulus c) (s i) (s j) = Ok (s' i) /\ forall k, k <> i -> s' k = s k) /\
  (exists s', exec dbg (modulus c) s (ISub i j) = Ok s' /\ fe_sub dbg (modulus c) (s i) (s j) = Ok (s' i) /\ forall k, k <> i -> s' k = s k) /\
  (exists s', exec dbg (modulus c) s (IMul i j) = Ok s' /\ fe_mul dbg (modulus c) (s i) (s j) = Ok (s' i) /\ forall k, k <> i -> s' k = s k) /\
  (fval (s j) <> 0 ->
   exists s', exec dbg (modulus c) s (IDiv i j) = Ok s' /\ fe_div dbg (modulus c) (s i) (s j) = Ok (s' i) /\ forall k, k <> i -> s' k = s k).
Proof. exact L_C02_inplace. Qed.
Print Assumptions C02_aliasing.

Theorem C02_aliasing_integer : forall c dbg s i a, (forall k, elem c (s k)) ->
  exists s', exec dbg (modulus c) s (IMulz i a) = Ok s' /\ fe_mulz (modulus c) (s i) a = Ok (s' i) /\ forall k, k <> i -> s' k = s k.
Proof. exact L_C02_inplacez. Qed.
Print Assumptions C02_aliasing_integer.

Example C02_case : let q := modulus Secp256r1_n in
  fe_sub true q (fe_new q 3) (fe_new q 5) = Ok (fe_new q (-2)) /\
  match exec true q (fun _ => fe_new q 7) (ISub 1 1) with
  | Ok s' => s' 1%nat = fe_new q 0 /\ s' 0%nat = fe_new q 7
  | Err _ => False
  end.
Proof. vm_compute. repeat split. Qed.

(** C03: non-zero elements can be inverted and divided by; *)
Theorem C03_invert_divide : forall c dbg x y, elem c x -> elem c y -> fval y <> 0 ->
  (exists i, fe_invert (modulus c) y = Ok i /\ elem c i /\ fe_mul dbg (modulus c) y i = Ok (fe_new (modulus c) 1)) /\
  (exists d, fe_div dbg (modulus c) x y = Ok d /\ elem c d /\ fe_mul dbg (modulus c) d y = Ok x).
Proof. exact L_C03. Qed.
Print Assumptions C03_invert_divide.

(** zero cannot, and GMP's failure is passed on. *)
Theorem C03_zero : forall c dbg x y, elem c x -> elem c y -> fval y = 0 ->
  fe_invert (modulus c) y = Err NoInverse /\ fe_div dbg (modulus c) x y = Err NoInverse /\
  fe_div_eq dbg (modulus c) x y = Err NoInverse.
Proof. exact L_C03_zero. Qed.
Print Assumptions C03_zero.

Example C03_case : let q := modulus Bn254_p in
  fe_invert q (fe_new q 2) = Ok (fe_new q ((q + 1) / 2)) /\ fe_invert q (fe_new q q) = Err NoInverse.
Proof. vm_compute. split; reflexivity. Qed.

(** C04: the four moduli are prime, *)
Theorem C04_prime : forall c, prime (modulus c).
Proof. exact modulus_prime. Qed.
Print Assumptions C04_prime.

(** so there are no zero divisors (inverses: [C03_invert_divide]). *)
Theorem C04_no_zero_divisors : forall c dbg x y, elem c x -> elem c y -> fval x <> 0 -> fval y <> 0 ->
  exists r, fe_mul dbg (modulus c) x y = Ok r /\ fval r <> 0.
Proof. exact L_C04_nodiv. Qed.
Print Assumptions C04_no_zero_divisors.

Example C04_case :
  modulus Secp256r1_p = 2 ^ 256 - 2 ^ 224 + 2 ^ 192 + 2 ^ 96 - 1 /\
  (let u := 2 ^ 62 + 2 ^ 55 + 1 in
   modulus Bn254_p = 36 * u ^ 4 - 36 * u ^ 3 + 24 * u ^ 2 - 6 * u + 1 /\
   modulus Bn254_n = 36 * u ^ 4 - 36 * u ^ 3 + 18 * u ^ 2 - 6 * u + 1).
Proof. vm_compute. repeat split. Qed.

(** C05: any history of in-place operations tracks the residues, and stops exactly at a division by zero. *)
Theorem C05_history : forall c dbg l s e, reps (modulus c) s e ->
  match rexec_all (modulus c) e l with
  | Some e' => exists s', exec_all dbg (modulus c) s l = Ok s' /\ reps (modulus c) s' e'
  | None => exec_all dbg (modulus c) s l = Err NoInverse
  end.
Proof. exact L_C05. Qed.
Print Assumptions C05_history.

Example C05_case : let q := modulus Secp256r1_p in
  match exec_all false q (fun k => fe_new q (Z.of_nat k + 2)) [ISub 0 1; IMul 0 0; IAdd 1 1; IMulz 1 (-3); IDiv 1 0] with
  | Ok s' => s' 0%nat = fe_new q 1 /\ s' 1%nat = fe_new q (-18)
  | Err _ => False
  end.
Proof. vm_compute. repeat split. Qed.

(** C06: the result of a binary operator always has the class modulus, *)
Theorem C06_result_class : forall dbg q x y r,
  fe_add dbg q x y = Ok r \/ fe_sub dbg q x y = Ok r \/ fe_mul dbg q x y = Ok r \/ fe_div dbg q x y = Ok r -> fmod r = q.
Proof. exact L_C06_class. Qed.
Print Assumptions C06_result_class.

(** hence not that of its operands after setField; *)
Theorem C06_result_in_operand_field_refuted : forall c dbg,
  ~ (forall x y r, fmod x = fmod y -> fe_add dbg (modulus c) x y = Ok r -> fmod r = fmod x).
Proof.
  intros c dbg H. specialize (H (mkfe 1 7) (mkfe 1 7) (fe_new (modulus c) 2)).
  destruct c, dbg; vm_compute in H; discriminate (H eq_refl eq_refl).
Qed.
Print Assumptions C06_result_in_operand_field_refuted.

(** setField does not reduce the value; *)
Theorem C06_not_reduced_refuted : forall c,
  ~ (forall x m, elem c x -> 0 < m -> 0 <= fval (setField x m) < fmod (setField x m)).
Proof.
  intros c H. specialize (H (fe_new (modulus c) 9) 7 (proj1 (L_C01_construct c 9)) eq_refl).
  destruct c; vm_compute in H; destruct H as [_ H]; discriminate H.
Qed.
Print Assumptions C06_not_reduced_refuted.

Theorem C06_setField : forall x m, fval (setField x m) = fval x /\ fmod (setField x m) = m.
Proof. exact L_C06_value. Qed.
Print Assumptions C06_setField.

(** mixed moduli abort with asserts on, *)
Theorem C06_mixed_debug : forall q x y, fmod x <> fmod y ->
  fe_add true q x y = Err AssertFail /\ fe_sub true q x y = Err AssertFail /\ fe_mul true q x y = Err AssertFail /\
  fe_div true q x y = Err AssertFail /\ fe_add_eq true x y = Err AssertFail /\ fe_sub_eq true x y = Err AssertFail /\
  fe_mul_eq true x y = Err AssertFail /\ fe_div_eq true q x y = Err AssertFail.
Proof. exact L_C06_debug. Qed.
Print Assumptions C06_mixed_debug.

(** and silently compute with asserts off. *)
Theorem C06_mixed_release : forall q x y, 0 < fmod x ->
  fe_add false q x y = Ok (mkfe (((fval x + fval y) mod fmod x) mod q) q) /\
  fe_sub false q x y = Ok (mkfe (((fval x - fval y) mod fmod x) mod q) q) /\
  fe_mul false q x y = Ok (mkfe (((fval x * fval y) mod fmod x) mod q) q).
Proof. exact L_C06_ndebug. Qed.
Print Assumptions C06_mixed_release.

Example C06_case : let q := modulus Bn254_n in
  fe_add false q (setField (fe_new q 9) 7) (fe_new q 4) = Ok (mkfe 6 q) /\
  fe_add true q (setField (fe_new q 9) 7) (fe_new q 4) = Err AssertFail.
Proof. vm_compute. split; reflexivity. Qed.
