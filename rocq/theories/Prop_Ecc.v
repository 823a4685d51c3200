(** Properties C07-C19: points and curves (includes/ecc_template.hpp, src/ecc).
    In each statement [k] names the curve class, [dbg] tells whether assert is active, [live] which
    curve objects exist. *)
From Coq Require Import ZArith Znumtheory Bool List Lia.
From Verif Require Import Outcome FieldModel ZpField SpecField CurveParams CurveFacts EccModel EccProofs SpecEcc EccThms EccThms2.
Import ListNotations.
Open Scope Z_scope.

(** C07: generator on the curve, p = 3 mod 4, no point of order two, prime order n, n*G neutral, no smaller multiple neutral. *)
Theorem C07_constants : forall k, let C := params k in
  equation C (c_gx C) (c_gy C) /\ c_prime C mod 4 = 3 /\
  (forall x, (x * x * x + c_a C * x + c_b C) mod c_prime C <> 0) /\
  prime (c_order C) /\ gmul C (c_order C) (ggen C) = None /\
  (forall j, 0 < j < c_order C -> gmul C j (ggen C) <> None).
Proof. exact (fun k => L_C07 (params k) (good_params k)). Qed.
Print Assumptions C07_constants.

(** non-singular: 4a^3 + 27b^2 is not 0 modulo p *)
Theorem C07_nonsingular : forall k, let C := params k in
  (4 * (c_a C * c_a C * c_a C) + 27 * (c_b C * c_b C)) mod c_prime C <> 0.
Proof. intros [|]; vm_compute; discriminate. Qed.
Print Assumptions C07_nonsingular.

Example C07_case : c_prime bn254 - c_order bn254 = 6 * (2 ^ 62 + 2 ^ 55 + 1) ^ 2.
Proof. vm_compute. reflexivity. Qed.

(** a concrete valid point: the generator of a live curve object *)
Example gen_valid : forall k live c, live c = true -> finite_valid live (params k) (gen (params k) c).
Proof.
  intros k live c L. split; [reflexivity|]. split; [apply FieldProofs.canon_new; destruct k; reflexivity|].
  split; [apply FieldProofs.canon_new; destruct k; reflexivity|]. split; [exists c; split; [reflexivity|exact L]|].
  destruct k; vm_compute; reflexivity.
Qed.

(** C08: adding valid points gives, without fault, a valid point: the chord-and-tangent sum. *)
Theorem C08_closure : forall k dbg live P Q, let C := params k in valid live C P -> valid live C Q ->
  yields live C (padd dbg live C P Q) (gadd C (den C P) (den C Q)) /\
  padd_eq dbg live C P Q = padd dbg live C P Q.
Proof. exact (fun k dbg live => L_C08 dbg live (params k) (good_params k)). Qed.
Print Assumptions C08_closure.

(** C09: abelian group laws. *)
Theorem C09_associative : forall k dbg live P Q R, let C := params k in
  valid live C P -> valid live C Q -> valid live C R ->
  agree live C (do A <- padd dbg live C P Q; padd dbg live C A R)
               (do B <- padd dbg live C Q R; padd dbg live C P B).
Proof. exact (fun k dbg live => L_C09_assoc dbg live (params k) (good_params k)). Qed.
Print Assumptions C09_associative.

Theorem C09_commutative : forall k dbg live P Q, let C := params k in valid live C P -> valid live C Q ->
  agree live C (padd dbg live C P Q) (padd dbg live C Q P).
Proof. exact (fun k dbg live => L_C09_comm dbg live (params k) (good_params k)). Qed.
Print Assumptions C09_commutative.

Theorem C09_neutral : forall k dbg live P, let C := params k in valid live C P ->
  padd dbg live C P (pt_inf C) = Ok P /\ padd dbg live C (pt_inf C) P = Ok P.
Proof. exact (fun k dbg live => L_C09_neutral dbg live (params k)). Qed.
Print Assumptions C09_neutral.

Theorem C09_inverse : forall k dbg live P, let C := params k in finite_valid live C P ->
  finite_valid live C (mirror C P) /\ padd dbg live C P (mirror C P) = Ok (pt_inf C).
Proof.
  exact (fun k dbg live P H => conj (proj1 (mirror_valid live (params k) (good_params k) P H))
                                    (L_C09_inverse dbg live (params k) (good_params k) P H)).
Qed.
Print Assumptions C09_inverse.

Example C09_case : padd true all_alive bn254 (gen bn254 5) (mirror bn254 (gen bn254 5)) = Ok (pt_inf bn254) /\
  px (gen bn254 5) = fe_new (fieldp bn254) (-1) /\ py (mirror bn254 (gen bn254 5)) = fe_new (fieldp bn254) (-1).
Proof. vm_compute. repeat split. Qed.

(** C10: doubling is P+P on finite valid points, and reads a null pointer on infinity. *)
Theorem C10_double : forall k dbg live P, let C := params k in finite_valid live C P ->
  exists R, pdouble dbg live C P = Ok R /\ padd dbg live C P P = Ok R /\ finite_valid live C R /\
            den C R = gadd C (den C P) (den C P).
Proof. exact (fun k dbg live => L_C10 dbg live (params k) (good_params k)). Qed.
Print Assumptions C10_double.

Theorem C10_double_infinity : forall k dbg live, pdouble dbg live (params k) (pt_inf (params k)) = Err NullDeref.
Proof. exact (fun k dbg live => pdouble_inf dbg live (params k) (good_params k)). Qed.
Print Assumptions C10_double_infinity.

(** 2*(-1,1) on y^2 = x^3 + 2: slope 3/2, so x = 9/4 + 2 = 17/4 and y = -71/8 *)
Example C10_case : match pdouble false all_alive bn254 (gen bn254 7) with
  | Ok R => (fval (px R) * 4) mod c_prime bn254 = 17 /\ (fval (py R) * 8 + 71) mod c_prime bn254 = 0 /\ pcur R = Some 7
  | Err _ => False end.
Proof. vm_compute. repeat split. Qed.

(** C11: P*a is P added a mod n times, P*s is P added s times. *)
Theorem C11_integer : forall k dbg live P a, let C := params k in valid live C P ->
  exists R, pmulz dbg live C P a = Ok R /\ times dbg live C (Z.to_nat (a mod c_order C)) P = Ok R /\ valid live C R.
Proof. exact (fun k dbg live => L_C11_integer dbg live (params k) (good_params k)). Qed.
Print Assumptions C11_integer.

Theorem C11_scalar : forall k dbg live P s, let C := params k in valid live C P -> 0 <= fval s ->
  exists R, pmul dbg live C P s = Ok R /\ times dbg live C (Z.to_nat (fval s)) P = Ok R /\ valid live C R.
Proof. exact (fun k dbg live => L_C11_scalar dbg live (params k) (good_params k)). Qed.
Print Assumptions C11_scalar.

Theorem C11_group : forall k dbg live P a, let C := params k in valid live C P ->
  yields live C (pmulz dbg live C P a) (gmul C a (den C P)).
Proof. exact (fun k dbg live => L_C11_den dbg live (params k) (good_params k)). Qed.
Print Assumptions C11_group.

Example C11_case : pmulz false all_alive bn254 (gen bn254 3) 2 = pdouble false all_alive bn254 (gen bn254 3) /\
  pmulz false all_alive bn254 (gen bn254 3) (c_order bn254) = Ok (pt_inf bn254).
Proof. vm_compute. split; reflexivity. Qed.

(** C12: scalar multiplication is an action of the scalar field. *)
Theorem C12_scalar_sum : forall k dbg live P a b, let C := params k in
  valid live C P -> canon (fieldn C) a -> canon (fieldn C) b ->
  agree live C (do s <- fe_add dbg (fieldn C) a b; pmul dbg live C P s)
               (do A <- pmul dbg live C P a; do B <- pmul dbg live C P b; padd dbg live C A B).
Proof. exact (fun k dbg live => L_C12_add dbg live (params k) (good_params k)). Qed.
Print Assumptions C12_scalar_sum.

Theorem C12_scalar_product : forall k dbg live P a b, let C := params k in
  valid live C P -> canon (fieldn C) a -> canon (fieldn C) b ->
  agree live C (do A <- pmul dbg live C P a; pmul dbg live C A b)
               (do s <- fe_mul dbg (fieldn C) a b; pmul dbg live C P s).
Proof. exact (fun k dbg live => L_C12_mul dbg live (params k) (good_params k)). Qed.
Print Assumptions C12_scalar_product.

Theorem C12_point_sum : forall k dbg live P Q a, let C := params k in
  valid live C P -> valid live C Q -> canon (fieldn C) a ->
  agree live C (do T <- padd dbg live C P Q; pmul dbg live C T a)
               (do A <- pmul dbg live C P a; do B <- pmul dbg live C Q a; padd dbg live C A B).
Proof. exact (fun k dbg live => L_C12_distr dbg live (params k) (good_params k)). Qed.
Print Assumptions C12_point_sum.

Theorem C12_negative : forall k dbg live P a, let C := params k in valid live C P ->
  yields live C (pmulz dbg live C P (- a)) (gneg C (gmul C a (den C P))).
Proof. exact (fun k dbg live => L_C12_negative dbg live (params k) (good_params k)). Qed.
Print Assumptions C12_negative.

Example C12_case : let G := gen bn254 3 in
  (do A <- pmulz true all_alive bn254 G 2; do B <- pmulz true all_alive bn254 G 3; padd true all_alive bn254 A B) = pmulz true all_alive bn254 G 5 /\
  (do A <- pmulz true all_alive bn254 G 2; pmulz true all_alive bn254 A 3) = pmulz true all_alive bn254 G 6.
Proof. vm_compute. split; reflexivity. Qed.

(** C13: every valid point is a multiple of G, and adding a finite one j times gives infinity exactly when n divides j. *)
Theorem C13_generated : forall k live P, let C := params k in valid live C P ->
  exists j, 0 <= j < c_order C /\ den C P = gmul C j (ggen C).
Proof. exact (fun k live => L_C13_generated live (params k) (good_params k)). Qed.
Print Assumptions C13_generated.

Theorem C13_exact_order : forall k dbg live P j, let C := params k in finite_valid live C P ->
  exists R, times dbg live C j P = Ok R /\ valid live C R /\ (pinf R = true <-> (c_order C | Z.of_nat j)).
Proof. exact (fun k dbg live => L_C13_order dbg live (params k) (good_params k)). Qed.
Print Assumptions C13_exact_order.

Example C13_case : times true all_alive bn254 3 (gen bn254 3) = pmulz true all_alive bn254 (gen bn254 3) 3 /\
  times true all_alive bn254 0 (gen bn254 3) = Ok (pt_inf bn254) /\ (forall R, times true all_alive bn254 2 (gen bn254 3) = Ok R -> pinf R = false).
Proof. vm_compute. split; [reflexivity|]. split; [reflexivity|]. intros R E. injection E as <-. reflexivity. Qed.

(** C14: subtraction of a finite point from a finite point is addition of the mirror image; *)
Theorem C14_subtract : forall k dbg live P Q, let C := params k in finite_valid live C P -> finite_valid live C Q ->
  psub dbg live C P Q = padd dbg live C P (mirror C Q) /\
  psub_eq dbg live C P Q = psub dbg live C P Q /\
  yields live C (psub dbg live C P Q) (gadd C (den C P) (gneg C (den C Q))).
Proof. exact (fun k dbg live => L_C14 dbg live (params k) (good_params k)). Qed.
Print Assumptions C14_subtract.

(** P - infinity = P is false for every finite valid P: a different point without asserts, *)
Theorem C14_minus_infinity_refuted : forall k live P, let C := params k in finite_valid live C P ->
  exists R, psub false live C P (pt_inf C) = Ok R /\ den C R <> den C P.
Proof. exact (fun k live P H => L_C14_minus_inf_release false live (params k) (good_params k) P H eq_refl). Qed.
Print Assumptions C14_minus_infinity_refuted.

(** a null pointer read with asserts; *)
Theorem C14_minus_infinity_debug : forall k live P, let C := params k in valid live C P ->
  psub true live C P (pt_inf C) = Err NullDeref.
Proof. exact (fun k live P H => L_C14_minus_inf_debug true live (params k) (good_params k) P H eq_refl). Qed.
Print Assumptions C14_minus_infinity_debug.

(** infinity - P is the mirrored point without a curve, respectively a null pointer read. *)
Theorem C14_infinity_minus : forall k dbg live P, let C := params k in finite_valid live C P ->
  psub dbg live C (pt_inf C) P =
  if dbg then Err NullDeref else Ok (mkpoint (px P) (fe_new (fieldp C) (- fval (py P))) false None).
Proof. exact (fun k dbg live => L_C14_inf_minus dbg live (params k) (good_params k)). Qed.
Print Assumptions C14_infinity_minus.

(** (-1,1) - infinity comes out as the chord through (-1,1) and (0,0): slope -1, x = 1+1 = 2, y = 2 *)
Example C14_case : psub false all_alive bn254 (gen bn254 1) (pt_inf bn254) =
  Ok (pt_z bn254 2 2 (Some 1)) /\
  isValid false all_alive bn254 (pt_z bn254 2 2 (Some 1)) = Ok false.
Proof. vm_compute. split; reflexivity. Qed.

(** C15: lookup by abscissa. *)
Theorem C15_lookup : forall k dbg live c x, let C := params k in canon (fieldp C) x -> live c = true ->
  exists R, evaluateP dbg live C (Some c) x = Ok R /\
    ((exists y, equation C (fval x) y) /\ finite_valid live C R /\ px R = x /\ pcur R = Some c /\
     evaluatePneg dbg live C (Some c) x = Ok (mirror C R)
     \/ (~ (exists y, equation C (fval x) y)) /\ R = pt_inf C /\ evaluatePneg dbg live C (Some c) x = Ok (pt_inf C)).
Proof. exact (fun k dbg live => L_C15 dbg live (params k) (good_params k)). Qed.
Print Assumptions C15_lookup.

Theorem C15_right_hand_side : forall k dbg live c x, let C := params k in canon (fieldp C) x -> live c = true ->
  evaluatePy2 dbg live C (Some c) x = Ok (fe_new (fieldp C) (fval x * fval x * fval x + c_a C * fval x + c_b C)).
Proof. exact (fun k dbg live => L_C15_y2 dbg live (params k) (good_params k)). Qed.
Print Assumptions C15_right_hand_side.

(** Which of the two points the lookup gives: evaluateP the one whose ordinate is a square, evaluatePneg the other. *)
Theorem C15_root : forall k dbg live P c, let C := params k in finite_valid live C P -> live c = true ->
  let T := mkpoint (px P) (py P) false (Some c) in
  (evaluateP dbg live C (Some c) (px P) = Ok T /\ evaluatePneg dbg live C (Some c) (px P) = Ok (mirror C T) /\
   exists z, fval (py P) = (z * z) mod c_prime C) \/
  (evaluateP dbg live C (Some c) (px P) = Ok (mirror C T) /\ evaluatePneg dbg live C (Some c) (px P) = Ok T /\
   ~ exists z, fval (py P) = (z * z) mod c_prime C).
Proof. exact (fun k dbg live => L_C15_root dbg live (params k) (good_params k)). Qed.
Print Assumptions C15_root.

Example C15_case : equation bn254 (-1) 1 /\
  evaluatePy2 false all_alive bn254 (Some 4) (fe_new (fieldp bn254) (-1)) = Ok (fe_new (fieldp bn254) 1) /\
  evaluateP false all_alive bn254 (Some 4) (fe_new (fieldp bn254) (-1)) = Ok (gen bn254 4) /\
  evaluatePneg false all_alive bn254 (Some 4) (fe_new (fieldp bn254) (-1)) = Ok (mirror bn254 (gen bn254 4)) /\
  fval (py (gen bn254 4)) = (1 * 1) mod c_prime bn254.
Proof. vm_compute. repeat split. Qed.

(** C16: encoding and decoding. *)
Theorem C16_roundtrip : forall k dbg live P T e c, let C := params k in
  finite_valid live C P -> pcur T = Some c -> live c = true -> getEncodedX dbg live C P = Ok e ->
  exists R, setEncodedX dbg live C T e = Ok R /\ finite_valid live C R /\ den C R = den C P /\ pcur R = Some c.
Proof. exact (fun k dbg live => L_C16_roundtrip dbg live (params k) (good_params k)). Qed.
Print Assumptions C16_roundtrip.

Theorem C16_encodes : forall k dbg live P, let C := params k in finite_valid live C P ->
  exists e, getEncodedX dbg live C P = Ok e /\ 0 <= e < 2 * c_prime C.
Proof. exact (fun k dbg live => L_C16_total dbg live (params k) (good_params k)). Qed.
Print Assumptions C16_encodes.

Theorem C16_injective : forall k dbg live P Q e, let C := params k in
  finite_valid live C P -> finite_valid live C Q ->
  getEncodedX dbg live C P = Ok e -> getEncodedX dbg live C Q = Ok e -> px P = px Q /\ py P = py Q.
Proof. exact (fun k dbg live => L_C16_injective dbg live (params k) (good_params k)). Qed.
Print Assumptions C16_injective.

Theorem C16_nonresidue : forall k dbg live T e c, let C := params k in
  pcur T = Some c -> live c = true -> ~ (exists y, equation C (Z.div2 e) y) ->
  setEncodedX dbg live C T e = Ok (pt_inf C).
Proof. exact (fun k dbg live => L_C16_nonresidue dbg live (params k) (good_params k)). Qed.
Print Assumptions C16_nonresidue.

(** decoding into, or encoding, a point without curve reads a null pointer; infinity is such a point *)
Theorem C16_null : forall k dbg live x e P, let C := params k in pcur P = None ->
  evaluateP dbg live C None x = Err NullDeref /\ evaluatePneg dbg live C None x = Err NullDeref /\
  getEncodedX dbg live C P = Err NullDeref /\ setEncodedX dbg live C P e = Err NullDeref.
Proof. exact (fun k dbg live => L_C19_null dbg live (params k)). Qed.
Print Assumptions C16_null.

Example C16_case : getEncodedX false all_alive bn254 (gen bn254 4) = Ok (2 * c_gx bn254 + 1) /\
  setEncodedX false all_alive bn254 (gen bn254 9) (2 * c_gx bn254) = Ok (mirror bn254 (gen bn254 9)).
Proof. vm_compute. split; reflexivity. Qed.

(** C17: isValid on objects of the field class, *)
Theorem C17_decides : forall k dbg live P, let C := params k in canon (fieldp C) (px P) -> canon (fieldp C) (py P) ->
  isValid dbg live C P =
  if pinf P then Ok true else
  match pcur P with
  | None => Ok false
  | Some c =>
      if live c
      then Ok ((fval (py P) * fval (py P)) mod c_prime C =?
               (fval (px P) * fval (px P) * fval (px P) + c_a C * fval (px P) + c_b C) mod c_prime C)
      else Err UseAfterFree
  end.
Proof. exact (fun k dbg live => L_C17_canonical dbg live (params k) (good_params k)). Qed.
Print Assumptions C17_decides.

(** on coordinates of any positive modulus (setField) in the configured build, *)
Theorem C17_any_modulus : forall k live P c, let C := params k in
  0 < fmod (px P) -> 0 < fmod (py P) -> pinf P = false -> pcur P = Some c -> live c = true ->
  (isValid false live C P = Ok true <->
   fmod (px P) = c_prime C /\ fmod (py P) = c_prime C /\ equation C (fval (px P)) (fval (py P))).
Proof. exact (fun k live => L_C17_release live (params k) (good_params k)). Qed.
Print Assumptions C17_any_modulus.

(** on everything constructors and operators can produce. *)
Theorem C17_valid : forall k dbg live P, let C := params k in built dbg live C P ->
  (isValid dbg live C P = Ok true <-> valid live C P).
Proof.
  exact (fun k dbg live P H => let W := L_C17_reachable dbg live (params k) (good_params k) P H in
     L_C17_valid dbg live (params k) (good_params k) P (proj1 W) (proj1 (proj2 W)) (proj2 (proj2 W))).
Qed.
Print Assumptions C17_valid.

Theorem C17_one_infinity : forall k dbg live P, let C := params k in built dbg live C P -> pinf P = true -> P = pt_inf C.
Proof. exact (fun k dbg live P H => proj2 (proj2 (L_C17_reachable dbg live (params k) (good_params k) P H))). Qed.
Print Assumptions C17_one_infinity.

Example C17_case : isValid true all_alive secp256r1 (gen secp256r1 1) = Ok true /\
  isValid true all_alive secp256r1 (pt_z secp256r1 1 1 (Some 1)) = Ok false /\
  isValid true all_alive secp256r1 (pt_z secp256r1 (c_gx secp256r1) (c_gy secp256r1) None) = Ok false.
Proof. vm_compute. repeat split. Qed.

(** C18: equality. *)
Theorem C18_equality : forall k live P Q, let C := params k in valid live C P -> valid live C Q ->
  exists b, peq live C P Q = Ok b /\ (b = true <-> den C P = den C Q).
Proof. exact (fun k live => L_C18 live (params k) (good_params k)). Qed.
Print Assumptions C18_equality.

Theorem C18_meaning : forall k live P Q, let C := params k in valid live C P -> valid live C Q ->
  (den C P = den C Q <->
   (pinf P = true /\ pinf Q = true) \/ (pinf P = false /\ pinf Q = false /\ px P = px Q /\ py P = py Q)).
Proof. exact (fun k live => L_C18_coords live (params k) (good_params k)). Qed.
Print Assumptions C18_meaning.

(** Points that are not valid, such as an infinite one with coordinates and a curve, are compared in the same way. *)
Theorem C18_any : forall k live P Q c c', let C := params k in
  pcur P = Some c -> live c = true -> pcur Q = Some c' -> live c' = true ->
  exists b, peq live C P Q = Ok b /\
    (b = true <-> (pinf P = true /\ pinf Q = true) \/ (pinf P = pinf Q /\ px P = px Q /\ py P = py Q)).
Proof. exact (fun k live => L_C18_any live (params k)). Qed.
Print Assumptions C18_any.

Example C18_case : peq all_alive bn254 (gen bn254 1) (gen bn254 2) = Ok true /\
  peq all_alive bn254 (gen bn254 1) (pt_inf bn254) = Ok false /\ peq all_alive bn254 (pt_inf bn254) (pt_inf bn254) = Ok true /\
  peq all_alive bn254 (mkpoint (px (pt_inf bn254)) (py (pt_inf bn254)) true (Some 1)) (pt_z bn254 0 0 (Some 1)) = Ok false.
Proof. vm_compute. repeat split. Qed.

(** C19: which curve objects are read.  [finite_valid all_alive]: a finite point on the curve, whatever
    became of its curve object. *)
Theorem C19_add : forall k dbg live P Q, let C := params k in finite_valid all_alive C P -> finite_valid all_alive C Q ->
  padd dbg live C P Q =
  if (negb dbg || alive live P && alive live Q) && (if fe_eq (px P) (px Q) && fe_eq (py P) (py Q) then alive live P else true)
  then padd dbg all_alive C P Q else Err UseAfterFree.
Proof. exact (fun k dbg live => L_C19_add dbg live (params k) (good_params k)). Qed.
Print Assumptions C19_add.

Theorem C19_double : forall k dbg live P, let C := params k in finite_valid all_alive C P ->
  pdouble dbg live C P = if alive live P then pdouble dbg all_alive C P else Err UseAfterFree.
Proof. exact (fun k dbg live => L_C19_double dbg live (params k) (good_params k)). Qed.
Print Assumptions C19_double.

Theorem C19_multiply : forall k dbg live P s, let C := params k in finite_valid all_alive C P -> 0 <= fval s ->
  pmul dbg live C P s = if (fval s <=? 1) || alive live P then pmul dbg all_alive C P s else Err UseAfterFree.
Proof. exact (fun k dbg live => L_C19_mul dbg live (params k) (good_params k)). Qed.
Print Assumptions C19_multiply.

Theorem C19_equality : forall k live P Q, let C := params k in finite_valid all_alive C P -> finite_valid all_alive C Q ->
  peq live C P Q = if negb (fe_eq (px P) (px Q) && fe_eq (py P) (py Q)) then Ok false
                   else if alive live P && alive live Q then Ok true else Err UseAfterFree.
Proof. exact (fun k live => L_C19_eq live (params k) (good_params k)). Qed.
Print Assumptions C19_equality.

Theorem C19_dead : forall k dbg live P c e x, let C := params k in
  finite_valid all_alive C P -> alive live P = false -> live c = false -> pcur P = Some c ->
  isValid dbg live C P = Err UseAfterFree /\ evaluateP dbg live C (Some c) x = Err UseAfterFree /\
  evaluatePneg dbg live C (Some c) x = Err UseAfterFree /\ evaluatePy2 dbg live C (Some c) x = Err UseAfterFree /\
  getEncodedX dbg live C P = Err UseAfterFree /\ setEncodedX dbg live C P e = Err UseAfterFree /\
  getDefaultGen live C (Some c) = Err UseAfterFree.
Proof. exact (fun k dbg live => L_C19_dead dbg live (params k)). Qed.
Print Assumptions C19_dead.

(** a finite result refers to an operand's curve object *)
Theorem C19_provenance : forall k dbg live P Q s R, let C := params k in pinf R = false ->
  (padd dbg live C P Q = Ok R -> pcur R = pcur P \/ pcur R = pcur Q) /\
  (psub dbg live C P Q = Ok R -> pcur R = pcur P) /\
  (pmul dbg live C P s = Ok R -> pcur R = pcur P) /\
  (pdouble dbg live C P = Ok R -> pcur R = pcur P).
Proof.
  exact (fun k dbg live P Q s R F => let H := good_params k in
    conj (fun E => L_C19_prov_add dbg live (params k) H P Q R E F)
   (conj (fun E => L_C19_prov_sub dbg live (params k) H P Q R E F)
   (conj (fun E => L_C19_prov_mul dbg live (params k) H P s R E F)
         (fun E => proj1 (pdouble_cur dbg live (params k) H P R E))))).
Qed.
Print Assumptions C19_provenance.

Example C19_case : let live := fun c => c =? 1 in
  pdouble false live bn254 (gen bn254 2) = Err UseAfterFree /\
  padd false live bn254 (gen bn254 1) (mirror bn254 (gen bn254 2)) = Ok (pt_inf bn254) /\
  padd true live bn254 (gen bn254 1) (mirror bn254 (gen bn254 2)) = Err UseAfterFree.
Proof. vm_compute. repeat split. Qed.
