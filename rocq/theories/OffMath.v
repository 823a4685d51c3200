(** The points of y^2 = (x+1)^2 (x-2) and of y^2 = x^3 under the addition formulas of y^2 = x^3 + a x + b, for a = -3 and a = 0,
    over any field of characteristic <> 2.  Mathematics only; models no code. *)
From Coq Require Import Field Ring.
From Verif Require Import ECGroup.

Section Off.
  Variable F : Type.
  Variables (f0 f1 : F) (fadd fmul fsub : F -> F -> F) (fopp : F -> F)
            (fdiv : F -> F -> F) (finv : F -> F).
  Hypothesis FT : field_theory f0 f1 fadd fmul fsub fopp fdiv finv (@eq F).
  Add Field OffField : FT.
  Hypothesis eqF : forall x y : F, {x = y} + {x <> y}.

  Local Notation "0" := f0.
  Local Notation "1" := f1.
  Local Infix "+" := fadd.
  Local Infix "*" := fmul.
  Local Infix "-" := fsub.
  Local Infix "/" := fdiv.
  Local Notation "- x" := (fopp x).

  Variable a : F.
  Hypothesis two_nz : 1 + 1 <> 0.
  Local Notation pt := (pt F).
  Local Notation add := (add F f1 fadd fmul fsub fdiv eqF a).
  Local Notation mul_0 := (mul_0 F f0 f1 fadd fmul fsub fopp fdiv finv FT eqF).
  Local Notation mul_nz := (mul_nz F f0 f1 fadd fmul fsub fopp fdiv finv FT eqF).

  Lemma fsub_0 x y : (x - y) = 0 -> x = y.
  Proof. intros E. transitivity ((x - y) + y); [ring|]. rewrite E. ring. Qed.
  Lemma fadd_0 x y : (x + y) = 0 -> x = (- y).
  Proof. intros E. transitivity ((x + y) - y); [ring|]. rewrite E. ring. Qed.
  Lemma squares x y : (x * x) = (y * y) -> x = y \/ x = (- y).
  Proof.
    intros E. assert (M : ((x - y) * (x + y)) = 0) by (transitivity (x * x - y * y); [ring|]; rewrite E; ring).
    apply mul_0 in M. destruct M as [M|M]; [left; apply fsub_0; exact M|right; apply fadd_0; exact M].
  Qed.

  (** ** The cusp: x = 1/k^2, y = 1/k^3 adds like k *)
  Definition cusp (k : F) : pt := if eqF k 0 then None else Some ((1 / (k * k)), (1 / (k * k * k))).
  Lemma cusp_add k l : a = 0 -> add (cusp k) (cusp l) = cusp (k + l).
  Proof.
    intros A. unfold cusp. destruct (eqF k 0) as [->|K].
    { destruct (eqF l 0) as [->|L].
      - destruct (eqF (0 + 0) 0) as [_|N]; [reflexivity|]. exfalso. apply N. ring.
      - replace (0 + l) with l by ring. destruct (eqF l 0); [contradiction|reflexivity]. }
    destruct (eqF l 0) as [->|L].
    { replace (k + 0) with k by ring. destruct (eqF k 0); [contradiction|reflexivity]. }
    unfold ECGroup.add. rewrite A.
    destruct (eqF (1 / (k * k)) (1 / (l * l))) as [EX|NX].
    - assert (S : (k * k) = (l * l)).
      { transitivity ((1 / (l * l)) * (k * k) * (l * l)); [field; exact L|]. rewrite <- EX. field. exact K. }
      destruct (eqF (1 / (k * k * k)) (1 / (l * l * l))) as [EY|NY].
      + assert (E : k = l).
        { transitivity ((1 / (l * l * l)) * (k * (l * l * l))); [field; exact L|]. rewrite <- EY.
          transitivity ((l * l) * l / (k * k)); [field; exact K|]. rewrite <- S. field. exact K. }
        subst l. destruct (eqF (k + k) 0) as [Z|Z].
        * exfalso. apply (mul_nz (1 + 1) k two_nz K). rewrite <- Z. ring.
        * unfold third, dbl_slope. f_equal. f_equal; field; repeat split; try exact K; try exact two_nz;
            intros E; apply Z; rewrite <- E; ring.
      + destruct (squares k l S) as [E|E].
        * subst l. exfalso. apply NY. reflexivity.
        * subst k. destruct (eqF (- l + l) 0) as [_|N]; [reflexivity|]. exfalso. apply N. ring.
    - assert (N1 : (k - l) <> 0) by (intros E; apply NX; rewrite (fsub_0 _ _ E); reflexivity).
      assert (N2 : (k + l) <> 0).
      { intros E. apply NX. rewrite (fadd_0 _ _ E). apply (f_equal (fun z => (1 / z))). ring. }
      destruct (eqF (k + l) 0) as [Z|_]; [contradiction|].
      unfold third, chord_slope. f_equal.
      assert (N3 : (l * l - k * k) <> 0).
      { intros E. apply (mul_nz _ _ N1 N2). transitivity (- (l * l - k * k)); [ring|]. rewrite E. ring. }
      f_equal; field; repeat split; try exact K; try exact L; try exact N2; try exact N3;
        intros E; apply N2; rewrite <- E; ring.
  Qed.

  (** ** The node: (t + w)/(t - w) multiplies, where t = y/(x+1) *)
  Variable w : F.
  Hypothesis W : (w * w) = (- (1 + 1 + 1)).
  Definition slope (u : F) : F := (w * (u + 1) / (u - 1)).
  Definition at_t (t : F) : pt := Some ((t * t + (1 + 1)), (t * (t * t + (1 + 1 + 1)))).
  Definition nodal (u : F) : pt := if eqF u 1 then None else at_t (slope u).

  Hypothesis three_nz : (1 + 1 + 1) <> 0.
  Lemma w_nz : w <> 0.
  Proof. intros E. apply three_nz. transitivity (- (w * w)); [rewrite W; ring|]. rewrite E. ring. Qed.
  Lemma fsub_nz x y : x <> y -> (x - y) <> 0.
  Proof. intros N E. apply N, fsub_0, E. Qed.

  (** t <> w, -w when u <> 0 *)
  Lemma slope_plus u : u <> 1 -> u <> 0 -> (slope u + w) <> 0.
  Proof.
    intros N U E. apply fsub_nz in N. apply (mul_nz _ _ (mul_nz _ _ two_nz w_nz) U).
    transitivity ((slope u + w) * (u - 1)); [unfold slope; field; exact N|]. rewrite E. ring.
  Qed.
  Lemma slope_minus u : u <> 1 -> (slope u - w) <> 0.
  Proof.
    intros N E. apply fsub_nz in N. apply (mul_nz _ _ two_nz w_nz).
    transitivity ((slope u - w) * (u - 1)); [unfold slope; field; exact N|]. rewrite E. ring.
  Qed.
  Lemma slope_x u : u <> 1 -> u <> 0 -> (slope u * slope u + (1 + 1 + 1)) <> 0.
  Proof.
    intros N U E. apply (mul_nz _ _ (slope_plus u N U) (slope_minus u N)).
    transitivity (slope u * slope u - w * w); [ring|]. rewrite W. transitivity (slope u * slope u + (1 + 1 + 1)); [ring|exact E].
  Qed.
  Lemma slope_ratio u : u <> 1 -> (slope u + w) = (u * (slope u - w)).
  Proof. intros N. apply fsub_nz in N. unfold slope. field. exact N. Qed.
  Lemma slope_zero u : u <> 1 -> slope u = 0 -> u = (- (1)).
  Proof.
    intros N E. pose proof (slope_ratio u N) as R. rewrite E in R. apply fadd_0.
    assert (M : (w * (u + 1)) = 0).
    { transitivity ((0 + w) - (u * (0 - w))); [ring|]. rewrite R. ring. }
    apply mul_0 in M. destruct M as [M|M]; [destruct (w_nz M)|exact M].
  Qed.
  Lemma slope_inj u v : u <> 1 -> v <> 1 -> slope u = slope v -> u = v.
  Proof.
    intros NU NV E. pose proof (slope_ratio u NU) as R. pose proof (slope_ratio v NV) as R'. rewrite E in R. rewrite R in R'.
    assert (M : ((u - v) * (slope v - w)) = 0).
    { transitivity (u * (slope v - w) - v * (slope v - w)); [ring|]. rewrite R'. ring. }
    apply mul_0 in M. destruct M as [M|M]; [apply fsub_0; exact M|destruct (slope_minus v NV M)].
  Qed.
  Lemma slope_opp u v : u <> 1 -> v <> 1 -> slope u = (- slope v) -> (u * v) = 1.
  Proof.
    intros NU NV E. pose proof (slope_ratio u NU) as R. pose proof (slope_ratio v NV) as R'. rewrite E in R.
    assert (M : ((u * v - 1) * (slope v - w)) = 0).
    { transitivity (u * (v * (slope v - w)) - (slope v - w)); [ring|]. rewrite <- R'.
      transitivity (- (u * (- slope v - w)) - (slope v - w)); [ring|]. rewrite <- R. ring. }
    apply mul_0 in M. destruct M as [M|M]; [apply fsub_0; exact M|destruct (slope_minus v NV M)].
  Qed.
  (** tangent half-angle: the slope of a product *)
  Lemma slope_mul u v : u <> 1 -> v <> 1 -> (u * v) <> 1 ->
    (slope u + slope v) <> 0 /\ slope (u * v) = ((slope u * slope v + w * w) / (slope u + slope v)).
  Proof.
    intros NU NV N.
    assert (S : (slope u + slope v) <> 0) by (intros E; apply N, slope_opp; [exact NU|exact NV|apply fadd_0; exact E]).
    split; [exact S|]. apply fsub_nz in NU, NV, N.
    assert (S' : (slope u + slope v) = ((1 + 1) * w * (u * v - 1) / ((u - 1) * (v - 1)))) by (unfold slope; field; split; [exact NV|exact NU]).
    rewrite S'. unfold slope. field. repeat split; try exact NU; try exact NV; try exact N; try exact two_nz; exact w_nz.
  Qed.
  Lemma nodal_1 : nodal 1 = None.
  Proof. unfold nodal. destruct (eqF 1 1); [reflexivity|contradiction]. Qed.
  Lemma nodal_ne u : u <> 1 -> nodal u = at_t (slope u).
  Proof. intros N. unfold nodal. destruct (eqF u 1); [contradiction|reflexivity]. Qed.

  Hypothesis A : a = (- (1 + 1 + 1)).
  Lemma nodal_add u v : u <> 0 -> v <> 0 -> u <> (- (1)) -> add (nodal u) (nodal v) = nodal (u * v).
  Proof.
    intros U0 V0 U1. destruct (eqF u 1) as [->|NU].
    { rewrite nodal_1. replace (1 * v) with v by ring. reflexivity. }
    destruct (eqF v 1) as [->|NV].
    { rewrite nodal_1. replace (u * 1) with u by ring. rewrite (nodal_ne u NU). reflexivity. }
    rewrite (nodal_ne u NU), (nodal_ne v NV).
    pose proof (slope_x u NU U0) as XU.
    assert (T0 : slope u <> 0) by (intros E; apply U1, slope_zero; [exact NU|exact E]).
    unfold at_t, ECGroup.add. rewrite A.
    destruct (eqF (slope u * slope u + (1 + 1)) (slope v * slope v + (1 + 1))) as [EX|NX].
    - assert (S : (slope u * slope u) = (slope v * slope v)).
      { transitivity ((slope u * slope u + (1 + 1)) - (1 + 1)); [ring|]. rewrite EX. ring. }
      destruct (squares _ _ S) as [E|E].
      + pose proof (slope_inj u v NU NV E) as EV. subst v.
        match goal with |- (if ?b then _ else _) = _ => destruct b as [_|N]; [|contradiction] end.
        assert (N1 : (u * u) <> 1).
        { intros Q. destruct (squares u 1) as [Q'|Q']; [rewrite Q; ring|contradiction|].
          apply U1. exact Q'. }
        rewrite (nodal_ne _ N1). unfold at_t. destruct (slope_mul u u NU NU N1) as [_ SM]. rewrite SM, W.
        set (t := slope u) in *. unfold third, dbl_slope.
        assert (SL : (((1 + 1 + 1) * ((t * t + (1 + 1)) * (t * t + (1 + 1))) + - (1 + 1 + 1)) / ((1 + 1) * (t * (t * t + (1 + 1 + 1)))) =
                      (1 + 1 + 1) * (t * t + 1) / ((1 + 1) * t))).
        { field. repeat split; try exact T0; try exact XU; try exact two_nz; intros Q; apply XU; rewrite <- Q; ring. }
        rewrite SL. apply (f_equal Some). apply f_equal2; field; repeat split; try exact T0; try exact two_nz;
          intros Q; apply (mul_nz _ _ two_nz T0); rewrite <- Q; ring.
      + pose proof (slope_opp u v NU NV E) as EV. rewrite EV, nodal_1.
        match goal with |- (if ?b then _ else _) = _ => destruct b as [EY|N]; [|reflexivity] end.
        exfalso. rewrite S in XU. rewrite E in EY, T0.
        assert (M : ((1 + 1) * (slope v * (slope v * slope v + (1 + 1 + 1)))) = 0).
        { transitivity (slope v * (slope v * slope v + (1 + 1 + 1)) - (- slope v) * (- slope v * - slope v + (1 + 1 + 1))); [ring|]. rewrite EY. ring. }
        revert M. apply mul_nz; [exact two_nz|]. apply mul_nz; [|exact XU]. intros Q. apply T0. rewrite Q. ring.
    - assert (N1 : (u * v) <> 1).
      { intros Q. apply NX. apply (f_equal (fun z => (z + (1 + 1)))).
        (* u v = 1 gives opposite slopes *)
        assert (O : slope u = (- slope v)).
        { apply fsub_nz in NV. assert (VN : (1 - v) <> 0) by (apply fsub_nz; intros Z; apply NV; rewrite Z; ring).
          assert (UE : u = (1 / v)) by (rewrite <- Q; field; exact V0). unfold slope. rewrite UE.
          field. repeat split; try exact V0; try exact VN; exact NV. }
        rewrite O. ring. }
      rewrite (nodal_ne _ N1). unfold at_t. destruct (slope_mul u v NU NV N1) as [S SM]. rewrite SM, W.
      assert (D : (slope u - slope v) <> 0).
      { intros Q. apply NX. rewrite (fsub_0 _ _ Q). reflexivity. }
      set (t := slope u) in *. set (t' := slope v) in *. unfold third, chord_slope.
      assert (D2 : (t * t + (1 + 1) - (t' * t' + (1 + 1))) <> 0).
      { intros Q. apply (mul_nz _ _ D S). rewrite <- Q. ring. }
      assert (SL : ((t * (t * t + (1 + 1 + 1)) - t' * (t' * t' + (1 + 1 + 1))) / (t * t + (1 + 1) - (t' * t' + (1 + 1))) =
                    (t * t + t * t' + t' * t' + (1 + 1 + 1)) / (t + t'))).
      { replace (t * t + (1 + 1) - (t' * t' + (1 + 1))) with ((t - t') * (t + t')) by ring. field. split; [exact S|exact D]. }
      rewrite SL. apply (f_equal Some). apply f_equal2; field; exact S.
  Qed.
End Off.
