(** Adding a point off the curve to a point of the curve, and taking it away again. *)
From Coq Require Import ZArith Znumtheory Bool List Lia Field.
From Verif Require Import Outcome FieldModel ZpField SpecField FieldProofs ECGroup ECOrder CurveParams CurveFacts EccModel EccProofs SpecEcc OffProofs.
Import ListNotations.
Open Scope Z_scope.

Section Chord.
  Variables (dbg : bool) (live : Z -> bool) (C : cparams).
  Hypothesis HC : good C.
  Notation p := (c_prime C).
  Notation eon := (eon p (c_a C) (c_b C)).
  Notation eadd := (eadd p (c_a C)).
  Notation inj := (inj C).
  Declare Scope tr_scope.
  Notation "0" := (f0 p) : tr_scope.
  Notation "1" := (f1 p) : tr_scope.
  Infix "+" := (fadd p) : tr_scope.
  Infix "*" := (fmul p) : tr_scope.
  Infix "-" := (fsub p) : tr_scope.
  Infix "/" := (fdiv p) : tr_scope.
  Notation "- x" := (fopp p x) : tr_scope.
  Delimit Scope tr_scope with tr.
  Let Hp : prime p := g_prime C HC.
  Let HF := field_Fp p Hp.
  Add Field ChordField : HF.

  (** with different abscissas nothing is asked of the points *)
  Lemma padd_x x y x' y' c c' : live c = true -> live c' = true -> x <> x' ->
    padd dbg live C (inj c (Some (x, y))) (inj c' (Some (x', y'))) = Ok (inj c (eadd (Some (x, y)) (Some (x', y')))).
  Proof.
    intros L L' Nx. unfold padd. cbn [EccProofs.inj pinf pt_inf].
    rewrite assert_same_curve_inj. rewrite L, L'. rewrite orb_true_r. cbn [bind]. cbn [px py]. rewrite !(emb_eq C HC).
    destruct (eqFp p x x') as [E|_]; [contradiction|].
    assert (D : fsub p x x' <> f0 p) by (intros E; apply Nx; transitivity (fadd p (fsub p x x') x'); [ring|rewrite E; ring]).
    rewrite !(emb_sub dbg C HC). cbn [bind]. rewrite (emb_div dbg C HC) by exact D. cbn [bind]. rewrite (emb_mul dbg C HC). cbn [bind].
    rewrite !(emb_sub dbg C HC). cbn [bind]. rewrite !(emb_sub dbg C HC). cbn [bind]. rewrite !(emb_sub dbg C HC). cbn [bind].
    rewrite (emb_mul dbg C HC). cbn [bind]. rewrite !(emb_sub dbg C HC). cbn [bind].
    apply (f_equal Ok). unfold ECOrder.eadd, add. destruct (eqFp p x x') as [|_]; [contradiction|]. unfold third, chord_slope. reflexivity.
  Qed.

  Variables (tx ty x y : Fp p).
  Hypothesis NX : x <> tx.
  Definition l : Fp p := ((ty - y) / (tx - x))%tr.
  Definition rx : Fp p := (l * l - tx - x)%tr.
  Definition ry : Fp p := (l * (tx - rx) - ty)%tr.
  Lemma sum_is : eadd (Some (tx, ty)) (Some (x, y)) = Some (rx, ry).
  Proof. unfold ECOrder.eadd, add. destruct (eqFp p tx x) as [E|_]; [congruence|]. reflexivity. Qed.
  Lemma tx_x : (tx - x)%tr <> 0%tr.
  Proof. intros E. apply NX. transitivity (tx - (tx - x))%tr; [ring|rewrite E; ring]. Qed.
  Lemma slope : (l * (tx - x))%tr = (ty - y)%tr.
  Proof. unfold l. field. exact tx_x. Qed.
  (** the sum lies above the point only if the line is a tangent there *)
  Lemma above : rx = tx -> ((tx + tx + x) * ((x - tx) * (x - tx)))%tr = ((ty - y) * (ty - y))%tr.
  Proof.
    intros E. assert (L : (l * l)%tr = (tx + tx + x)%tr) by (transitivity (rx + tx + x)%tr; [unfold rx; ring|rewrite E; ring]).
    rewrite <- slope, <- L. ring.
  Qed.
  Lemma back : rx <> tx -> eadd (Some (rx, ry)) (Some (tx, (- ty)%tr)) = Some (x, y).
  Proof.
    intros N. unfold ECOrder.eadd, add. destruct (eqFp p rx tx) as [E|_]; [contradiction|].
    assert (D : (rx - tx)%tr <> 0%tr) by (intros E; apply N; transitivity (rx - tx + tx)%tr; [ring|rewrite E; ring]).
    unfold chord_slope, third. assert (S : ((ry - - ty) / (rx - tx))%tr = (- l)%tr).
    { replace (ry - - ty)%tr with (- l * (rx - tx))%tr by (unfold ry; ring). field. exact D. }
    rewrite S. assert (EX : (- l * - l - rx - tx)%tr = x) by (unfold rx; ring). rewrite EX.
    assert (EY : (- l * (rx - x) - ry)%tr = y).
    { transitivity (ty - l * (tx - x))%tr; [unfold ry; ring|]. rewrite slope. ring. }
    rewrite EY. reflexivity.
  Qed.
  (** the sum is on the curve only if it is the mirror image of the message *)
  Lemma on_curve : eon (Some (x, y)) -> ~ eon (Some (tx, ty)) -> eon (Some (rx, ry)) -> rx = x /\ ry = (- y)%tr.
  Proof.
    unfold ECOrder.eon, on. intros E1 NT E2. destruct (eqFp p rx x) as [EX|NE].
    - split; [exact EX|]. unfold ry. rewrite EX, slope. ring.
    - destruct NT.
      assert (D : (rx - x)%tr <> 0%tr) by (intros E; apply NE; transitivity (rx - x + x)%tr; [ring|rewrite E; ring]).
      assert (Y : y = (ty - l * (tx - x))%tr) by (rewrite slope; ring).
      set (a := mk p (c_a C)) in *. set (b := mk p (c_b C)) in *.
      (* both are roots of the cubic minus the square of the line *)
      assert (G1 : ((ty - l * (tx - x)) * (ty - l * (tx - x)) - (x * x * x + a * x + b))%tr = 0%tr) by (rewrite <- Y, E1; ring).
      assert (G2 : ((ty - l * (tx - rx)) * (ty - l * (tx - rx)) - (rx * rx * rx + a * rx + b))%tr = 0%tr) by (rewrite <- E2; unfold ry; ring).
      assert (LL : (l * l)%tr = (rx + tx + x)%tr) by (unfold rx; ring).
      set (r := rx) in *. clearbody r.
      (* their difference, divided by the distance *)
      assert (G3 : ((l * l) * (r + x) + (l * ty - l * l * tx) + (l * ty - l * l * tx) - (r * r + r * x + x * x) - a)%tr = 0%tr).
      { assert (M : ((r - x) * ((l * l) * (r + x) + (l * ty - l * l * tx) + (l * ty - l * l * tx) - (r * r + r * x + x * x) - a))%tr = 0%tr).
        { transitivity (((ty - l * (tx - r)) * (ty - l * (tx - r)) - (r * r * r + a * r + b)) - ((ty - l * (tx - x)) * (ty - l * (tx - x)) - (x * x * x + a * x + b)))%tr; [ring|].
          rewrite G1, G2. ring. }
        apply (fmul_0 p Hp) in M. destruct M as [M|M]; [contradiction|exact M]. }
      assert (GT : (ty * ty - (tx * tx * tx + a * tx + b))%tr = 0%tr).
      { transitivity (((ty - l * (tx - x)) * (ty - l * (tx - x)) - (x * x * x + a * x + b)) + (tx - x) * ((l * l) * (r + x) + (l * ty - l * l * tx) + (l * ty - l * l * tx) - (r * r + r * x + x * x) - a) +
          (tx - x) * (tx - r) * (l * l - (r + tx + x)))%tr; [ring|].
        rewrite G1, G3, LL. ring. }
      transitivity ((ty * ty - (tx * tx * tx + a * tx + b)) + (tx * tx * tx + a * tx + b))%tr; [ring|]. rewrite GT. ring.
  Qed.
  (** the sum is never the message *)
  Lemma not_same : eon (Some (x, y)) -> ~ (rx = x /\ ry = y).
  Proof.
    intros E [EX EY]. apply (on_y_ne0 C HC _ _ E). assert (S : ry = (- y)%tr) by (unfold ry; rewrite EX, slope; ring).
    assert (M : ((1 + 1) * y)%tr = 0%tr) by (transitivity (y - - y)%tr; [ring|rewrite <- S, EY; ring]).
    apply (fmul_0 p Hp) in M. destruct M as [M|M]; [destruct (isnice_two C HC M)|exact M].
  Qed.
End Chord.
