(** The chord-and-tangent group law on y^2 = x^3 + a x + b over an arbitrary field of
    characteristic <> 2, for a curve without 2-torsion.  Mathematics only; the C++ operators are
    related to it in EccProofs.v. *)
From Coq Require Import Field Ring ZArith Lia.

Section Group.
  Variable F : Type.
  Variables (f0 f1 : F) (fadd fmul fsub : F -> F -> F) (fopp : F -> F)
            (fdiv : F -> F -> F) (finv : F -> F).
  Hypothesis FT : field_theory f0 f1 fadd fmul fsub fopp fdiv finv (@eq F).
  Add Field FF : FT.
  Hypothesis eqF : forall x y : F, {x = y} + {x <> y}.

  Local Notation "0" := f0.
  Local Notation "1" := f1.
  Local Infix "+" := fadd.
  Local Infix "*" := fmul.
  Local Infix "-" := fsub.
  Local Infix "/" := fdiv.
  Local Notation "- x" := (fopp x).
  Local Notation two := (1 + 1).
  Local Notation three := (1 + 1 + 1).

  Variables a b : F.
  Hypothesis two_nz : two <> 0.
  Hypothesis no_two_torsion : forall x, x * x * x + a * x + b <> 0.

  Definition pt : Type := option (F * F).

  Definition on (P : pt) : Prop :=
    match P with
    | None => True
    | Some (x, y) => y * y = x * x * x + a * x + b
    end.

  Definition neg (P : pt) : pt :=
    match P with
    | None => None
    | Some (x, y) => Some (x, - y)
    end.

  (** third point on the line of slope [l] through (x1,y1) and abscissa x2, mirrored *)
  Definition third (l x1 y1 x2 : F) : pt :=
    let x3 := l * l - x1 - x2 in Some (x3, l * (x1 - x3) - y1).

  Definition dbl_slope (x y : F) : F := (three * (x * x) + a) / (two * y).
  Definition chord_slope (x1 y1 x2 y2 : F) : F := (y1 - y2) / (x1 - x2).

  Definition add (P Q : pt) : pt :=
    match P, Q with
    | None, _ => Q
    | _, None => P
    | Some (x1, y1), Some (x2, y2) =>
        if eqF x1 x2 then
          if eqF y1 y2 then third (dbl_slope x1 y1) x1 y1 x1 else None
        else third (chord_slope x1 y1 x2 y2) x1 y1 x2
    end.

  (** ** Field basics *)
  Lemma mul_0 x y : x * y = 0 -> x = 0 \/ y = 0.
  Proof.
    intros H. destruct (eqF x 0) as [Hx|Hx]; [left; assumption|right].
    transitivity ((x * y) / x); [field; assumption|]. rewrite H; field; assumption.
  Qed.

  Lemma mul_nz x y : x <> 0 -> y <> 0 -> x * y <> 0.
  Proof. intros Hx Hy H; destruct (mul_0 _ _ H); contradiction. Qed.

  Lemma sub_nz x y : x <> y -> x - y <> 0.
  Proof. intros H E; apply H. transitivity ((x - y) + y); [ring|]; rewrite E; ring. Qed.

  Lemma sub_0 x y : x - y = 0 -> x = y.
  Proof. intros E. transitivity ((x - y) + y); [ring|]; rewrite E; ring. Qed.

  Lemma cancel_l c x y : c <> 0 -> c * x = c * y -> x = y.
  Proof.
    intros Hc H. transitivity ((c * x) / c); [field; assumption|]. rewrite H; field; assumption.
  Qed.

  Lemma on_y_nz x y : on (Some (x, y)) -> y <> 0.
  Proof. cbn; intros H E. apply (no_two_torsion x). rewrite <- H, E; ring. Qed.

  Lemma opp_self y : y = - y -> y = 0.
  Proof.
    intros H. apply (cancel_l two); [assumption|]. transitivity (y + y); [ring|].
    rewrite H at 2; ring.
  Qed.

  Lemma opp_inj y z : - y = - z -> y = z.
  Proof. intros H. transitivity (- - y); [ring|]. rewrite H; ring. Qed.

  (** ** Negation *)
  Lemma neg_neg P : neg (neg P) = P.
  Proof. destruct P as [[x y]|]; cbn; [|reflexivity]. do 2 f_equal; ring. Qed.

  Lemma on_neg P : on P -> on (neg P).
  Proof. destruct P as [[x y]|]; cbn; [|trivial]. intros <-; ring. Qed.

  Lemma same_x x y1 y2 : on (Some (x, y1)) -> on (Some (x, y2)) -> y1 = y2 \/ y1 = - y2.
  Proof.
    cbn; intros H1 H2.
    assert (E : (y1 - y2) * (y1 + y2) = 0).
    { transitivity (y1 * y1 - y2 * y2); [ring|]. rewrite H1, H2; ring. }
    destruct (mul_0 _ _ E) as [H|H]; [left; apply sub_0; assumption|right].
    apply sub_0. rewrite <- H; ring.
  Qed.

  Lemma pt_dec (P Q : pt) : {P = Q} + {P <> Q}.
  Proof.
    destruct P as [[x1 y1]|], Q as [[x2 y2]|].
    - destruct (eqF x1 x2) as [->|Hx]; [|right; congruence].
      destruct (eqF y1 y2) as [->|Hy]; [left; reflexivity|right; congruence].
    - right; discriminate.
    - right; discriminate.
    - left; reflexivity.
  Qed.

  (** ** Lines: a uniform description of chords and tangents *)
  Definition line (x1 y1 x2 y2 l : F) : Prop :=
    l * (x1 - x2) = y1 - y2 /\ l * (y1 + y2) = x1 * x1 + x1 * x2 + x2 * x2 + a.

  Lemma line_chord x1 y1 x2 y2 : on (Some (x1, y1)) -> on (Some (x2, y2)) -> x1 <> x2 ->
    line x1 y1 x2 y2 (chord_slope x1 y1 x2 y2).
  Proof.
    cbn; intros H1 H2 Hx. apply sub_nz in Hx. unfold line, chord_slope; split; [field; assumption|].
    apply (cancel_l (x1 - x2)); [assumption|].
    transitivity (y1 * y1 - y2 * y2); [field; assumption|]. rewrite H1, H2; ring.
  Qed.

  Lemma line_tangent x y : on (Some (x, y)) -> line x y x y (dbl_slope x y).
  Proof.
    intros H. pose proof (on_y_nz _ _ H) as Hy. unfold line, dbl_slope; split; [ring|].
    field; split; assumption.
  Qed.

  Lemma line_unique x1 y1 x2 y2 l l' :
    on (Some (x1, y1)) -> on (Some (x2, y2)) -> Some (x2, y2) <> neg (Some (x1, y1)) ->
    line x1 y1 x2 y2 l -> line x1 y1 x2 y2 l' -> l = l'.
  Proof.
    intros H1 H2 Hn [L1 L2] [M1 M2]. destruct (eqF x1 x2) as [<-|Hx].
    - destruct (same_x _ _ _ H2 H1) as [-> | ->]; [|exfalso; apply Hn; reflexivity].
      apply (cancel_l (y1 + y1)).
      + pose proof (on_y_nz _ _ H1). intros E; apply (mul_nz two y1); auto. rewrite <- E; ring.
      + transitivity (l * (y1 + y1)); [ring|]. rewrite L2, <- M2; ring.
    - apply (cancel_l (x1 - x2)); [apply sub_nz; assumption|].
      transitivity (l * (x1 - x2)); [ring|]. rewrite L1, <- M1; ring.
  Qed.

  Lemma add_finite x1 y1 x2 y2 :
    on (Some (x1, y1)) -> on (Some (x2, y2)) -> Some (x2, y2) <> neg (Some (x1, y1)) ->
    exists l, line x1 y1 x2 y2 l /\ add (Some (x1, y1)) (Some (x2, y2)) = third l x1 y1 x2.
  Proof.
    intros H1 H2 Hn. cbn [add]. destruct (eqF x1 x2) as [<-|Hx].
    - destruct (same_x _ _ _ H2 H1) as [-> | ->]; [|exfalso; apply Hn; reflexivity].
      destruct (eqF y1 y1) as [_|C]; [|contradiction].
      exists (dbl_slope x1 y1); split; [apply line_tangent; assumption|reflexivity].
    - exists (chord_slope x1 y1 x2 y2); split; [apply line_chord; assumption|reflexivity].
  Qed.

  Lemma add_line x1 y1 x2 y2 l :
    on (Some (x1, y1)) -> on (Some (x2, y2)) -> Some (x2, y2) <> neg (Some (x1, y1)) ->
    line x1 y1 x2 y2 l -> add (Some (x1, y1)) (Some (x2, y2)) = third l x1 y1 x2.
  Proof.
    intros H1 H2 Hn HL. destruct (add_finite _ _ _ _ H1 H2 Hn) as [l' [HL' ->]].
    rewrite (line_unique _ _ _ _ _ _ H1 H2 Hn HL HL'); reflexivity.
  Qed.

  Lemma line_params x1 y1 x2 y2 l : on (Some (x1, y1)) -> line x1 y1 x2 y2 l ->
    y2 = y1 - l * (x1 - x2) /\
    a = l * (y1 + y2) - (x1 * x1 + x1 * x2 + x2 * x2) /\
    b = y1 * y1 - x1 * x1 * x1 - a * x1.
  Proof.
    cbn; intros H1 [L1 L2]. repeat split.
    - rewrite L1; ring.
    - rewrite L2; ring.
    - rewrite H1; ring.
  Qed.

  Lemma on_third x1 y1 x2 y2 l : on (Some (x1, y1)) -> line x1 y1 x2 y2 l -> on (third l x1 y1 x2).
  Proof.
    intros H1 HL. destruct (line_params _ _ _ _ _ H1 HL) as [Hy [Ha Hb]].
    unfold third; cbn. rewrite Hb, Ha, Hy. ring.
  Qed.

  Lemma on_add P Q : on P -> on Q -> on (add P Q).
  Proof.
    intros HP HQ. destruct P as [[x1 y1]|]; [|exact HQ]. destruct Q as [[x2 y2]|]; [|exact HP].
    destruct (pt_dec (Some (x2, y2)) (neg (Some (x1, y1)))) as [E|Hn].
    - cbn in E; injection E as -> ->. cbn [add].
      destruct (eqF x1 x1) as [_|C]; [|contradiction].
      destruct (eqF y1 (- y1)) as [E|_]; [|exact I].
      apply opp_self in E. exfalso; revert E; eapply on_y_nz; eassumption.
    - destruct (add_finite _ _ _ _ HP HQ Hn) as [l [HL ->]]. eapply on_third; eassumption.
  Qed.

  (** ** Elementary laws *)
  Lemma add_None_l P : add None P = P.
  Proof. reflexivity. Qed.

  Lemma add_None_r P : add P None = P.
  Proof. destruct P as [[x y]|]; reflexivity. Qed.

  Lemma add_neg_r P : on P -> add P (neg P) = None.
  Proof.
    intros HP. destruct P as [[x y]|]; [|reflexivity]. cbn [neg add].
    destruct (eqF x x) as [_|C]; [|contradiction].
    destruct (eqF y (- y)) as [E|_]; [|reflexivity].
    apply opp_self in E. exfalso; revert E; eapply on_y_nz; eassumption.
  Qed.

  Lemma third_sym x1 y1 x2 y2 l : line x1 y1 x2 y2 l -> third l x1 y1 x2 = third l x2 y2 x1.
  Proof.
    intros [L1 _]. assert (Hy : y2 = y1 - l * (x1 - x2)) by (rewrite L1; ring).
    unfold third. rewrite Hy. do 2 f_equal; ring.
  Qed.

  Lemma line_sym x1 y1 x2 y2 l : line x1 y1 x2 y2 l -> line x2 y2 x1 y1 l.
  Proof.
    intros [L1 L2]; split.
    - transitivity (- (l * (x1 - x2))); [ring|]. rewrite L1; ring.
    - transitivity (l * (y1 + y2)); [ring|]. rewrite L2; ring.
  Qed.

  Lemma neg_sym P Q : Q = neg P -> P = neg Q.
  Proof. intros ->. symmetry; apply neg_neg. Qed.

  Lemma add_comm P Q : on P -> on Q -> add P Q = add Q P.
  Proof.
    intros HP HQ. destruct (pt_dec Q (neg P)) as [->|Hn].
    - rewrite add_neg_r by assumption. rewrite <- (neg_neg P) at 2.
      symmetry; apply add_neg_r, on_neg; assumption.
    - destruct P as [[x1 y1]|]; [|rewrite add_None_r; reflexivity].
      destruct Q as [[x2 y2]|]; [|rewrite add_None_r; reflexivity].
      destruct (add_finite _ _ _ _ HP HQ Hn) as [l [HL ->]].
      rewrite (add_line x2 y2 x1 y1 l); try assumption.
      + apply third_sym; assumption.
      + intros E; apply Hn, neg_sym; assumption.
      + apply line_sym; assumption.
  Qed.

  Lemma add_neg_l P : on P -> add (neg P) P = None.
  Proof.
    intros HP. rewrite add_comm; [apply add_neg_r; assumption|apply on_neg; assumption|assumption].
  Qed.

  Lemma line_neg x1 y1 x2 y2 l : line x1 y1 x2 y2 l -> line x1 (- y1) x2 (- y2) (- l).
  Proof.
    intros [L1 L2]; split.
    - transitivity (- (l * (x1 - x2))); [ring|]. rewrite L1; ring.
    - transitivity (l * (y1 + y2)); [ring|]. rewrite L2; ring.
  Qed.

  Lemma neg_add P Q : on P -> on Q -> neg (add P Q) = add (neg P) (neg Q).
  Proof.
    intros HP HQ. destruct (pt_dec Q (neg P)) as [->|Hn].
    - rewrite add_neg_r by assumption. symmetry. apply add_neg_r, on_neg; assumption.
    - destruct P as [[x1 y1]|]; [|reflexivity].
      destruct Q as [[x2 y2]|]; [|reflexivity].
      destruct (add_finite _ _ _ _ HP HQ Hn) as [l [HL ->]].
      cbn [neg]. rewrite (add_line x1 (- y1) x2 (- y2) (- l)).
      + unfold third; cbn. do 2 f_equal; ring.
      + exact (on_neg _ HP).
      + exact (on_neg _ HQ).
      + intros E. apply Hn. cbn in E |- *. injection E as -> E. apply opp_inj in E. rewrite E; reflexivity.
      + apply line_neg; assumption.
  Qed.

  (** ** (P + Q) - Q = P *)
  Lemma add_sub P Q : on P -> on Q -> add (add P Q) (neg Q) = P.
  Proof.
    intros HP HQ. destruct (pt_dec Q (neg P)) as [->|Hn].
    { rewrite add_neg_r by assumption. rewrite add_None_l. apply neg_neg. }
    destruct Q as [[x2 y2]|]; [|cbn [neg]; rewrite !add_None_r; reflexivity].
    destruct P as [[x1 y1]|].
    2:{ rewrite add_None_l. apply add_neg_r; assumption. }
    destruct (add_finite _ _ _ _ HP HQ Hn) as [l [HL HR]]. rewrite HR.
    pose proof (on_third _ _ _ _ _ HP HL) as H3.
    destruct (line_params _ _ _ _ _ HP HL) as [Hy [Ha Hb]].
    unfold third in *. set (x3 := l * l - x1 - x2) in *. set (y3 := l * (x1 - x3) - y1) in *.
    assert (E3 : y3 = l * (x2 - x3) - y2) by (unfold y3; rewrite Hy; ring).
    cbn [neg]. rewrite (add_line x3 y3 x2 (- y2) (- l)).
    - unfold third. do 2 f_equal; unfold y3, x3; ring.
    - exact H3.
    - exact (on_neg _ HQ).
    - cbn [neg]; intros E. injection E as Ex Ey. apply opp_inj in Ey.
      assert (Z : y2 = - y2).
      { rewrite Ey at 1. rewrite E3, Ex. ring. }
      apply opp_self in Z. revert Z; eapply on_y_nz; eassumption.
    - split; [rewrite E3; ring|]. rewrite Ha, E3, Hy. unfold x3. ring.
  Qed.

  Lemma add_sub_l P Q : on P -> on Q -> add Q (add P (neg Q)) = P.
  Proof.
    intros HP HQ. rewrite add_comm; auto using on_add, on_neg.
    rewrite <- (neg_neg Q) at 2. apply add_sub; auto using on_neg.
  Qed.

  Lemma add_cancel_r P P' Q : on P -> on P' -> on Q -> add P Q = add P' Q -> P = P'.
  Proof.
    intros HP HP' HQ E. rewrite <- (add_sub P Q), <- (add_sub P' Q) by assumption. rewrite E; reflexivity.
  Qed.

  Lemma add_id_r P Q : on P -> on Q -> add P Q = P -> Q = None.
  Proof.
    intros HP HQ E. apply (add_cancel_r _ _ P); auto; [exact I|].
    rewrite add_None_l, add_comm; assumption.
  Qed.

  Lemma add_None_inv P Q : on P -> on Q -> add P Q = None -> Q = neg P.
  Proof.
    intros HP HQ E. apply (add_cancel_r _ _ P); auto using on_neg.
    rewrite add_neg_l, add_comm by assumption. assumption.
  Qed.

  Lemma no_self_neg P : on P -> P = neg P -> P = None.
  Proof.
    destruct P as [[x y]|]; [|reflexivity]. intros HP E. cbn in E. injection E as E.
    apply opp_self in E. exfalso; revert E; eapply on_y_nz; eassumption.
  Qed.

  (** ** The two polynomial identities behind associativity *)
  Lemma assoc_calc x1 x2 x3 y2 l m :
    let y1 := y2 + l * (x1 - x2) in
    let y3 := y2 + m * (x3 - x2) in
    l * (y1 + y2) = x1 * x1 + x1 * x2 + x2 * x2 + a ->
    m * (y3 + y2) = x3 * x3 + x3 * x2 + x2 * x2 + a ->
    let x4 := l * l - x1 - x2 in let y4 := l * (x2 - x4) - y2 in
    let x5 := m * m - x2 - x3 in let y5 := m * (x2 - x5) - y2 in
    x4 - x3 <> 0 -> x1 - x5 <> 0 ->
    let n := (y4 - y3) / (x4 - x3) in
    let x6 := n * n - x4 - x3 in let y6 := n * (x3 - x6) - y3 in
    let r := (y1 - y5) / (x1 - x5) in
    let x7 := r * r - x1 - x5 in let y7 := r * (x1 - x7) - y1 in
    x6 = x7 /\ y6 = y7.
  Proof.
    intros y1 y3 H1 H3 x4 y4 x5 y5 D3 D4 n x6 y6 r x7 y7.
    assert (E : x1 * x1 = x3 * x3 + x3 * x2 - x1 * x2 + l * (y1 + y2) - m * (y3 + y2))
      by (rewrite H1, H3; ring).
    unfold y1, y3 in E. unfold x4, x5 in D3, D4.
    unfold y6, y7, x6, x7, n, r, y4, x4, y5, x5, y1, y3.
    split; (field_simplify_eq [E]; [ring [E]|split; assumption]).
  Qed.

  Lemma double_calc x1 y1 l :
    let d := x1 - (l * l - x1 - x1) in
    let x4 := l * l - x1 - x1 in
    let y4 := l * d - y1 in
    l * (y1 + y1) = x1 * x1 + x1 * x1 + x1 * x1 + a ->
    y1 <> 0 -> d <> 0 -> y4 <> 0 ->
    let m := (y1 - y4) / d in let x5 := m * m - x1 - x4 in let y5 := m * (x1 - x5) - y1 in
    x1 - x5 <> 0 ->
    let n := (three * (x4 * x4) + a) / (two * y4) in
    let x6 := n * n - x4 - x4 in let y6 := n * (x4 - x6) - y4 in
    let r := (y1 - y5) / (x1 - x5) in let x7 := r * r - x1 - x5 in let y7 := r * (x1 - x7) - y1 in
    x6 = x7 /\ y6 = y7.
  Proof.
    intros d x4 y4 H1 Dy1 Dd Dy4 m x5 y5 D5 n x6 y6 r x7 y7.
    assert (E : a = l * (y1 + y1) - (x1 * x1 + x1 * x1 + x1 * x1)) by (rewrite H1; ring).
    assert (E5 : x1 - x5 = (two * two * y1 * y4) / (d * d)).
    { unfold x5, m, y4, x4. unfold d at 2 4. unfold d in Dd |- *. field. assumption. }
    assert (Er : r = (y1 - y5) * (d * d) / (two * two * y1 * y4)).
    { unfold r. rewrite E5. field; repeat split; auto using mul_nz. }
    unfold y7, x7. rewrite Er. unfold y6, x6, n, y5, x5, m. rewrite E.
    unfold y4 in *. unfold x4, d in *.
    split; (field; repeat split; auto using mul_nz).
  Qed.

  (** ** Associativity *)
  Lemma add_chord x1 y1 x2 y2 : x1 <> x2 ->
    add (Some (x1, y1)) (Some (x2, y2)) = third (chord_slope x1 y1 x2 y2) x1 y1 x2.
  Proof. intros H. cbn [add]. destruct (eqF x1 x2); [contradiction|reflexivity]. Qed.

  (** two finite points on the curve are equal, opposite, or have different abscissae *)
  Lemma diff_x x1 y1 x2 y2 : on (Some (x1, y1)) -> on (Some (x2, y2)) ->
    Some (x1, y1) <> Some (x2, y2) -> Some (x1, y1) <> neg (Some (x2, y2)) -> x1 <> x2.
  Proof.
    intros H1 H2 Ne Nn <-. destruct (same_x _ _ _ H1 H2) as [-> | ->].
    - apply Ne; reflexivity.
    - apply Nn; reflexivity.
  Qed.

  Lemma assoc_main A B C : on A -> on B -> on C ->
    add A B <> C -> A <> add B C -> add (add A B) C = add A (add B C).
  Proof.
    intros HA HB HC N1 N2.
    destruct (pt_dec B (neg A)) as [->|BA].
    { rewrite (add_neg_r A), add_None_l by assumption. symmetry.
      rewrite (add_comm (neg A) C) by auto using on_neg. apply add_sub_l; assumption. }
    destruct (pt_dec C (neg B)) as [->|CB].
    { rewrite add_sub, add_neg_r, add_None_r by assumption. reflexivity. }
    destruct (pt_dec (add A B) (neg C)) as [E|ABC].
    { rewrite E, add_neg_l by assumption.
      assert (EC : C = neg (add A B)) by (rewrite E, neg_neg; reflexivity).
      rewrite EC, neg_add by assumption.
      rewrite add_sub_l by auto using on_neg. symmetry; apply add_neg_r; assumption. }
    destruct (pt_dec A (neg (add B C))) as [E|ABC'].
    { rewrite E at 2. rewrite (add_neg_l (add B C)) by auto using on_add.
      rewrite E, neg_add by assumption.
      rewrite (add_comm (neg B) (neg C)) by auto using on_neg.
      rewrite <- (neg_neg B) at 2. rewrite add_sub by auto using on_neg. apply add_neg_l; assumption. }
    destruct A as [[x1 y1]|]; [|reflexivity].
    destruct B as [[x2 y2]|]; [|rewrite add_None_r; reflexivity].
    destruct C as [[x3 y3]|]; [|rewrite !add_None_r; reflexivity].
    pose proof (on_add _ _ HA HB) as HAB. pose proof (on_add _ _ HB HC) as HBC.
    destruct (add_finite _ _ _ _ HA HB BA) as [l [Ll El]].
    destruct (add_finite _ _ _ _ HB HC CB) as [m [Lm Em]].
    rewrite (third_sym _ _ _ _ _ Ll) in El. unfold third in El, Em. rewrite El, Em in *.
    set (x4 := l * l - x2 - x1) in *. set (x5 := m * m - x2 - x3) in *.
    pose proof (diff_x _ _ _ _ HAB HC N1 ABC) as D1.
    pose proof (diff_x _ _ _ _ HA HBC N2 ABC') as D2.
    rewrite (add_chord _ _ _ _ D1), (add_chord _ _ _ _ D2).
    rewrite (third_sym _ _ x3 y3) by (apply line_chord; assumption).
    apply sub_nz in D1. apply sub_nz in D2.
    assert (Y1 : y1 = y2 + l * (x1 - x2)) by (destruct Ll as [-> _]; ring).
    assert (Y3 : y3 = y2 + m * (x3 - x2)).
    { destruct Lm as [Lm _]. transitivity (y2 - m * (x2 - x3)); [rewrite Lm; ring|ring]. }
    assert (X4 : x4 = l * l - x1 - x2) by (unfold x4; ring).
    destruct Ll as [_ Ll]. destruct Lm as [_ Lm].
    pose proof (assoc_calc x1 x2 x3 y2 l m) as K. cbv zeta in K.
    rewrite <- Y1, <- Y3, <- X4 in K. fold x5 in K.
    assert (Lm' : m * (y3 + y2) = x3 * x3 + x3 * x2 + x2 * x2 + a).
    { transitivity (m * (y2 + y3)); [ring|]. rewrite Lm; ring. }
    destruct (K Ll Lm' D1 D2) as [K1 K2].
    unfold third, chord_slope. f_equal.
    match goal with |- (?p, ?q) = (?r, ?s) => assert (p = r /\ q = s) as [-> ->]; [|reflexivity] end.
    match type of K1 with ?p = ?q =>
      match goal with |- ?r = ?s /\ _ => assert (R1 : r = p) by ring; assert (R2 : s = q) by ring end end.
    split; [exact (eq_trans R1 (eq_trans K1 (eq_sym R2)))|]. try rewrite R1. exact K2.
  Qed.

  Lemma double_ne P : on P -> P <> None -> add P P <> None.
  Proof.
    intros HP N E. apply add_None_inv in E; try assumption. apply N, no_self_neg; assumption.
  Qed.

  Lemma assoc_dd P : on P -> add (add P P) (add P P) = add P (add P (add P P)).
  Proof.
    intros HP. destruct (pt_dec P None) as [->|NP]; [reflexivity|].
    pose proof (double_ne _ HP NP) as N2. pose proof (on_add _ _ HP HP) as HD.
    destruct (pt_dec (add P P) (neg P)) as [E|N3].
    { rewrite E at 1 2 3. rewrite add_neg_r by assumption. rewrite add_None_r.
      rewrite <- neg_add, E by assumption. apply neg_neg. }
    assert (N4 : P <> add P P).
    { intros E. apply NP. apply (add_id_r P P); auto. }
    assert (N5 : P <> add P (add P P)).
    { intros E. apply N2. apply (add_id_r P); auto. }
    assert (N6 : P <> neg (add P (add P P))).
    { intros E. assert (E2 : add P (add P P) = neg P) by (apply neg_sym; assumption).
      assert (E3 : add P P = neg (add P P)).
      { apply (add_cancel_r _ _ P); auto using on_neg.
        rewrite (add_comm (add P P) P), E2, neg_add by assumption.
        rewrite <- (neg_neg P) at 4. symmetry; apply add_sub; auto using on_neg. }
      apply N2, no_self_neg; assumption. }
    pose proof (on_add _ _ HP HD) as HT.
    destruct P as [[x1 y1]|]; [|congruence].
    assert (NN : Some (x1, y1) <> neg (Some (x1, y1))) by (intros E; apply NP, no_self_neg; assumption).
    destruct (add_finite _ _ _ _ HP HP NN) as [l [Ll El]].
    unfold third in El. rewrite El in *.
    set (x4 := l * l - x1 - x1) in *. set (y4 := l * (x1 - x4) - y1) in *.
    pose proof (on_y_nz _ _ HP) as Y1. pose proof (on_y_nz _ _ HD) as Y4.
    assert (N3' : Some (x1, y1) <> neg (Some (x4, y4))) by (intros E; apply N3, neg_sym; assumption).
    pose proof (diff_x _ _ _ _ HP HD N4 N3') as D1.
    rewrite (add_chord x1 y1 x4 y4 D1) in *.
    unfold third, chord_slope in HT, N5, N6 |- *. cbv zeta in HT, N5, N6 |- *.
    pose proof (diff_x _ _ _ _ HP HT N5 N6) as D2.
    rewrite (add_chord _ _ _ _ D2).
    apply sub_nz in D1. apply sub_nz in D2.
    cbn [add]. destruct (eqF x4 x4) as [_|C]; [|contradiction]. destruct (eqF y4 y4) as [_|C]; [|contradiction].
    destruct Ll as [_ Ll].
    destruct (double_calc x1 y1 l Ll Y1 D1 Y4 D2) as [K1 K2].
    unfold third, chord_slope, dbl_slope. f_equal. f_equal; assumption.
  Qed.

  Lemma assoc_dbl P D : on P -> on D -> add (add P P) D = add P (add P D).
  Proof.
    intros HP HD. destruct (pt_dec (add P P) D) as [<-|N1]; [apply assoc_dd; assumption|].
    destruct (pt_dec P (add P D)) as [E|N2].
    - symmetry in E. rewrite (add_id_r P D) by assumption. rewrite !add_None_r; reflexivity.
    - apply assoc_main; assumption.
  Qed.

  Lemma assoc_eq A B : on A -> on B -> add (add A B) (add A B) = add A (add B (add A B)).
  Proof.
    intros HA HB. set (X := add A B). assert (HX : on X) by (apply on_add; assumption).
    assert (K : add (add X X) (neg (add B X)) = A).
    { rewrite assoc_dbl by auto using on_neg, on_add.
      rewrite neg_add by assumption.
      rewrite (add_sub_l (neg B) X) by auto using on_neg.
      unfold X. apply add_sub; assumption. }
    rewrite <- K at 1.
    rewrite <- (neg_neg (add B X)) at 2. symmetry. apply add_sub; auto using on_add, on_neg.
  Qed.

  Theorem add_assoc A B C : on A -> on B -> on C -> add (add A B) C = add A (add B C).
  Proof.
    intros HA HB HC. destruct (pt_dec (add A B) C) as [<-|N1]; [apply assoc_eq; assumption|].
    destruct (pt_dec A (add B C)) as [->|N2]; [|apply assoc_main; assumption].
    rewrite (add_comm B C) by assumption.
    rewrite (add_comm (add C B) B), (add_comm (add B (add C B)) C) by auto using on_add.
    symmetry. apply assoc_eq; assumption.
  Qed.

  (** ** Multiples *)
  Fixpoint nmul (k : nat) (P : pt) : pt :=
    match k with
    | O => None
    | S k' => add P (nmul k' P)
    end.

  Definition zmul (k : Z) (P : pt) : pt :=
    match k with
    | Z0 => None
    | Zpos q => nmul (Pos.to_nat q) P
    | Zneg q => neg (nmul (Pos.to_nat q) P)
    end.

  Lemma on_nmul k P : on P -> on (nmul k P).
  Proof. intros H; induction k; cbn [nmul]; [exact I|apply on_add; assumption]. Qed.

  Lemma on_zmul k P : on P -> on (zmul k P).
  Proof. intros H; destruct k; cbn [zmul]; [exact I|..|apply on_neg]; apply on_nmul; assumption. Qed.

  Lemma add_swap P Q R : on P -> on Q -> on R -> add P (add Q R) = add Q (add P R).
  Proof.
    intros HP HQ HR. rewrite <- !add_assoc by assumption. rewrite (add_comm P Q) by assumption. reflexivity.
  Qed.

  Lemma zmul_nat k P : (0 <= k)%Z -> zmul k P = nmul (Z.to_nat k) P.
  Proof. destruct k; cbn [zmul]; intros H; [reflexivity|reflexivity|lia]. Qed.

  Lemma zmul_opp k P : zmul (- k) P = neg (zmul k P).
  Proof. destruct k; cbn [zmul Z.opp]; [reflexivity|reflexivity|symmetry; apply neg_neg]. Qed.

  Lemma zmul_succ_nonneg k P : (0 <= k)%Z -> zmul (k + 1) P = add P (zmul k P).
  Proof.
    intros Hk. rewrite !zmul_nat by lia. replace (Z.to_nat (k + 1)) with (S (Z.to_nat k)) by lia. reflexivity.
  Qed.

  Lemma zmul_succ k P : on P -> zmul (k + 1) P = add P (zmul k P).
  Proof.
    intros HP. destruct (Z.le_gt_cases 0%Z k) as [H|H]; [apply zmul_succ_nonneg; assumption|].
    replace k with (- ((- k - 1) + 1))%Z at 2 by lia. rewrite zmul_opp, (zmul_succ_nonneg (- k - 1)%Z) by lia.
    rewrite neg_add by auto using on_zmul.
    rewrite <- add_assoc, add_neg_r, add_None_l by auto using on_neg, on_zmul.
    rewrite <- zmul_opp. f_equal; lia.
  Qed.

  Lemma zmul_pred k P : on P -> zmul (k - 1) P = add (neg P) (zmul k P).
  Proof.
    intros HP. replace k with ((k - 1) + 1)%Z at 2 by lia. rewrite zmul_succ by assumption.
    rewrite <- add_assoc by auto using on_neg, on_zmul. rewrite add_neg_l by assumption. reflexivity.
  Qed.

  Theorem zmul_add j k P : on P -> zmul (j + k) P = add (zmul j P) (zmul k P).
  Proof.
    intros HP. pattern j. apply Z.peano_ind; clear j.
    - reflexivity.
    - intros j IH. replace (Z.succ j + k)%Z with ((j + k) + 1)%Z by lia.
      replace (Z.succ j) with (j + 1)%Z by lia. rewrite !zmul_succ, IH by assumption.
      symmetry; apply add_assoc; auto using on_zmul.
    - intros j IH. replace (Z.pred j + k)%Z with ((j + k) - 1)%Z by lia.
      replace (Z.pred j) with (j - 1)%Z by lia. rewrite !zmul_pred, IH by assumption.
      symmetry; apply add_assoc; auto using on_zmul, on_neg.
  Qed.

  Lemma zmul_1 P : zmul 1 P = P.
  Proof. apply add_None_r. Qed.

  Lemma zmul_None k : zmul k None = None.
  Proof.
    assert (H : forall n, nmul n None = None) by (induction n; [reflexivity|assumption]).
    destruct k; cbn [zmul]; rewrite ?H; reflexivity.
  Qed.

  Theorem zmul_mul j k P : on P -> zmul (j * k) P = zmul j (zmul k P).
  Proof.
    intros HP. pattern j. apply Z.peano_ind; clear j.
    - reflexivity.
    - intros j IH. replace (Z.succ j * k)%Z with (k + j * k)%Z by lia.
      replace (Z.succ j) with (j + 1)%Z by lia.
      rewrite zmul_succ, <- IH by auto using on_zmul. apply zmul_add; assumption.
    - intros j IH. replace (Z.pred j * k)%Z with (- k + j * k)%Z by lia.
      replace (Z.pred j) with (j - 1)%Z by lia.
      rewrite zmul_pred, <- IH by auto using on_zmul. rewrite zmul_add, zmul_opp by assumption. reflexivity.
  Qed.

  Theorem zmul_distr k P Q : on P -> on Q -> zmul k (add P Q) = add (zmul k P) (zmul k Q).
  Proof.
    intros HP HQ. pattern k. apply Z.peano_ind; clear k.
    - reflexivity.
    - intros k IH. replace (Z.succ k) with (k + 1)%Z by lia.
      rewrite !zmul_succ, IH by auto using on_add.
      rewrite !add_assoc by auto using on_zmul, on_add. f_equal. apply add_swap; auto using on_zmul.
    - intros k IH. replace (Z.pred k) with (k - 1)%Z by lia.
      rewrite !zmul_pred, IH, neg_add by auto using on_add.
      rewrite !add_assoc by auto using on_zmul, on_add, on_neg. f_equal.
      apply add_swap; auto using on_zmul, on_neg.
  Qed.

  Lemma zmul_neg k P : on P -> zmul k (neg P) = neg (zmul k P).
  Proof.
    intros HP. rewrite <- zmul_opp. replace (- k)%Z with (k * -1)%Z by lia. rewrite zmul_mul by assumption.
    f_equal. change (neg P = neg (zmul 1 P)). rewrite zmul_1. reflexivity.
  Qed.
End Group.
