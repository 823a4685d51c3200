(** Which of the two roots the lookup by abscissa returns. *)
From Coq Require Import ZArith Znumtheory Bool List Lia Field.
From Verif Require Import Outcome FieldModel Fermat ZpField SpecField FieldProofs ECGroup ECOrder CurveParams CurveFacts EccModel EccProofs SpecEcc EccThms.
Import ListNotations.
Open Scope Z_scope.

Section Squares.
  Variables (dbg : bool) (live : Z -> bool) (C : cparams).
  Hypothesis HC : good C.
  Notation p := (c_prime C).
  Notation q := (fieldp C).
  Notation eon := (eon p (c_a C) (c_b C)).
  Let Hp : prime p := g_prime C HC.

  Lemma cand_sq y : sqrt_cand p (y * y) = ((y ^ ((p + 1) / 4)) * (y ^ ((p + 1) / 4))) mod p.
  Proof. unfold sqrt_cand. rewrite Z.pow_mul_l. reflexivity. Qed.

  Lemma cand_square z : sqrt_cand p ((z * z) * (z * z)) = (z * z) mod p.
  Proof.
    pose proof (p_gt1 p Hp) as H1. pose proof (g_p34 C HC) as H4.
    pose proof (sqrt_cand_spec p Hp z H4) as S. rewrite <- S. rewrite cand_sq. unfold sqrt_cand.
    rewrite <- Zmult_mod. reflexivity.
  Qed.

  Lemma rootF_val y : val p (rootF C (fmul p y y)) = sqrt_cand p (val p y * val p y).
  Proof.
    pose proof (p_gt1 p Hp) as H1. unfold rootF. rewrite val_mk.
    change (val p (fmul p y y)) with ((val p y * val p y) mod p). unfold sqrt_cand. rewrite Z.mod_mod by lia.
    symmetry. apply Zpow_facts.Zpower_mod. lia.
  Qed.


  (** -1 is not a square: at most one of y, -y is one *)
  Lemma one_square y z w : y mod p = (z * z) mod p -> (- y) mod p = (w * w) mod p -> (p | y).
  Proof.
    intros E1 E2. pose proof (p_gt1 p Hp) as H1. pose proof (g_p34 C HC) as H4.
    assert (S : (z * z) mod p = (w * w) mod p).
    { rewrite <- (cand_square z), <- (cand_square w). unfold sqrt_cand.
      rewrite (Zpow_facts.Zpower_mod (z * z * (z * z))), (Zpow_facts.Zpower_mod (w * w * (w * w))) by lia. do 2 f_equal.
      rewrite (Z.mul_mod (z * z)), (Z.mul_mod (w * w)), <- E1, <- E2 by lia. rewrite <- !Z.mul_mod by lia. f_equal. ring. }
    assert (D : (p | y - - y)) by (apply Z.mod_divide; [lia|]; rewrite Zminus_mod, E1, E2, S, Z.sub_diag; apply Z.mod_0_l; lia).
    replace (y - - y) with (2 * y) in D by ring. apply prime_mult in D; [|exact Hp]. destruct D as [D|D]; [|exact D].
    apply Z.divide_pos_le in D; [|lia]. assert (p = 2) as Q by lia. rewrite Q in H4. discriminate H4.
  Qed.

  Lemma L_C15_root P c : finite_valid live C P -> live c = true ->
    let T := mkpoint (px P) (py P) false (Some c) in
    (evaluateP dbg live C (Some c) (px P) = Ok T /\ evaluatePneg dbg live C (Some c) (px P) = Ok (mirror C T) /\
     (exists z, fval (py P) = (z * z) mod p))
    \/ (evaluateP dbg live C (Some c) (px P) = Ok (mirror C T) /\ evaluatePneg dbg live C (Some c) (px P) = Ok T /\
        ~ (exists z, fval (py P) = (z * z) mod p)).
  Proof.
    intros HP L T. pose proof (p_gt1 p Hp) as H1. destruct (finite_inj live C HC P HP) as [c0 [x [y [On [L0 EP]]]]].
    subst P. subst T. cbn [inj px py].
    rewrite (evaluateP_emb dbg live C HC), (evaluatePneg_emb dbg live C HC), L.
    destruct (root_cases C HC x y On) as [E D].
    destruct (eqFp p (fmul p (rootF C (rhsF C x)) (rootF C (rhsF C x))) (rhsF C x)) as [_|]; [|contradiction].
    set (r := rootF C (rhsF C x)) in *.
    assert (Sq : exists z, val p r = (z * z) mod p).
    { exists (val p y ^ ((p + 1) / 4)). rewrite <- cand_sq. rewrite <- rootF_val. unfold r.
      assert (On' : fmul p y y = rhsF C x) by exact On. rewrite On'. reflexivity. }
    assert (Mi : mirror C (mkpoint (emb C x) (emb C y) false (Some c)) = inj C c (Some (x, fopp p y))) by exact (mirror_inj C HC c x y).
    destruct D as [-> | ->].
    - left. split; [reflexivity|]. split; [rewrite Mi; reflexivity|]. exact Sq.
    - right. rewrite Mi.
      assert (Op : fopp p (fopp p r) = r).
      { rewrite <- (mk_val p r), !mk_opp, Z.opp_involutive. reflexivity. }
      rewrite Op. split; [reflexivity|]. split; [reflexivity|].
      intros [w W]. destruct Sq as [z Z0].
      assert (Dv : (p | val p r)).
      { apply (one_square _ z w); [rewrite <- Z0; apply Z.mod_small, (val_range p Hp)|].
        rewrite <- W. reflexivity. }
      assert (R0 : r = f0 p) by (rewrite <- (mk_val p r); apply mk_0_iff; assumption).
      apply (g_noroot C HC (val p x)). apply Z.mod_divide; [lia|]. apply (mk_0_iff p Hp).
      rewrite <- !mk_add, <- !mk_mul, !mk_val. change (rhsF C x = f0 p). rewrite <- E, R0.
      unfold f0. rewrite mk_mul. reflexivity.
  Qed.
End Squares.

(** operator== on points of any kind, valid or not. *)
Lemma L_C18_any live C P Q c c' : pcur P = Some c -> live c = true -> pcur Q = Some c' -> live c' = true ->
  exists b, peq live C P Q = Ok b /\
    (b = true <-> (pinf P = true /\ pinf Q = true) \/ (pinf P = pinf Q /\ px P = px Q /\ py P = py Q)).
Proof.
  intros EP LP EQ LQ. unfold peq.
  assert (FE : forall x y, fe_eq x y = true <-> x = y).
  { intros [v m] [w k]. unfold fe_eq. cbn [fval fmod]. rewrite andb_true_iff, !Z.eqb_eq. split; [intros [-> ->]; reflexivity|].
    intros E. injection E as -> ->. split; reflexivity. }
  destruct (pinf P && pinf Q) eqn:I.
  { exists true. split; [reflexivity|]. apply andb_prop in I. split; [intros _; left; exact I|reflexivity]. }
  assert (NI : ~ (pinf P = true /\ pinf Q = true)) by (intros [A B]; rewrite A, B in I; discriminate).
  destruct (fe_eq (px P) (px Q)) eqn:EX; cbn [negb].
  2:{ exists false. split; [reflexivity|]. split; [discriminate|]. intros [H|[_ [H _]]]; [contradiction|]. apply FE in H. congruence. }
  destruct (fe_eq (py P) (py Q)) eqn:EY; cbn [negb].
  2:{ exists false. split; [reflexivity|]. split; [discriminate|]. intros [H|[_ [_ H]]]; [contradiction|]. apply FE in H. congruence. }
  rewrite EP, EQ. unfold deref. rewrite LP, LQ. cbn [bind]. unfold curve_eq. rewrite !Z.eqb_refl. cbn [andb].
  apply FE in EX. apply FE in EY. exists (Bool.eqb (pinf P) (pinf Q)). split; [reflexivity|].
  rewrite eqb_true_iff. split; [intros H; right; auto|]. intros [H|[H _]]; [contradiction|exact H].
Qed.
