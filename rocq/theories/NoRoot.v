(** A cubic x^3 + a x + b without roots modulo p (Cardano's resolvent).  Mathematics only. *)
From Coq Require Import ZArith Znumtheory Lia Field Zpow_facts.
From Verif Require Import Fermat ZpField.
Open Scope Z_scope.

Section Cardano.
  Variable F : Type.
  Variables (f0 f1 : F) (fadd fmul fsub : F -> F -> F) (fopp : F -> F)
            (fdiv : F -> F -> F) (finv : F -> F).
  Hypothesis FT : field_theory f0 f1 fadd fmul fsub fopp fdiv finv (@eq F).
  Add Field FF : FT.
  Local Notation "0" := f0.
  Local Notation "1" := f1.
  Local Infix "+" := fadd.
  Local Infix "*" := fmul.
  Local Infix "-" := fsub.
  Local Infix "/" := fdiv.
  Local Notation two := (1 + 1).
  Local Notation three := (1 + 1 + 1).

  Lemma cardano a b r d t :
    two <> 0 -> three <> 0 -> three * (r * r) + a <> 0 ->
    r * r * r + a * r + b = 0 ->
    three * three * three * (d * d) = three * three * three * (b * b) + two * two * (a * a * a) ->
    two * t + b = d ->
    exists z, z * z * z = t.
  Proof.
    intros H2 H3 Hw Hr Hd Ht.
    assert (H3' : 1 + two <> 0) by (intros E; apply H3; rewrite <- E; ring). set (w := three * (r * r) + a) in *.
    assert (Ha : a = w - three * (r * r)) by (unfold w; ring). clearbody w.
    exists ((r + three * d / w) / two).
    assert (Hb : b = fopp (r * r * r + a * r)).
    { transitivity (r * r * r + a * r + b - (r * r * r + a * r)); [ring|]. rewrite Hr; ring. }
    assert (HD : (three * d / w) * (three * d / w) = r * r + two * two * a / three).
    { transitivity (three * three * three * (d * d) / (three * (w * w))); [field; auto|].
      rewrite Hd, Hb, Ha. field; repeat split; auto. }
    assert (Ht' : t = (d - b) / two) by (rewrite <- Ht; field; assumption).
    assert (EW : three * d / w * w = three * d) by (field; auto).
    set (D := three * d / w) in *. clearbody D.
    transitivity ((r * r * r + three * (r * r) * D + three * r * (D * D) + D * (D * D)) / two / two / two).
    { field; repeat split; auto. }
    rewrite HD.
    transitivity (((r * r * r + a * r) * (two * two) + two * two / three * (D * w)) / two / two / two).
    { rewrite Ha. field; repeat split; auto. }
    rewrite EW, Ht', Hb. field; auto.
  Qed.
End Cardano.

Section NoRoot.
  Variable p : Z.
  Hypothesis Hp : prime p.
  Variables a b d t : Z.

  Lemma no_root_crit :
    p mod 3 = 1 -> Z.odd p = true ->
    (27 * (d * d) - (27 * (b * b) + 4 * (a * a * a))) mod p = 0 ->
    (2 * t + b - d) mod p = 0 -> d mod p <> 0 -> t mod p <> 0 ->
    t ^ ((p - 1) / 3) mod p <> 1 ->
    forall x, (x * x * x + a * x + b) mod p <> 0.
  Proof.
    intros H3 Ho Hd Ht Nd Nt Hc x Hx. pose proof (p_gt1 p Hp) as H1.
    assert (D3 : ~ (p | 3)).
    { intros D. apply prime_divisors in D as [D|[D|[D|D]]]; try lia; [|apply prime_3].
      rewrite D in H3. discriminate. }
    assert (D2 : ~ (p | 2)).
    { intros D. apply Z.divide_pos_le in D; [|lia]. assert (p = 2) as E by lia. rewrite E in Ho; discriminate. }
    assert (M : forall z, z mod p = 0 <-> (p | z)) by (intros z; apply Z.mod_divide; lia).
    assert (Hw : ~ (p | 3 * (x * x) + a)).
    { intros Dw. apply Nd. apply M. apply M in Hx. apply M in Hd.
      assert (DD : (p | 27 * (d * d))).
      { destruct Dw as [w Ew], Hx as [k Ek], Hd as [m Em].
        assert (Ea : a = w * p - 3 * (x * x)) by lia.
        assert (Eb : b = k * p - x * x * x - a * x) by lia.
        exists (m + 27 * k * (b - x * x * x - a * x) + w * w * p * (3 * (x * x) + 4 * a)).
        assert (E1 : 27 * (d * d) = m * p + 27 * (b * b) + 4 * (a * a * a)) by lia.
        rewrite E1.
        assert (E2 : b * b = k * p * (b - x * x * x - a * x) + (x * x * x + a * x) * (x * x * x + a * x)).
        { replace (k * p) with (b + x * x * x + a * x) by lia. ring. }
        rewrite E2.
        assert (E3 : 27 * ((x * x * x + a * x) * (x * x * x + a * x)) + 4 * (a * a * a)
                   = (w * p) * (w * p) * (3 * (x * x) + 4 * a)).
        { rewrite <- Ew. ring. }
        replace (m * p + 27 * (k * p * (b - x * x * x - a * x) + (x * x * x + a * x) * (x * x * x + a * x)) + 4 * (a * a * a))
          with (m * p + 27 * (k * p * (b - x * x * x - a * x)) + (27 * ((x * x * x + a * x) * (x * x * x + a * x)) + 4 * (a * a * a))) by ring.
        rewrite E3. ring. }
      apply prime_mult in DD; [|assumption]. destruct DD as [DD|DD].
      - exfalso. replace 27 with (3 * (3 * 3)) in DD by reflexivity.
        apply prime_mult in DD; [|assumption]. destruct DD as [DD|DD]; [contradiction|].
        apply prime_mult in DD; [|assumption]. destruct DD; contradiction.
      - apply prime_mult in DD; [|assumption]. destruct DD; assumption. }
    destruct (cardano (Fp p) _ _ _ _ _ _ _ _ (field_Fp p Hp) (mk p a) (mk p b) (mk p x) (mk p d) (mk p t)) as [z Hz].
    - apply two_nz_Fp; assumption.
    - unfold f1. rewrite !mk_add. intros E. apply mk_0_iff in E; [|assumption]. contradiction.
    - unfold f1. rewrite ?mk_add, ?mk_mul, ?mk_add, ?mk_mul, ?mk_add. intros E. apply mk_0_iff in E; [|assumption]. contradiction.
    - rewrite ?mk_mul, ?mk_add. apply mk_0_iff; [assumption|]. apply M; assumption.
    - unfold f1. repeat rewrite ?mk_add, ?mk_mul. apply mk_eq.
      apply M in Hd. destruct Hd as [k Hk].
      rewrite <- (Z_mod_plus_full ((1 + 1 + 1) * (1 + 1 + 1) * (1 + 1 + 1) * (b * b) + (1 + 1) * (1 + 1) * (a * a * a)) k p).
      f_equal. lia.
    - unfold f1. repeat rewrite ?mk_add, ?mk_mul. apply mk_eq. apply M in Ht. destruct Ht as [k Hk].
      rewrite <- (Z_mod_plus_full d k p). f_equal. lia.
    - apply Hc. pose proof (Z.div_mod (p - 1) 3 ltac:(lia)) as HD.
      assert (E3 : (p - 1) mod 3 = 0). { rewrite Zminus_mod, H3. reflexivity. }
      rewrite E3 in HD.
      assert (Zt : (val p z * val p z * val p z) mod p = t mod p).
      { rewrite <- (mk_val p z), !mk_mul in Hz. apply mk_eq_inv in Hz. assumption. }
      assert (HP0 : 0 <= (p - 1) / 3) by (apply Z.div_pos; lia).
      rewrite Zpower_mod, <- Zt, <- Zpower_mod by lia.
      replace (val p z * val p z * val p z) with (val p z ^ 3) by ring.
      rewrite <- Z.pow_mul_r by lia. replace (3 * ((p - 1) / 3)) with (p - 1) by lia.
      apply fermat; [assumption|]. intros Dz. apply Nt. rewrite <- Zt. apply M.
      apply Z.divide_mul_r; assumption.
  Qed.
End NoRoot.
