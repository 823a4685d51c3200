(** The field Z/p for a prime p, with Leibniz equality.  Mathematics only; models no code. *)
From Coq Require Import ZArith Znumtheory Lia Field Eqdep_dec Bool Zpow_facts.
From Verif Require Import Fermat.
Open Scope Z_scope.

Section Zp.
  Variable p : Z.

  Definition Fp : Type := {z : Z | z mod p = z}.
  Definition val (x : Fp) : Z := proj1_sig x.
  Definition mk (z : Z) : Fp := exist _ (z mod p) (Zmod_mod z p).

  Definition f0 : Fp := mk 0.
  Definition f1 : Fp := mk 1.
  Definition fadd (x y : Fp) : Fp := mk (val x + val y).
  Definition fmul (x y : Fp) : Fp := mk (val x * val y).
  Definition fsub (x y : Fp) : Fp := mk (val x - val y).
  Definition fopp (x : Fp) : Fp := mk (- val x).
  Definition finv (x : Fp) : Fp := mk (val x ^ (p - 2)).
  Definition fdiv (x y : Fp) : Fp := fmul x (finv y).

  Lemma val_inj x y : val x = val y -> x = y.
  Proof.
    destruct x as [x Hx], y as [y Hy]; cbn; intros ->. f_equal. apply UIP_dec, Z.eq_dec.
  Qed.

  Lemma val_mk z : val (mk z) = z mod p.
  Proof. reflexivity. Qed.

  Lemma val_mod x : val x mod p = val x.
  Proof. exact (proj2_sig x). Qed.

  Lemma mk_val x : mk (val x) = x.
  Proof. apply val_inj, val_mod. Qed.

  Lemma mk_eq x y : x mod p = y mod p -> mk x = mk y.
  Proof. intros H; apply val_inj; exact H. Qed.

  Lemma mk_eq_inv x y : mk x = mk y -> x mod p = y mod p.
  Proof. intros H; exact (f_equal val H). Qed.

  Definition eqFp (x y : Fp) : {x = y} + {x <> y}.
  Proof.
    destruct (Z.eq_dec (val x) (val y)) as [E|N].
    - left; apply val_inj; exact E.
    - right; intros ->; apply N; reflexivity.
  Defined.

  Lemma mk_add x y : fadd (mk x) (mk y) = mk (x + y).
  Proof. apply mk_eq. cbn. symmetry; apply Zplus_mod. Qed.
  Lemma mk_sub x y : fsub (mk x) (mk y) = mk (x - y).
  Proof. apply mk_eq. cbn. symmetry; apply Zminus_mod. Qed.
  Lemma mk_mul x y : fmul (mk x) (mk y) = mk (x * y).
  Proof. apply mk_eq. cbn. symmetry; apply Zmult_mod. Qed.
  Lemma mk_opp x : fopp (mk x) = mk (- x).
  Proof.
    apply mk_eq. cbn. replace (- (x mod p)) with (0 - x mod p) by ring.
    rewrite Zminus_mod_idemp_r. f_equal; ring.
  Qed.

  Hypothesis Hp : prime p.

  Lemma p_gt1 : 1 < p.
  Proof. destruct Hp; assumption. Qed.

  Lemma val_range x : 0 <= val x < p.
  Proof. rewrite <- val_mod. apply Z.mod_pos_bound. pose proof p_gt1; lia. Qed.

  Lemma mk_0_iff z : mk z = f0 <-> (p | z).
  Proof.
    pose proof p_gt1. split; intros H0.
    - apply mk_eq_inv in H0. rewrite Z.mod_0_l in H0 by lia. apply Z.mod_divide; lia.
    - apply mk_eq. rewrite Z.mod_0_l by lia. apply Z.mod_divide; [lia|assumption].
  Qed.

  Lemma ring_Fp : ring_theory f0 f1 fadd fmul fsub fopp (@eq Fp).
  Proof.
    assert (M : forall x, exists z, x = mk z) by (intros x; exists (val x); symmetry; apply mk_val).
    split; intros; unfold f0, f1;
      repeat match goal with v : Fp |- _ => destruct (M v) as [? ->]; clear v end;
      rewrite ?mk_add, ?mk_mul, ?mk_sub, ?mk_opp, ?mk_add, ?mk_mul; f_equal; ring.
  Qed.

  Lemma finv_l x : x <> f0 -> fmul (finv x) x = f1.
  Proof.
    intros Hx. pose proof p_gt1 as H1. rewrite <- (mk_val x) at 2. unfold finv. rewrite mk_mul.
    rewrite Z.mul_comm, <- Z.pow_succ_r by lia. replace (Z.succ (p - 2)) with (p - 1) by lia.
    apply mk_eq. rewrite fermat; [rewrite Z.mod_small by lia; reflexivity|assumption|].
    intros Hd. apply Hx. apply mk_0_iff in Hd. rewrite mk_val in Hd. assumption.
  Qed.

  Lemma field_Fp : field_theory f0 f1 fadd fmul fsub fopp fdiv finv (@eq Fp).
  Proof.
    split.
    - apply ring_Fp.
    - intros E. apply mk_eq_inv in E. pose proof p_gt1. rewrite Z.mod_0_l, Z.mod_small in E by lia. discriminate.
    - reflexivity.
    - intros; apply finv_l; assumption.
  Qed.

  Lemma two_nz_Fp : Z.odd p = true -> fadd f1 f1 <> f0.
  Proof.
    intros Ho E. unfold f1 in E. rewrite mk_add in E. apply mk_0_iff in E.
    pose proof p_gt1. apply Z.divide_pos_le in E; [|lia].
    assert (p = 2) as -> by lia. discriminate.
  Qed.

  Fixpoint fpow (x : Fp) (n : nat) : Fp :=
    match n with O => f1 | S n' => fmul x (fpow x n') end.

  Lemma val_fpow x n : val (fpow x n) = val x ^ Z.of_nat n mod p.
  Proof.
    induction n as [|n IH]; [reflexivity|].
    rewrite Nat2Z.inj_succ, Z.pow_succ_r by lia. change (val (fpow x (S n))) with ((val x * val (fpow x n)) mod p). rewrite IH.
    apply Zmult_mod_idemp_r.
  Qed.

  (** ** Euler's criterion for p = 3 mod 4 *)
  Lemma fmul_0 x y : fmul x y = f0 -> x = f0 \/ y = f0.
  Proof.
    intros H. rewrite <- (mk_val x), <- (mk_val y), mk_mul in H. apply mk_0_iff in H.
    apply prime_mult in H; [|assumption]. rewrite <- (mk_val x), <- (mk_val y).
    destruct H as [H|H]; [left|right]; apply mk_0_iff; assumption.
  Qed.

  Definition sqrt_cand (y2 : Z) : Z := y2 ^ ((p + 1) / 4) mod p.

  (** a square has the candidate root *)
  Lemma sqrt_cand_spec y : p mod 4 = 3 ->
    (sqrt_cand (y * y) * sqrt_cand (y * y)) mod p = (y * y) mod p.
  Proof.
    intros H4. pose proof p_gt1 as H1. unfold sqrt_cand.
    rewrite <- Zmult_mod, <- Z.pow_twice_r.
    pose proof (Z.div_mod p 4 ltac:(lia)) as HD. rewrite H4 in HD.
    assert (E : (p + 1) / 4 = p / 4 + 1).
    { symmetry. apply (Z.div_unique_pos _ _ _ 0); lia. }
    rewrite E. replace (y * y) with (y ^ 2) by ring. rewrite <- Z.pow_mul_r by lia.
    replace (2 * (2 * (p / 4 + 1))) with ((p - 1) + 2) by lia.
    rewrite Z.pow_add_r by lia.
    destruct (Znumtheory.Zdivide_dec p y) as [Hd|Hd].
    - assert (E0 : forall e z, 0 < e -> (z * y ^ e) mod p = 0).
      { intros e z He. apply Z.mod_divide; [lia|]. apply Z.divide_mul_r.
        replace e with (Z.succ (e - 1)) by lia. rewrite Z.pow_succ_r by lia.
        apply Z.divide_mul_l; assumption. }
      rewrite E0 by lia. rewrite <- (E0 2 1) by lia. f_equal; ring.
    - rewrite Zmult_mod, fermat by assumption. rewrite Z.mul_1_l. apply Zmod_mod.
  Qed.
End Zp.
