(** Checking a chain of doublings and additions that computes a multiple of a curve point.
    Mathematics only; models no code. *)
From Coq Require Import ZArith Znumtheory List Lia Bool.
From Verif Require Import Fermat FastMod ZpField ECGroup ECOrder.
Import ListNotations.
Open Scope Z_scope.

(** the slope used and the coordinates reached *)
Inductive step := Dbl (l x y : Z) | AddG (l x y : Z) | SubG (l x y : Z).

Section Check.
  Variables (p a b gx gy : Z) (K : nat).

  (** E = 0 mod p, for E > - 16 p^2 *)
  Definition zero_mod (M E : Z) : bool :=
    match E + M with
    | Zpos v => Zpos (redc v K (Z.to_pos p)) =? p
    | _ => false
    end.

  Definition in_range (x : Z) : bool := (0 <=? x) && (x <? p).

  Definition third_ok (M l x1 y1 x2 x3 y3 : Z) : bool :=
    in_range x3 && in_range y3 && zero_mod M (l * l - x1 - x2 - x3) && zero_mod M (l * (x1 - x3) - y1 - y3).

  Fixpoint run (M : Z) (l : list step) (k x y : Z) : option (Z * Z * Z) :=
    match l with
    | [] => Some (k, x, y)
    | Dbl s x' y' :: l' =>
        if zero_mod M (s * (y + y) - (3 * (x * x) + a)) && third_ok M s x y x x' y'
        then run M l' (2 * k) x' y' else None
    | AddG s x' y' :: l' =>
        if negb (x =? gx) && zero_mod M (s * (x - gx) - (y - gy)) && third_ok M s x y gx x' y'
        then run M l' (k + 1) x' y' else None
    | SubG s x' y' :: l' =>
        if negb (x =? gx) && zero_mod M (s * (x - gx) - (y + gy)) && third_ok M s x y gx x' y'
        then run M l' (k - 1) x' y' else None
    end.

  Hypothesis H : nice p a b.

  Lemma zero_mod_spec M E : (p | M) -> zero_mod M E = true -> mk p E = f0 p.
  Proof.
    intros HM. unfold zero_mod. pose proof (p_gt1 p (nice_prime p a b H)) as H1.
    destruct (E + M) as [|v|v] eqn:EV; try discriminate. intros E1. apply Z.eqb_eq in E1.
    assert (Hpos : Zpos (Z.to_pos p) = p) by (apply Z2Pos.id; lia).
    pose proof (redc_spec (Z.to_pos p) K) as R. rewrite Hpos in R.
    destruct (R (nice_odd p a b H) v) as [q Hq]. rewrite E1 in Hq.
    apply mk_0_iff; [apply H|]. destruct HM as [m Hm].
    exists (2 ^ Z.of_nat K - q - m). rewrite !Z.mul_sub_distr_r. lia.
  Qed.

  Lemma third_ok_spec M l x1 y1 x2 x3 y3 : (p | M) -> third_ok M l x1 y1 x2 x3 y3 = true ->
    0 <= x3 < p /\ 0 <= y3 < p /\
    third (Fp p) (fmul p) (fsub p) (mk p l) (mk p x1) (mk p y1) (mk p x2) = Some (mk p x3, mk p y3).
  Proof.
    intros HM. unfold third_ok, in_range. rewrite !andb_true_iff, !Z.leb_le, !Z.ltb_lt.
    intros [[[R1 R2] Z1] Z2]. repeat split; try tauto.
    apply zero_mod_spec in Z1; [|assumption]. apply zero_mod_spec in Z2; [|assumption].
    unfold third. cbv zeta.
    assert (E1 : fsub p (fsub p (fmul p (mk p l) (mk p l)) (mk p x1)) (mk p x2) = mk p x3).
    { rewrite mk_mul, !mk_sub. replace (l * l - x1 - x2) with ((l * l - x1 - x2 - x3) + x3) by ring.
      rewrite <- mk_add, Z1. unfold f0. rewrite mk_add. reflexivity. }
    rewrite E1, mk_sub, mk_mul, mk_sub.
    replace (l * (x1 - x3) - y1) with ((l * (x1 - x3) - y1 - y3) + y3) by ring.
    rewrite <- mk_add, Z2. unfold f0. rewrite mk_add. reflexivity.
  Qed.

  Lemma mk_neq x x' : 0 <= x < p -> 0 <= x' < p -> x <> x' -> mk p x <> mk p x'.
  Proof. intros R R' N E. apply mk_eq_inv in E. rewrite !Z.mod_small in E by assumption. contradiction. Qed.

  Lemma mk_sub_0 x y : mk p (x - y) = f0 p -> mk p x = mk p y.
  Proof.
    intros E. replace x with ((x - y) + y) by ring. rewrite <- mk_add, E. unfold f0. rewrite mk_add. reflexivity.
  Qed.

  Lemma chord_step M x y gx' gy' s x' y' : (p | M) -> 0 <= x < p -> 0 <= gx' < p ->
    negb (x =? gx') = true -> zero_mod M (s * (x - gx') - (y - gy')) = true ->
    third_ok M s x y gx' x' y' = true ->
    eadd p a (Some (mk p x, mk p y)) (Some (mk p gx', mk p gy')) = Some (mk p x', mk p y').
  Proof.
    intros HM Rx Rg Ne Z0 T. apply negb_true_iff, Z.eqb_neq in Ne.
    apply zero_mod_spec in Z0; [|assumption]. apply third_ok_spec in T; [|assumption].
    destruct T as [_ [_ <-]]. unfold eadd.
    pose proof (mk_neq x gx' Rx Rg Ne) as N. rewrite add_chord by assumption.
    f_equal. unfold chord_slope.
    eapply (cancel_l _ _ _ _ _ _ _ _ _ (nice_field p a b H)) with (c := fsub p (mk p x) (mk p gx')).
    - apply (sub_nz _ _ _ _ _ _ _ _ _ (nice_field p a b H)); assumption.
    - transitivity (fsub p (mk p y) (mk p gy')).
      + pose proof (sub_nz _ _ _ _ _ _ _ _ _ (nice_field p a b H) _ _ N) as N'.
        revert N'. generalize (fsub p (mk p x) (mk p gx')) (fsub p (mk p y) (mk p gy')). intros u w Hu.
        unfold fdiv. pose proof (finv_l p (nice_prime p a b H) u Hu) as I.
        pose proof (ring_Fp p) as RT. rewrite (Ring_theory.Rmul_comm RT u), <- (Ring_theory.Rmul_assoc RT), I.
        rewrite (Ring_theory.Rmul_comm RT), (Ring_theory.Rmul_1_l RT). reflexivity.
      + rewrite !mk_sub, mk_mul. symmetry. apply mk_sub_0. rewrite <- Z0. f_equal. ring.
  Qed.

  Variable M : Z.
  Hypothesis HM : (p | M).
  Hypothesis Rgx : 0 <= gx < p.
  Let G0 : ept p := Some (mk p gx, mk p gy).
  Hypothesis HG : eon p a b G0.

  Theorem run_spec l : forall k x y, 0 <= x < p -> ezmul p a k G0 = Some (mk p x, mk p y) ->
    forall k' x' y', run M l k x y = Some (k', x', y') -> ezmul p a k' G0 = Some (mk p x', mk p y').
  Proof.
    induction l as [|st l IH]; intros k x y Rx E k' x' y' R.
    - cbn in R. injection R as <- <- <-. assumption.
    - pose proof (eon_zmul p a b H k G0 HG) as Hon. rewrite E in Hon.
      destruct st as [s x1 y1|s x1 y1|s x1 y1]; cbn [run] in R.
      + destruct (zero_mod M (s * (y + y) - (3 * (x * x) + a)) && third_ok M s x y x x1 y1) eqn:C; [|discriminate].
        apply andb_true_iff in C. destruct C as [C1 C2].
        apply zero_mod_spec in C1; [|assumption]. apply third_ok_spec in C2; [|assumption].
        destruct C2 as [R1 [_ C2]].
        eapply IH; [exact R1| |exact R].
        replace (2 * k) with (k + k) by ring. rewrite ezmul_add with (b := b), E by assumption.
        unfold eadd. rewrite <- C2.
        eapply add_line; try exact (nice_field p a b H); try exact (nice_two p a b H); try exact (nice_no2 p a b H); try exact Hon.
        * intros S. apply (eno_self_neg p a b H) in S; [discriminate|exact Hon].
        * split.
          -- rewrite !mk_sub, mk_mul. apply mk_eq. f_equal. ring.
          -- rewrite !mk_add, !mk_mul, !mk_add. apply mk_sub_0. rewrite <- C1. f_equal. ring.
      + destruct (negb (x =? gx) && zero_mod M (s * (x - gx) - (y - gy)) && third_ok M s x y gx x1 y1) eqn:C; [|discriminate].
        rewrite !andb_true_iff in C. destruct C as [[C0 C1] C2].
        pose proof (third_ok_spec _ _ _ _ _ _ _ HM C2) as [R1 _].
        eapply IH; [exact R1| |exact R].
        rewrite ezmul_add with (b := b), E, ezmul_1 by assumption.
        eapply chord_step; eassumption.
      + destruct (negb (x =? gx) && zero_mod M (s * (x - gx) - (y + gy)) && third_ok M s x y gx x1 y1) eqn:C; [|discriminate].
        rewrite !andb_true_iff in C. destruct C as [[C0 C1] C2].
        pose proof (third_ok_spec _ _ _ _ _ _ _ HM C2) as [R1 _].
        eapply IH; [exact R1| |exact R].
        replace (k - 1) with (k + - (1)) by ring.
        rewrite ezmul_add with (b := b), E, (ezmul_opp p a b H), ezmul_1 by assumption.
        replace (eneg p G0) with (Some (mk p gx, mk p (- gy)))
          by (unfold G0, eneg, neg; rewrite mk_opp; reflexivity).
        replace (y + gy) with (y - - gy) in C1 by ring.
        eapply chord_step; eassumption.
  Qed.
End Check.
