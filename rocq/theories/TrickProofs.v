(** A receiver that sends a point of order three which is not on the curve. *)
From Coq Require Import ZArith Znumtheory Bool List Lia Field.
From Verif Require Import Outcome FieldModel ZpField SpecField FieldProofs ECGroup ECOrder CurveParams CurveFacts EccModel EccProofs SpecEcc EccThms Emb RF DmeModel SpecDme DmeProofs OffProofs SpecTrick TrickMath TrickRoots.
Import ListNotations.
Open Scope Z_scope.

Notation ept := (ept p).
Notation eadd := (eadd p (c_a CV)).
Notation eon := (eon p (c_a CV) (c_b CV)).
Notation mk := (mk p).
Definition T (k : Z) : ept := if k mod 3 =? 0 then None else if k mod 3 =? 1 then Some (mk 15, mk trick_y) else Some (mk 15, mk (- trick_y)).
Lemma mod3 k : k mod 3 = 0 \/ k mod 3 = 1 \/ k mod 3 = 2.
Proof. pose proof (Z.mod_pos_bound k 3 eq_refl). lia. Qed.
Lemma T_mod k k' : k mod 3 = k' mod 3 -> T k = T k'.
Proof. intros E. unfold T. rewrite E. reflexivity. Qed.
Lemma T0 k : k mod 3 = 0 -> T k = None.
Proof. intros E. unfold T. rewrite E. reflexivity. Qed.
Lemma T1 k : k mod 3 = 1 -> T k = Some (mk 15, mk trick_y).
Proof. intros E. unfold T. rewrite E. reflexivity. Qed.
Lemma T2 k : k mod 3 = 2 -> T k = Some (mk 15, mk (- trick_y)).
Proof. intros E. unfold T. rewrite E. reflexivity. Qed.
Lemma inj_T1 c : inj CV c (T 1) = trick c.
Proof. rewrite (T1 1 eq_refl). unfold trick, pt_z. cbn [inj]. rewrite !(emb_new CV good_CV). reflexivity. Qed.
Lemma inj_T2 c : inj CV c (T 2) = mirrored c.
Proof. rewrite (T2 2 eq_refl). unfold mirrored, pt_z. cbn [inj]. rewrite !(emb_new CV good_CV). reflexivity. Qed.

Section Dbl.
  Let HF := field_Fp p Hp.
  Add Field DblField : HF.
  Lemma y_mk : mk trick_y <> f0 p.
  Proof. intros E. apply (mk_0_iff p Hp) in E. apply y_not0. destruct E as [q Q]. exists (4 * trick_y * q). rewrite Q at 2. ring. Qed.
  Lemma y_opp : mk (- trick_y) = fopp p (mk trick_y).
  Proof. symmetry. apply mk_opp. Qed.
  Lemma y_mk' : mk (- trick_y) <> f0 p.
  Proof. rewrite y_opp. intros E. apply y_mk. transitivity (fopp p (fopp p (mk trick_y))); [ring|rewrite E; ring]. Qed.
  Lemma two_nz : fadd p (f1 p) (f1 p) <> f0 p.
  Proof. exact (isnice_two CV good_CV). Qed.
  Lemma y_ne : mk trick_y <> mk (- trick_y).
  Proof.
    rewrite y_opp. intros E. assert (M : fmul p (fadd p (f1 p) (f1 p)) (mk trick_y) = f0 p) by (transitivity (fsub p (mk trick_y) (fopp p (mk trick_y))); [ring|rewrite <- E; ring]).
    apply (fmul_0 p Hp) in M. destruct M as [M|M]; [exact (two_nz M)|exact (y_mk M)].
  Qed.
  (** the square of the slope of the tangent is 45 *)
  Lemma tangent : fmul p (fadd p (fmul p (fadd p (fadd p (f1 p) (f1 p)) (f1 p)) (fmul p (mk 15) (mk 15))) (mk (c_a CV)))
                        (fadd p (fmul p (fadd p (fadd p (f1 p) (f1 p)) (f1 p)) (fmul p (mk 15) (mk 15))) (mk (c_a CV))) =
                  fmul p (fadd p (fadd p (mk 15) (mk 15)) (mk 15)) (fmul p (fmul p (fadd p (f1 p) (f1 p)) (mk trick_y)) (fmul p (fadd p (f1 p) (f1 p)) (mk trick_y))).
  Proof. change (f1 p) with (mk 1). rewrite !mk_mul, !mk_add, !mk_mul, !mk_add, !mk_mul. apply mk_eq. vm_compute. reflexivity. Qed.
  Lemma dbl y : y = mk trick_y \/ y = fopp p (mk trick_y) -> eadd (Some (mk 15, y)) (Some (mk 15, y)) = Some (mk 15, fopp p y).
  Proof.
    intros H. unfold ECOrder.eadd, add. destruct (eqFp p (mk 15) (mk 15)) as [_|]; [|contradiction]. destruct (eqFp p y y) as [_|]; [|contradiction].
    unfold third, dbl_slope. pose proof tangent as TG. set (N := fadd p (fmul p _ (fmul p (mk 15) (mk 15))) (mk (c_a CV))) in *.
    assert (Y0 : y <> f0 p) by (destruct H as [->| ->]; [exact y_mk|rewrite <- y_opp; exact y_mk']).
    assert (TG' : fmul p N N = fmul p (fadd p (fadd p (mk 15) (mk 15)) (mk 15)) (fmul p (fmul p (fadd p (f1 p) (f1 p)) y) (fmul p (fadd p (f1 p) (f1 p)) y))).
    { rewrite TG. destruct H as [->| ->]; ring. }
    set (D := fmul p (fadd p (f1 p) (f1 p)) y) in *.
    assert (D0 : D <> f0 p) by (unfold D; intros E; apply (fmul_0 p Hp) in E; destruct E as [E|E]; [exact (two_nz E)|exact (Y0 E)]).
    set (X := mk 15) in *. clearbody N D X.
    assert (LL : fmul p (fdiv p N D) (fdiv p N D) = fadd p (fadd p X X) X) by (transitivity (fdiv p (fmul p N N) (fmul p D D)); [field; exact D0|rewrite TG'; field; exact D0]).
    rewrite LL. apply (f_equal Some). apply f_equal2; ring.
  Qed.
  Lemma T_add i j : eadd (T i) (T j) = T (i + j).
  Proof.
    assert (A : forall y y', y <> y' -> eadd (Some (mk 15, y)) (Some (mk 15, y')) = None).
    { intros y y' N. unfold ECOrder.eadd, add. destruct (eqFp p (mk 15) (mk 15)) as [_|]; [|contradiction]. destruct (eqFp p y y') as [|_]; [contradiction|reflexivity]. }
    pose proof (Zplus_mod i j 3) as S. destruct (mod3 i) as [E|[E|E]], (mod3 j) as [F|[F|F]]; rewrite E, F in S.
    - rewrite (T0 i E), (T0 j F), (T0 (i + j) S). reflexivity.
    - rewrite (T0 i E), (T1 j F), (T1 (i + j) S). reflexivity.
    - rewrite (T0 i E), (T2 j F), (T2 (i + j) S). reflexivity.
    - rewrite (T1 i E), (T0 j F), (T1 (i + j) S). reflexivity.
    - rewrite (T1 i E), (T1 j F), (T2 (i + j) S). rewrite (dbl (mk trick_y) (or_introl eq_refl)), y_opp. reflexivity.
    - rewrite (T1 i E), (T2 j F), (T0 (i + j) S). apply A, y_ne.
    - rewrite (T2 i E), (T0 j F), (T2 (i + j) S). reflexivity.
    - rewrite (T2 i E), (T1 j F), (T0 (i + j) S). apply A. intros Q. apply y_ne. symmetry. exact Q.
    - rewrite (T2 i E), (T2 j F), (T1 (i + j) S). rewrite y_opp, (dbl (fopp p (mk trick_y)) (or_intror eq_refl)). apply (f_equal (fun z => Some (mk 15, z))). ring.
  Qed.
End Dbl.
Lemma T_y i : ynz CV (T i).
Proof. unfold T, ynz. destruct (i mod 3 =? 0); [exact I|]. destruct (i mod 3 =? 1); [exact y_mk|exact y_mk']. Qed.
Lemma T_none i : T i = None <-> i mod 3 = 0.
Proof. unfold T. destruct (Z.eqb_spec (i mod 3) 0) as [E|E]; [split; [intros _; exact E|reflexivity]|]. split; [|intros F; contradiction]. destruct (i mod 3 =? 1); discriminate. Qed.
Lemma T_dbl i : T i <> None -> T (2 * i) <> None.
Proof.
  rewrite !T_none. intros N E. apply N. apply Z.mod_divide; [discriminate|]. apply Z.mod_divide in E; [|discriminate]. destruct E as [q Q]. exists (q * 2 - i). lia.
Qed.

Section Mul.
  Variables (dbg : bool) (live : Z -> bool).
  Lemma trick_mul c s : live c = true -> 0 <= fval s -> pmul dbg live CV (trick c) s = Ok (inj CV c (T (fval s))).
  Proof.
    intros L S. rewrite <- inj_T1. apply (pmul_sim dbg live CV good_CV T); [intros i j _ _; apply T_add|intros i _; apply T_y|intros i _; apply T_dbl|reflexivity|intros _; exact L|exact S|].
    intros E. discriminate E.
  Qed.
  Lemma trick_add c i j : live c = true -> padd dbg live CV (inj CV c (T i)) (inj CV c (T j)) = Ok (inj CV c (T (i + j))).
  Proof. intros L. rewrite (padd_y dbg live CV good_CV) by (try (intros _; exact L); apply T_y). rewrite pick_same, T_add. reflexivity. Qed.

  (** ** Messages *)
  Lemma on_z x y : eon (Some (mk x, mk y)) <-> (p | y * y - cubic x).
  Proof.
    unfold ECOrder.eon, on. rewrite !mk_mul, !mk_add. fold (cubic x). rewrite <- (mk_0_iff p Hp), <- mk_sub. split.
    - intros E. change (mk (y * y) = mk (x * x * x + c_a CV * x + c_b CV)) in E. unfold cubic. rewrite E. rewrite mk_sub. apply (mk_0_iff p Hp). exists 0. ring.
    - rewrite mk_sub. intros E. apply (mk_0_iff p Hp) in E. apply mk_eq. destruct E as [q Q]. replace (y * y) with (cubic x + q * p) by lia. apply Z_mod_plus_full.
  Qed.
  Lemma off_T k : k mod 3 <> 0 -> ~ eon (T k).
  Proof.
    intros N. unfold T. rewrite (proj2 (Z.eqb_neq _ _) N). destruct (k mod 3 =? 1); rewrite on_z; [apply no_fifteen|apply no_fifteen].
  Qed.
  Lemma message x y : eon (Some (x, y)) -> x <> mk 15 /\ forall s, s = trick_y \/ s = - trick_y -> rx CV (mk 15) (mk s) x y <> mk 15.
  Proof.
    intros E. rewrite <- (mk_val p x), <- (mk_val p y) in E |- *. set (u := val p x) in *. set (v := val p y) in *. clearbody u v. apply on_z in E.
    assert (NX : mk u <> mk 15).
    { intros Q. apply mk_eq_inv in Q. apply (no_fifteen v). destruct E as [q E].
      assert (D : (p | u - 15)) by (apply Z.mod_divide; [discriminate|]; rewrite Zminus_mod, Q, Z.sub_diag; reflexivity). destruct D as [r R].
      assert (U : u = 15 + r * p) by lia. exists (q + r * (u * u + u * 15 + 15 * 15 + c_a CV)).
      replace (v * v) with (cubic u + q * p) by lia. unfold cubic. replace r with r by reflexivity.
      transitivity (q * p + (u - 15) * (u * u + u * 15 + 15 * 15 + c_a CV)); [ring|]. rewrite R. ring. }
    split; [exact NX|]. intros s Hs Q. apply (above CV good_CV (mk 15) (mk s) (mk u) (mk v) NX) in Q.
    rewrite !mk_add, !mk_sub, !mk_mul in Q. apply mk_eq_inv in Q.
    assert (D : (p | (15 + 15 + u) * ((u - 15) * (u - 15)) - (s - v) * (s - v))) by (apply Z.mod_divide; [discriminate|]; rewrite Zminus_mod, Q, Z.sub_diag; reflexivity).
    destruct D as [r R]. destruct E as [q E].
    assert (SS : s * s = trick_y * trick_y) by (destruct Hs as [->| ->]; ring).
    assert (G : forall w, w = v \/ w = - v -> s * v = trick_y * w -> False).
    { intros w Hw Ew. apply (no_tangent u w).
      - exists q. destruct Hw as [->| ->]; lia.
      - exists (r + q). transitivity ((15 + 15 + u) * ((u - 15) * (u - 15)) - (s - v) * (s - v) + (v * v - cubic u)); [|rewrite R, E; ring].
        replace ((s - v) * (s - v)) with (s * s - 2 * (s * v) + v * v) by ring. rewrite SS, Ew. ring. }
    destruct Hs as [->| ->]; [apply (G v); [left; reflexivity|reflexivity]|apply (G (- v)); [right; reflexivity|ring]].
  Qed.

  Lemma neg_T k : k mod 3 <> 0 -> exists y, (y = trick_y \/ y = - trick_y) /\ T k = Some (mk 15, mk y) /\ T (- k) = Some (mk 15, fopp p (mk y)).
  Proof.
    intros N. destruct (mod3 k) as [E|[E|E]]; [contradiction| |].
    - exists trick_y. split; [left; reflexivity|]. rewrite (T_mod k 1 E), (T_mod (- k) 2). 2:{ change (2 mod 3) with (2 mod 3). pose proof (Z_div_mod_eq_full k 3). rewrite E in *. replace (- k) with (2 + (- (k / 3) - 1) * 3) by lia. apply Z_mod_plus_full. }
      rewrite <- y_opp. split; reflexivity.
    - exists (- trick_y). split; [right; reflexivity|]. rewrite (T_mod k 2 E), (T_mod (- k) 1). 2:{ pose proof (Z_div_mod_eq_full k 3). rewrite E in *. replace (- k) with (1 + (- (k / 3) - 1) * 3) by lia. apply Z_mod_plus_full. }
      rewrite mk_opp, Z.opp_involutive. split; reflexivity.
  Qed.

  (** what becomes of a message *)
  Lemma masked c k m : live c = true -> is_valid live m -> exists R, padd dbg live CV (inj CV c (T k)) m = Ok R /\
    (k mod 3 = 0 -> R = m) /\
    (k mod 3 <> 0 -> ~ same_point R m /\ (exists M, padd dbg live CV R (inj CV c (T (- k))) = Ok M /\ is_valid live M /\ same_point M m) /\
       (is_valid live R -> gadd CV (den CV R) (den CV m) = None)).
  Proof.
    intros L V. destruct (Z.eq_dec (k mod 3) 0) as [Z0|N].
    - exists m. rewrite (proj2 (T_none k) Z0). split; [reflexivity|]. split; [reflexivity|]. intros C. contradiction.
    - destruct (neg_T k N) as [t [Ht [E1 E2]]]. destruct (valid_inj live CV good_CV m V) as [c' [[[x y]|] [HE [LV ->]]]].
      + destruct (message x y HE) as [NX TG]. specialize (TG t Ht). rewrite E1, E2. assert (L' : live c' = true) by (apply LV; discriminate).
        assert (NX' : mk 15 <> x) by congruence.
        rewrite (padd_x dbg live CV good_CV) by assumption. rewrite (sum_is CV (mk 15) (mk t) x y NX). set (a := rx CV (mk 15) (mk t) x y) in *. set (b := ry CV (mk 15) (mk t) x y).
        exists (inj CV c (Some (a, b))). split; [reflexivity|]. split; [intros C; contradiction|]. intros _. unfold same_point. rewrite !(den_inj CV). split.
        { intros Q. apply (not_same CV good_CV (mk 15) (mk t) x y NX HE). injection Q as Qx Qy. split; assumption. }
        split.
        { rewrite (padd_x dbg live CV good_CV) by assumption. unfold a, b. rewrite (back CV good_CV (mk 15) (mk t) x y NX TG).
          eexists. split; [reflexivity|]. split; [apply (inj_valid live CV good_CV); [exact HE|intros _; exact L]|rewrite (den_inj CV); reflexivity]. }
        intros VR. apply (valid_eon live CV good_CV) in VR. rewrite (den_inj CV) in VR.
        assert (NT : ~ eon (Some (mk 15, mk t))) by (rewrite <- E1; apply off_T, N).
        destruct (on_curve CV good_CV (mk 15) (mk t) x y NX HE NT VR) as [QX QY]. fold a in QX. fold b in QY. rewrite QX, QY.
        apply (eadd_neg_l p (c_a CV) (c_b CV) (isnice CV good_CV) (Some (x, y)) HE).
      + cbn [inj]. exists (inj CV c (T k)). rewrite E1, E2. cbn [inj]. split; [reflexivity|]. split; [intros C; contradiction|]. intros _. split; [discriminate|]. split.
        { pose proof (trick_add c k (- k) L) as A. rewrite E1, E2 in A. cbn [inj] in A. rewrite A. replace (k + - k) with 0 by ring. exists (pt_inf CV). split; [reflexivity|]. split; [left; reflexivity|reflexivity]. }
        intros VR. apply (valid_eon live CV good_CV) in VR. change (den CV _) with (den CV (inj CV c (Some (mk 15, mk t)))) in VR. rewrite (den_inj CV), <- E1 in VR. destruct (off_T k N VR).
  Qed.
End Mul.
