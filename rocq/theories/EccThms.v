(** Lemmas behind the properties of points and curves. *)
From Coq Require Import ZArith Znumtheory Bool List Lia Field.
From Verif Require Import Outcome FieldModel ZpField SpecField FieldProofs ECGroup ECOrder CurveParams CurveFacts EccModel EccProofs SpecEcc.
Import ListNotations.
Open Scope Z_scope.

Lemma good_params k : good (params k).
Proof. destruct k; [exact good_secp256r1|exact good_bn254]. Qed.

Section Thms.
  Variables (dbg : bool) (live : Z -> bool) (C : cparams).
  Hypothesis HC : good C.
  Notation p := (c_prime C).
  Notation n := (c_order C).
  Notation q := (fieldp C).
  Notation eon := (eon p (c_a C) (c_b C)).
  Notation N := (isnice C HC).
  Notation lv := (lv live C).

  Lemma equation_on x y : equation C x y <-> eon (Some (mk p x, mk p y)).
  Proof.
    unfold equation. cbn [ECOrder.eon on]. unfold ECOrder.eon, on. rewrite !mk_mul, !mk_add. split.
    - intros E. apply mk_eq, E.
    - intros E. apply mk_eq_inv in E. exact E.
  Qed.

  Lemma valid_inj P : valid live C P -> exists c E, eon E /\ lv E c /\ P = inj C c E.
  Proof.
    intros [->|(I & Hx & Hy & [c [Hc L]] & E)].
    - exists 0, None. repeat split. intros F; contradiction.
    - exists c, (Some (mk p (fval (px P)), mk p (fval (py P)))). split; [apply equation_on, E|].
      split; [intros _; exact L|]. cbn [inj]. rewrite <- !(emb_surj C HC) by assumption.
      destruct P; cbn in *; subst; reflexivity.
  Qed.

  Lemma inj_valid c E : eon E -> lv E c -> valid live C (inj C c E).
  Proof.
    intros H L. destruct E as [[x y]|]; [right|left; reflexivity].
    cbn [inj]. split; [reflexivity|]. cbn [px py pcur].
    split; [apply (emb_canon C HC)|split; [apply (emb_canon C HC)|]].
    split; [exists c; split; [reflexivity|apply L; discriminate]|].
    apply equation_on. cbn [emb fval]. rewrite !mk_val. exact H.
  Qed.

  Lemma den_inj c E : den C (inj C c E) = E.
  Proof. destruct E as [[x y]|]; [|reflexivity]. unfold den. cbn [inj pinf px py emb fval]. rewrite !mk_val. reflexivity. Qed.

  Lemma valid_rk P : valid live C P -> exists k, 0 <= k < n /\ rk live C P k.
  Proof.
    intros H. destruct (valid_inj P H) as [c [E [HE [L ->]]]]. destruct (gk_surj C HC E HE) as [k [R ->]].
    exists k; split; [assumption|]. exists c; split; [assumption|reflexivity].
  Qed.

  Lemma rk_valid P k : rk live C P k -> valid live C P.
  Proof. intros [c [L ->]]. apply inj_valid; [apply gk_on, HC|exact L]. Qed.

  Lemma rk_den P k : rk live C P k -> den C P = gmul C k (ggen C).
  Proof. intros [c [_ ->]]. apply den_inj. Qed.

  Lemma inj_yields c E : eon E -> lv E c -> yields live C (Ok (inj C c E)) E.
  Proof. intros H L. eexists; split; [reflexivity|]. split; [apply inj_valid; assumption|apply den_inj]. Qed.

  Lemma valid_isValid P : valid live C P -> isValid dbg live C P = Ok true.
  Proof. intros H. destruct (valid_inj P H) as [c [E [HE [L ->]]]]. apply (isValid_inj dbg live C HC); assumption. Qed.

  Lemma valid_eon P : valid live C P -> eon (den C P).
  Proof. intros H. destruct (valid_inj P H) as [c [E [HE [L ->]]]]. rewrite den_inj. exact HE. Qed.

  (** ** C07 *)
  Lemma L_C07_multiples k : 0 < k < n -> gmul C k (ggen C) <> None.
  Proof.
    intros R E. apply (gk_None C HC) in E. apply Z.divide_pos_le in E; lia.
  Qed.

  Lemma L_C07 :
    equation C (c_gx C) (c_gy C) /\ p mod 4 = 3 /\
    (forall x, (x * x * x + c_a C * x + c_b C) mod p <> 0) /\
    prime n /\ gmul C n (ggen C) = None /\ (forall k, 0 < k < n -> gmul C k (ggen C) <> None).
  Proof.
    split; [apply equation_on, (g_on C HC)|]. split; [apply (g_p34 C HC)|]. split; [apply (g_noroot C HC)|].
    split; [apply (g_order C HC)|]. split; [apply (g_ord C HC)|apply L_C07_multiples].
  Qed.

  (** ** C08 *)
  Lemma L_C08 P Q : valid live C P -> valid live C Q ->
    yields live C (padd dbg live C P Q) (gadd C (den C P) (den C Q)) /\
    padd_eq dbg live C P Q = padd dbg live C P Q.
  Proof.
    intros HP HQ. split; [|reflexivity].
    destruct (valid_inj P HP) as [c [E [HE [L ->]]]]. destruct (valid_inj Q HQ) as [c' [E' [HE' [L' ->]]]].
    rewrite (padd_inj dbg live C HC), !den_inj by assumption. apply inj_yields.
    - apply (eon_add p _ _ N); assumption.
    - apply lv_add; assumption.
  Qed.

  Lemma yields_bind r E k F : yields live C r E ->
    (forall R, valid live C R -> den C R = E -> yields live C (k R) F) -> yields live C (bind r k) F.
  Proof. intros [R [-> [V D]]] H. cbn [bind]. apply H; assumption. Qed.

  Lemma yields_padd P Q : valid live C P -> valid live C Q ->
    yields live C (padd dbg live C P Q) (gadd C (den C P) (den C Q)).
  Proof. intros; apply L_C08; assumption. Qed.

  (** ** C09 *)
  Lemma L_C09_assoc P Q R : valid live C P -> valid live C Q -> valid live C R ->
    agree live C (do A <- padd dbg live C P Q; padd dbg live C A R)
                 (do B <- padd dbg live C Q R; padd dbg live C P B).
  Proof.
    intros HP HQ HR. exists (gadd C (gadd C (den C P) (den C Q)) (den C R)). split.
    - eapply yields_bind; [apply yields_padd; assumption|]. intros A VA DA. rewrite <- DA. apply yields_padd; assumption.
    - unfold gadd. rewrite (eadd_assoc p _ _ N) by (apply valid_eon; assumption).
      eapply yields_bind; [apply yields_padd; assumption|]. intros B VB DB. unfold gadd in DB. rewrite <- DB.
      apply yields_padd; assumption.
  Qed.

  Lemma L_C09_comm P Q : valid live C P -> valid live C Q ->
    agree live C (padd dbg live C P Q) (padd dbg live C Q P).
  Proof.
    intros HP HQ. exists (gadd C (den C P) (den C Q)). split; [apply yields_padd; assumption|].
    unfold gadd. rewrite (eadd_comm p _ _ N) by (apply valid_eon; assumption). apply yields_padd; assumption.
  Qed.

  Lemma L_C09_neutral P : valid live C P ->
    padd dbg live C P (pt_inf C) = Ok P /\ padd dbg live C (pt_inf C) P = Ok P.
  Proof.
    intros [->|[I _]]; [split; reflexivity|]. unfold padd. cbn [pinf pt_inf]. rewrite I. split; reflexivity.
  Qed.

  Lemma mirror_inj c x y : mirror C (inj C c (Some (x, y))) = inj C c (Some (x, fopp p y)).
  Proof. unfold mirror. cbn [inj px py pinf pcur]. rewrite (emb_new C HC). reflexivity. Qed.

  Lemma mirror_valid P : finite_valid live C P -> finite_valid live C (mirror C P) /\ den C (mirror C P) = gneg C (den C P).
  Proof.
    intros HP. destruct (valid_inj P (or_intror HP)) as [c [E [HE [L ->]]]].
    destruct E as [[x y]|]; [|destruct HP as [F _]; discriminate F].
    rewrite mirror_inj, !den_inj. split; [|reflexivity].
    destruct (inj_valid c (Some (x, fopp p y))) as [F|F]; [|intros _; apply L; discriminate|discriminate F|exact F].
    apply (eon_neg p _ _ N) in HE. exact HE.
  Qed.

  Lemma L_C09_inverse P : finite_valid live C P -> padd dbg live C P (mirror C P) = Ok (pt_inf C).
  Proof.
    intros HP. destruct (valid_inj P (or_intror HP)) as [c [E [HE [L ->]]]].
    destruct E as [[x y]|]; [|destruct HP as [F _]; discriminate F].
    rewrite mirror_inj. pose proof (eon_neg p _ _ N _ HE) as HE'. cbn [eneg neg] in HE'.
    rewrite (padd_inj dbg live C HC); try assumption; [|intros _; apply L; discriminate].
    pose proof (eadd_neg_r p _ _ N _ HE) as Z0. cbn [eneg neg] in Z0. rewrite Z0. reflexivity.
  Qed.

  (** ** C10 *)
  Lemma L_C10 P : finite_valid live C P ->
    exists R, pdouble dbg live C P = Ok R /\ padd dbg live C P P = Ok R /\ finite_valid live C R /\
              den C R = gadd C (den C P) (den C P).
  Proof.
    intros HP. destruct (valid_inj P (or_intror HP)) as [c [E [HE [L ->]]]].
    assert (NE : E <> None) by (intros ->; destruct HP as [F _]; discriminate F).
    rewrite (pdouble_inj dbg live C HC), (padd_inj dbg live C HC), (L NE), pick_same by assumption.
    eexists; split; [reflexivity|]. split; [reflexivity|]. rewrite !den_inj. split; [|reflexivity].
    pose proof (edouble_ne p _ _ N E HE NE) as ND.
    destruct (inj_valid c (eadd p (c_a C) E E)) as [F|F]; [apply (eon_add p _ _ N); assumption|intros _; apply L, NE| |exact F].
    destruct (eadd p (c_a C) E E) as [[x y]|]; [discriminate F|contradiction].
  Qed.

  (** ** C11 *)
  Lemma times_inj c E k : eon E -> lv E c -> times dbg live C k (inj C c E) = Ok (inj C c (gmul C (Z.of_nat k) E)).
  Proof.
    intros H L. induction k as [|k IH]; [reflexivity|]. cbn [times]. rewrite IH. cbn [bind].
    assert (HK : eon (gmul C (Z.of_nat k) E)) by (apply (eon_zmul p _ _ N); assumption).
    assert (LK : lv (gmul C (Z.of_nat k) E) c).
    { intros F. apply L. intros ->. apply F. apply ezmul_None. }
    rewrite (padd_inj dbg live C HC), pick_same by assumption. f_equal. f_equal.
    rewrite Nat2Z.inj_succ. unfold Z.succ, gmul. rewrite (ezmul_add p _ _ N), ezmul_1 by assumption. reflexivity.
  Qed.

  Lemma lv_gmul c E k : lv E c -> lv (gmul C k E) c.
  Proof. intros L F. apply L. intros ->. apply F. apply ezmul_None. Qed.

  Lemma pmul_new c E a : eon E -> lv E c ->
    pmul dbg live C (inj C c E) (fe_new (fieldn C) a) = Ok (inj C c (gmul C a E)).
  Proof.
    intros H L. pose proof (n_gt1' C HC).
    assert (F : fval (fe_new (fieldn C) a) = a mod n) by (rewrite (g_fieldn C HC); reflexivity).
    rewrite (pmul_inj dbg live C HC), F by (try assumption; rewrite F; apply Z.mod_pos_bound; lia).
    rewrite (ezmul_mod C HC) by assumption. reflexivity.
  Qed.

  Lemma L_C11_integer P a : valid live C P ->
    exists R, pmulz dbg live C P a = Ok R /\ times dbg live C (Z.to_nat (a mod n)) P = Ok R /\ valid live C R.
  Proof.
    intros HP. destruct (valid_inj P HP) as [c [E [HE [L ->]]]]. pose proof (n_gt1' C HC).
    unfold pmulz. rewrite pmul_new, times_inj by assumption. eexists; split; [reflexivity|].
    rewrite Z2Nat.id by (apply Z.mod_pos_bound; lia). unfold gmul. rewrite (ezmul_mod C HC) by assumption.
    split; [reflexivity|]. apply inj_valid; [apply (eon_zmul p _ _ N); assumption|apply lv_gmul, L].
  Qed.

  Lemma L_C11_scalar P s : valid live C P -> 0 <= fval s ->
    exists R, pmul dbg live C P s = Ok R /\ times dbg live C (Z.to_nat (fval s)) P = Ok R /\ valid live C R.
  Proof.
    intros HP S. destruct (valid_inj P HP) as [c [E [HE [L ->]]]].
    rewrite (pmul_inj dbg live C HC), times_inj by assumption. eexists; split; [reflexivity|].
    rewrite Z2Nat.id by assumption. split; [reflexivity|].
    apply inj_valid; [apply (eon_zmul p _ _ N); assumption|apply (lv_gmul c E (fval s)), L].
  Qed.

  Lemma L_C11_den P a : valid live C P -> yields live C (pmulz dbg live C P a) (gmul C a (den C P)).
  Proof.
    intros HP. destruct (valid_inj P HP) as [c [E [HE [L ->]]]]. unfold pmulz. rewrite pmul_new, den_inj by assumption.
    apply inj_yields; [apply (eon_zmul p _ _ N); assumption|apply lv_gmul, L].
  Qed.

  (** ** C12 *)
  Lemma scalar_val s : canon (fieldn C) s -> s = fe_new (fieldn C) (fval s).
  Proof. intros H; symmetry; apply canon_new_val, H. Qed.

  Lemma fieldn_pos : 0 < fieldn C.
  Proof. rewrite (g_fieldn C HC). pose proof (n_gt1' C HC). lia. Qed.

  Lemma L_C12_add P a b : valid live C P -> canon (fieldn C) a -> canon (fieldn C) b ->
    agree live C (do s <- fe_add dbg (fieldn C) a b; pmul dbg live C P s)
                 (do A <- pmul dbg live C P a; do B <- pmul dbg live C P b; padd dbg live C A B).
  Proof.
    intros HP Ha Hb. destruct (valid_inj P HP) as [c [E [HE [L ->]]]].
    rewrite fe_add_ok by (assumption || apply fieldn_pos). cbn [bind].
    rewrite (scalar_val a Ha), (scalar_val b Hb). rewrite !pmul_new by assumption. cbn [bind].
    rewrite <- (scalar_val a Ha), <- (scalar_val b Hb).
    rewrite (padd_inj dbg live C HC), pick_same by (try apply (eon_zmul p _ _ N); try apply lv_gmul; assumption).
    exists (gmul C (fval a + fval b) E). unfold gmul. rewrite <- (ezmul_add p _ _ N) by assumption.
    split; apply inj_yields; try (apply (eon_zmul p _ _ N); assumption); apply (lv_gmul c E), L.
  Qed.

  Lemma L_C12_mul P a b : valid live C P -> canon (fieldn C) a -> canon (fieldn C) b ->
    agree live C (do A <- pmul dbg live C P a; pmul dbg live C A b)
                 (do s <- fe_mul dbg (fieldn C) a b; pmul dbg live C P s).
  Proof.
    intros HP Ha Hb. destruct (valid_inj P HP) as [c [E [HE [L ->]]]].
    rewrite fe_mul_ok by (assumption || apply fieldn_pos). cbn [bind].
    rewrite (scalar_val a Ha), (scalar_val b Hb). rewrite !pmul_new by assumption. cbn [bind].
    rewrite pmul_new by (try apply (eon_zmul p _ _ N); try apply lv_gmul; assumption).
    rewrite <- (scalar_val a Ha), <- (scalar_val b Hb).
    exists (gmul C (fval a * fval b) E). rewrite (Z.mul_comm (fval a)). unfold gmul. rewrite <- (ezmul_mul p _ _ N) by assumption.
    split; apply inj_yields; try (apply (eon_zmul p _ _ N); assumption); apply (lv_gmul c E), L.
  Qed.

  Lemma L_C12_distr P Q a : valid live C P -> valid live C Q -> canon (fieldn C) a ->
    agree live C (do T <- padd dbg live C P Q; pmul dbg live C T a)
                 (do A <- pmul dbg live C P a; do B <- pmul dbg live C Q a; padd dbg live C A B).
  Proof.
    intros HP HQ Ha. destruct (valid_inj P HP) as [c [E [HE [L ->]]]]. destruct (valid_inj Q HQ) as [c' [E' [HE' [L' ->]]]].
    rewrite (scalar_val a Ha). rewrite (padd_inj dbg live C HC) by assumption. cbn [bind].
    rewrite !pmul_new by (try apply (eon_add p _ _ N); try apply lv_add; assumption). cbn [bind].
    rewrite (padd_inj dbg live C HC) by (try apply (eon_zmul p _ _ N); try apply lv_gmul; assumption).
    exists (gmul C (fval a) (gadd C E E')). split.
    - apply inj_yields; [apply (eon_zmul p _ _ N), (eon_add p _ _ N)|apply lv_gmul, lv_add]; assumption.
    - unfold gmul, gadd. rewrite (ezmul_distr p _ _ N) by assumption.
      apply inj_yields; [apply (eon_add p _ _ N); apply (eon_zmul p _ _ N)|apply lv_add; apply lv_gmul]; assumption.
  Qed.

  Lemma L_C12_negative P a : valid live C P ->
    yields live C (pmulz dbg live C P (- a)) (gneg C (gmul C a (den C P))).
  Proof.
    intros HP. unfold gneg, gmul. rewrite <- (ezmul_opp p _ _ N). apply L_C11_den, HP.
  Qed.

  (** ** C13 *)
  Lemma L_C13_generated P : valid live C P -> exists k, 0 <= k < n /\ den C P = gmul C k (ggen C).
  Proof. intros H. destruct (valid_rk P H) as [k [R K]]. exists k; split; [assumption|apply rk_den, K]. Qed.

  Lemma L_C13_order P k : finite_valid live C P ->
    exists R, times dbg live C k P = Ok R /\ valid live C R /\ (pinf R = true <-> (n | Z.of_nat k)).
  Proof.
    intros HP. destruct (valid_inj P (or_intror HP)) as [c [E [HE [L ->]]]].
    assert (NE : E <> None) by (intros ->; destruct HP as [F _]; discriminate F).
    rewrite times_inj by assumption. eexists; split; [reflexivity|].
    split; [apply inj_valid; [apply (eon_zmul p _ _ N); assumption|apply lv_gmul, L]|].
    rewrite <- (order_exact' C HC E) by assumption. unfold gmul.
    destruct (ezmul p (c_a C) (Z.of_nat k) E) as [[x y]|]; cbn; split; congruence.
  Qed.

  (** ** C14 *)
  Lemma L_C14 P Q : finite_valid live C P -> finite_valid live C Q ->
    psub dbg live C P Q = padd dbg live C P (mirror C Q) /\
    psub_eq dbg live C P Q = psub dbg live C P Q /\
    yields live C (psub dbg live C P Q) (gadd C (den C P) (gneg C (den C Q))).
  Proof.
    intros HP HQ. destruct (valid_inj P (or_intror HP)) as [c [E [HE [L ->]]]].
    assert (NE : E <> None) by (intros ->; destruct HP as [F _]; discriminate F).
    destruct (valid_inj Q (or_intror HQ)) as [c' [E' [HE' [L' ->]]]].
    destruct E' as [[x y]|]; [|destruct HQ as [F _]; discriminate F].
    pose proof (eon_neg p _ _ N _ HE') as HN. cbn [eneg neg] in HN.
    assert (LN : lv (Some (x, fopp p y)) c') by (intros _; apply L'; discriminate).
    rewrite mirror_inj, (psub_inj dbg live C HC), (padd_inj dbg live C HC), !den_inj; try assumption; [|discriminate].
    split; [destruct E as [[? ?]|]; [reflexivity|contradiction]|]. split; [unfold psub_eq; rewrite (psub_inj dbg live C HC); try assumption; [reflexivity|discriminate]|].
    apply inj_yields; [apply (eon_add p _ _ N); assumption|intros _; apply L, NE].
  Qed.

  Lemma L_C14_minus_inf_debug P : valid live C P -> dbg = true -> psub dbg live C P (pt_inf C) = Err NullDeref.
  Proof.
    intros HP D. destruct (valid_inj P HP) as [c [E [HE [L ->]]]]. subst dbg.
    destruct E as [[x y]|]; [|reflexivity]. rewrite (psub_inf_r true live C HC); try assumption; [reflexivity|apply L; discriminate].
  Qed.

  Lemma L_C14_minus_inf_release P : finite_valid live C P -> dbg = false ->
    exists R, psub dbg live C P (pt_inf C) = Ok R /\ den C R <> den C P.
  Proof.
    intros HP D. destruct (valid_inj P (or_intror HP)) as [c [E [HE [L ->]]]].
    destruct E as [[x y]|]; [|destruct HP as [F _]; discriminate F].
    rewrite (psub_inf_r dbg live C HC); try assumption; [|apply L; discriminate]. rewrite D.
    eexists; split; [reflexivity|]. rewrite !den_inj. intros E.
    pose proof (on_y_ne0 C HC x y HE) as Ny. cbn [add] in E.
    destruct (eqFp p x (f0 p)) as [X0|Nx].
    - destruct (eqFp p y (f0 p)) as [Y0|_]; [contradiction|discriminate E].
    - unfold third in E. injection E as E1 E2.
      assert (E3 : fopp p y = y).
      { pose proof (Ring_theory.Rsub_def (ring_Fp p)) as RS. pose proof (Ring_theory.Ropp_def (ring_Fp p)) as RO.
        pose proof (Ring_theory.Radd_0_l (ring_Fp p)) as R0. pose proof (Ring_theory.Rmul_comm (ring_Fp p)) as RM.
        rewrite <- E2 at 2.
        replace (fsub p x (fsub p (fsub p (fmul p (chord_slope (Fp p) (fsub p) (fdiv p) x y (f0 p) (f0 p)) (chord_slope (Fp p) (fsub p) (fdiv p) x y (f0 p) (f0 p))) x) (f0 p))) with (f0 p).
        - rewrite RS, RM. unfold fmul at 1. unfold f0 at 1. rewrite val_mk, Z.mod_0_l, Z.mul_0_l by (pose proof (p_pos C HC); lia).
          fold (f0 p). rewrite R0. reflexivity.
        - rewrite E1, RS, RO. reflexivity. }
      pose proof (eno_self_neg p _ _ N (Some (x, y)) HE) as SN. cbn [eneg neg] in SN. rewrite E3 in SN. discriminate (SN eq_refl).
  Qed.

  Lemma L_C14_inf_minus P : finite_valid live C P ->
    psub dbg live C (pt_inf C) P =
    if dbg then Err NullDeref else Ok (mkpoint (px P) (fe_new (fieldp C) (- fval (py P))) false None).
  Proof.
    intros HP. destruct (valid_inj P (or_intror HP)) as [c [E [HE [L ->]]]].
    destruct E as [[x y]|]; [|destruct HP as [F _]; discriminate F].
    rewrite (psub_inf_l dbg live C HC) by assumption. cbn [inj px py]. rewrite (emb_new C HC). reflexivity.
  Qed.

  (** ** C15 *)
  Lemma canon_emb x : canon q x -> exists X, x = emb C X.
  Proof. intros H. exists (mk p (fval x)). apply (emb_surj C HC), H. Qed.

  Lemma on_exists X : (exists y, equation C (val p X) y) <-> (exists Y, eon (Some (X, Y))).
  Proof.
    split.
    - intros [y E]. exists (mk p y). apply equation_on in E. rewrite mk_val in E. exact E.
    - intros [Y E]. exists (val p Y). apply equation_on. rewrite !mk_val. exact E.
  Qed.

  Lemma L_C15 c x : canon q x -> live c = true ->
    exists R, evaluateP dbg live C (Some c) x = Ok R /\
      ((exists y, equation C (fval x) y) /\ finite_valid live C R /\ px R = x /\ pcur R = Some c /\
       evaluatePneg dbg live C (Some c) x = Ok (mirror C R)
       \/ (~ (exists y, equation C (fval x) y)) /\ R = pt_inf C /\ evaluatePneg dbg live C (Some c) x = Ok (pt_inf C)).
  Proof.
    intros Hx L. destruct (canon_emb x Hx) as [X ->].
    rewrite (evaluateP_emb dbg live C HC), (evaluatePneg_emb dbg live C HC), L. cbn [emb fval].
    destruct (eqFp p (fmul p (rootF C (rhsF C X)) (rootF C (rhsF C X))) (rhsF C X)) as [E|NE].
    - eexists; split; [reflexivity|left].
      assert (On : eon (Some (X, rootF C (rhsF C X)))) by exact E.
      split; [apply on_exists; eexists; exact On|]. rewrite mirror_inj.
      split; [destruct (inj_valid c (Some (X, rootF C (rhsF C X)))) as [F|F]; [exact On|intros _; exact L|discriminate F|exact F]|].
      repeat split.
    - eexists; split; [reflexivity|right]. split; [|split; reflexivity].
      intros H. apply on_exists, (lookup_total C HC) in H. contradiction.
  Qed.

  Lemma L_C15_y2 c x : canon q x -> live c = true ->
    evaluatePy2 dbg live C (Some c) x = Ok (fe_new q (fval x * fval x * fval x + c_a C * fval x + c_b C)).
  Proof.
    intros Hx L. destruct (canon_emb x Hx) as [X ->]. unfold evaluatePy2. rewrite deref_live by assumption. cbn [bind].
    rewrite (rhs_emb dbg C HC), (emb_new C HC). f_equal. f_equal. unfold rhsF. rewrite <- (mk_val p X) at 1 2 3 4.
    rewrite !mk_mul, !mk_add. reflexivity.
  Qed.

  (** ** C16 *)
  Lemma finite_inj P : finite_valid live C P -> exists c x y, eon (Some (x, y)) /\ live c = true /\ P = inj C c (Some (x, y)).
  Proof.
    intros HP. destruct (valid_inj P (or_intror HP)) as [c [E [HE [L ->]]]].
    destruct E as [[x y]|]; [|destruct HP as [F _]; discriminate F].
    exists c, x, y. repeat split; try assumption. apply L; discriminate.
  Qed.

  Lemma root_cases x y : eon (Some (x, y)) ->
    fmul p (rootF C (rhsF C x)) (rootF C (rhsF C x)) = rhsF C x /\ (y = rootF C (rhsF C x) \/ y = fopp p (rootF C (rhsF C x))).
  Proof.
    intros H. assert (E : fmul p (rootF C (rhsF C x)) (rootF C (rhsF C x)) = rhsF C x) by (apply (lookup_total C HC); exists y; exact H).
    split; [exact E|]. eapply same_x; try exact (nice_field p _ _ N); try exact (eqFp p); [exact H|exact E].
  Qed.

  Lemma getEncodedX_inj c x y : eon (Some (x, y)) -> live c = true ->
    getEncodedX dbg live C (inj C c (Some (x, y))) =
    Ok (2 * val p x + if eqFp p (rootF C (rhsF C x)) y then 1 else 0).
  Proof.
    intros H L. unfold getEncodedX. cbn [inj pcur px py]. rewrite (evaluateP_emb dbg live C HC), L. cbn [bind].
    destruct (root_cases x y H) as [E _].
    destruct (eqFp p (fmul p (rootF C (rhsF C x)) (rootF C (rhsF C x))) (rhsF C x)) as [_|NE]; [|contradiction].
    cbn [inj py]. rewrite (emb_eq C HC). cbn [emb fval]. f_equal.
    destruct (eqFp p (rootF C (rhsF C x)) y); lia.
  Qed.

  Lemma L_C16_roundtrip P T e c : finite_valid live C P -> pcur T = Some c -> live c = true ->
    getEncodedX dbg live C P = Ok e ->
    exists R, setEncodedX dbg live C T e = Ok R /\ finite_valid live C R /\ den C R = den C P /\ pcur R = Some c.
  Proof.
    intros HP HT L HE. destruct (finite_inj P HP) as [c0 [x [y [On [L0 ->]]]]].
    rewrite getEncodedX_inj in HE by assumption. apply Ok_inj in HE. subst e.
    destruct (root_cases x y On) as [E Cs]. exists (inj C c (Some (x, y))). rewrite !den_inj.
    split; [|split; [destruct (inj_valid c (Some (x, y))) as [F|F]; [exact On|intros _; exact L|discriminate F|exact F]|split; reflexivity]].
    unfold setEncodedX. rewrite HT. destruct (eqFp p (rootF C (rhsF C x)) y) as [Ey|Ny].
    - replace (Z.odd (2 * val p x + 1)) with true by (rewrite Z.add_comm, Z.odd_add_mul_2; reflexivity).
      rewrite Z.div2_div, Z.mul_comm, Z.div_add_l by lia. change (1 / 2) with 0. rewrite Z.add_0_r, (emb_new C HC), mk_val.
      rewrite (evaluateP_emb dbg live C HC), L.
      destruct (eqFp p (fmul p (rootF C (rhsF C x)) (rootF C (rhsF C x))) (rhsF C x)) as [_|NE]; [|contradiction].
      rewrite Ey. reflexivity.
    - replace (Z.odd (2 * val p x + 0)) with false by (rewrite Z.add_comm, Z.odd_add_mul_2; reflexivity).
      rewrite Z.div2_div, Z.add_0_r, Z.mul_comm, Z.div_mul by lia. rewrite (emb_new C HC), mk_val.
      rewrite (evaluatePneg_emb dbg live C HC), L.
      destruct (eqFp p (fmul p (rootF C (rhsF C x)) (rootF C (rhsF C x))) (rhsF C x)) as [_|NE]; [|contradiction].
      destruct Cs as [Cs|Cs]; [symmetry in Cs; contradiction|]. rewrite <- Cs. reflexivity.
  Qed.

  Lemma L_C16_total P : finite_valid live C P -> exists e, getEncodedX dbg live C P = Ok e /\ 0 <= e < 2 * p.
  Proof.
    intros HP. destruct (finite_inj P HP) as [c0 [x [y [On [L0 ->]]]]].
    rewrite getEncodedX_inj by assumption. eexists; split; [reflexivity|].
    pose proof (val_range p (g_prime C HC) x). destruct (eqFp p (rootF C (rhsF C x)) y); lia.
  Qed.

  Lemma L_C16_injective P Q e : finite_valid live C P -> finite_valid live C Q ->
    getEncodedX dbg live C P = Ok e -> getEncodedX dbg live C Q = Ok e -> px P = px Q /\ py P = py Q.
  Proof.
    intros HP HQ EP EQ. destruct (finite_inj P HP) as [c [x [y [On [L ->]]]]]. destruct (finite_inj Q HQ) as [c' [x' [y' [On' [L' ->]]]]].
    rewrite getEncodedX_inj in EP by assumption. rewrite getEncodedX_inj in EQ by assumption.
    apply Ok_inj in EP, EQ. subst e. cbn [inj px py].
    assert (V : val p x' = val p x) by (destruct (eqFp p (rootF C (rhsF C x)) y), (eqFp p (rootF C (rhsF C x')) y'); lia).
    apply val_inj in V. subst x'. split; [reflexivity|]. f_equal.
    destruct (root_cases x y On) as [_ Cs]. destruct (root_cases x y' On') as [_ Cs'].
    destruct (eqFp p (rootF C (rhsF C x)) y), (eqFp p (rootF C (rhsF C x)) y'); try lia; try congruence.
    destruct Cs as [Cs|Cs], Cs' as [Cs'|Cs']; congruence.
  Qed.

  Lemma L_C16_nonresidue T e c : pcur T = Some c -> live c = true ->
    ~ (exists y, equation C (Z.div2 e) y) -> setEncodedX dbg live C T e = Ok (pt_inf C).
  Proof.
    intros HT L NE. unfold setEncodedX. rewrite HT, (emb_new C HC), (evaluateP_emb dbg live C HC), (evaluatePneg_emb dbg live C HC), L.
    destruct (eqFp p (fmul p (rootF C (rhsF C (mk p (Z.div2 e)))) (rootF C (rhsF C (mk p (Z.div2 e))))) (rhsF C (mk p (Z.div2 e)))) as [E|_];
      [exfalso|destruct (Z.odd e); reflexivity].
    apply NE. apply (lookup_total C HC) in E. destruct E as [Y On]. exists (val p Y). apply equation_on. rewrite mk_val. exact On.
  Qed.

  (** ** C17 *)
  Lemma L_C17_canonical P : canon q (px P) -> canon q (py P) ->
    isValid dbg live C P =
    if pinf P then Ok true else
    match pcur P with
    | None => Ok false
    | Some c => if live c then Ok ((fval (py P) * fval (py P)) mod p =? (fval (px P) * fval (px P) * fval (px P) + c_a C * fval (px P) + c_b C) mod p)
                else Err UseAfterFree
    end.
  Proof.
    intros Hx Hy. destruct P as [x y i o]. cbn [px py pinf pcur] in *. destruct i; [reflexivity|].
    destruct o as [c|]; [|reflexivity]. destruct (canon_emb x Hx) as [X ->]. destruct (canon_emb y Hy) as [Y ->].
    rewrite (isValid_emb dbg live C HC). destruct (live c); [|reflexivity]. f_equal. cbn [emb fval].
    destruct (eqFp p (fmul p Y Y) (rhsF C X)) as [E|NE].
    - assert (E' : equation C (val p X) (val p Y)) by (apply equation_on; rewrite !mk_val; exact E).
      symmetry. apply Z.eqb_eq, E'.
    - symmetry. apply Z.eqb_neq. intros E. apply NE.
      assert (E' : equation C (val p X) (val p Y)) by exact E. apply equation_on in E'. rewrite !mk_val in E'. exact E'.
  Qed.

  Lemma L_C17_valid P : canon q (px P) -> canon q (py P) -> (pinf P = true -> P = pt_inf C) ->
    (isValid dbg live C P = Ok true <-> valid live C P).
  Proof.
    intros Hx Hy HI. split; [|apply valid_isValid]. rewrite L_C17_canonical by assumption. intros E.
    destruct (pinf P) eqn:I; [left; auto|right]. destruct (pcur P) as [c|] eqn:HCr; [|discriminate E].
    destruct (live c) eqn:L; [|discriminate E]. injection E as E. apply Z.eqb_eq in E.
    split; [assumption|]. split; [assumption|]. split; [assumption|]. split; [exists c; split; assumption|exact E].
  Qed.

  (** ** C18 *)
  Lemma L_C18 P Q : valid live C P -> valid live C Q ->
    exists b, peq live C P Q = Ok b /\ (b = true <-> den C P = den C Q).
  Proof.
    intros HP HQ. destruct (valid_inj P HP) as [c [E [HE [L ->]]]]. destruct (valid_inj Q HQ) as [c' [E' [HE' [L' ->]]]].
    rewrite (peq_inj live C HC), !den_inj by assumption. eexists; split; [reflexivity|].
    destruct (ept_dec p E E'); split; congruence.
  Qed.

  Lemma L_C18_coords P Q : valid live C P -> valid live C Q ->
    (den C P = den C Q <-> (pinf P = true /\ pinf Q = true) \/ (pinf P = false /\ pinf Q = false /\ px P = px Q /\ py P = py Q)).
  Proof.
    intros HP HQ. destruct (valid_inj P HP) as [c [E [HE [L ->]]]]. destruct (valid_inj Q HQ) as [c' [E' [HE' [L' ->]]]].
    rewrite !den_inj. destruct E as [[x y]|], E' as [[x' y']|]; cbn [inj pinf px py pt_inf]; split.
    - intros E. injection E as -> ->. right; repeat split.
    - intros [[F _]|(_ & _ & E1 & E2)]; [discriminate F|]. apply (emb_inj C) in E1, E2. subst; reflexivity.
    - discriminate.
    - intros [[F _]|(_ & F & _)]; discriminate F.
    - discriminate.
    - intros [[_ F]|(F & _)]; discriminate F.
    - intros _; left; split; reflexivity.
    - reflexivity.
  Qed.
End Thms.

(** ** Lifetime and reachability *)
Lemma bind_inv {A B} (r : res A) (k : A -> res B) b : bind r k = Ok b -> exists a, r = Ok a /\ k a = Ok b.
Proof. apply bind_Ok. Qed.

Ltac inv_do H := repeat match type of H with bind _ _ = Ok _ => apply bind_inv in H; destruct H as [? [? H]] end.

Section Lifetime.
  Variables (dbg : bool) (live : Z -> bool) (C : cparams).
  Hypothesis HC : good C.
  Notation p := (c_prime C).
  Notation q := (fieldp C).

  Lemma L_C17_release P c : 0 < fmod (px P) -> 0 < fmod (py P) -> pinf P = false -> pcur P = Some c -> live c = true ->
    (isValid false live C P = Ok true <->
     fmod (px P) = p /\ fmod (py P) = p /\ equation C (fval (px P)) (fval (py P))).
  Proof.
    destruct P as [[x mx] [y my] i o]. cbn [px py pinf pcur fmod fval]. intros Mx My -> -> L.
    pose proof (p_pos C HC) as Pp. pose proof (g_fieldp C HC) as Q.
    assert (M : forall u v m, 0 < m -> fe_mul false q (mkfe u m) v = Ok (fe_new q ((u * fval v) mod m))).
    { intros u v m Hm. unfold fe_mul. cbn [assert_ bind fval fmod]. rewrite mpz_mod_pos by assumption. reflexivity. }
    assert (A : forall u v, fe_add false q (fe_new q u) (fe_new q v) = Ok (fe_new q (u + v))).
    { intros u v. rewrite !(emb_new C HC), (emb_add false C HC), mk_add. reflexivity. }
    unfold isValid. cbn [pinf pcur px py fmod]. rewrite deref_live by assumption. cbn [bind].
    unfold rhs. rewrite M by assumption. cbn [bind fval].
    unfold fe_new at 1. rewrite M by (rewrite Q; assumption). cbn [bind fval].
    unfold fe_mulz. cbn [fval fmod]. rewrite mpz_mod_pos by assumption. cbn [bind].
    rewrite A. cbn [bind]. rewrite A. cbn [bind]. rewrite M by assumption. cbn [bind fval].
    assert (MM : forall z, mk p (z mod p) = mk p z) by (intros z; apply mk_eq, Z.mod_mod; lia).
    assert (K : mx = p -> my = p ->
      (fe_eq (fe_new q (((x * x) mod mx) mod q * x mod q + (x * c_a C) mod mx + c_b C)) (fe_new q ((y * y) mod my)) = true <-> equation C x y)).
    { intros -> ->. rewrite !(emb_new C HC), (emb_eq C HC), (equation_on C), Q. unfold ECOrder.eon, on.
      rewrite <- !mk_add, !MM, <- !mk_mul, !MM, <- !mk_mul, (Ring_theory.Rmul_comm (ring_Fp p) (mk p (c_a C))).
      destruct (eqFp p _ _) as [E|NE]; split; congruence. }
    split.
    - intros E. injection E as E. rewrite !andb_true_iff, !Z.eqb_eq in E. destruct E as [[E1 E2] E3]. subst my mx.
      repeat split. apply K; [reflexivity|reflexivity|exact E3].
    - intros (-> & -> & E). rewrite !Z.eqb_refl. cbn [andb]. f_equal. apply K; [reflexivity|reflexivity|exact E].
  Qed.

  Lemma fin_all P : finite_valid all_alive C P -> exists c x y, ECOrder.eon p (c_a C) (c_b C) (Some (x, y)) /\ P = inj C c (Some (x, y)).
  Proof. intros HP. destruct (finite_inj all_alive C HC P HP) as [c [x [y [On [_ ->]]]]]. exists c, x, y. split; [exact On|reflexivity]. Qed.

  Lemma L_C19_add P Q : finite_valid all_alive C P -> finite_valid all_alive C Q ->
    padd dbg live C P Q =
    if (negb dbg || alive live P && alive live Q) && (if fe_eq (px P) (px Q) && fe_eq (py P) (py Q) then alive live P else true)
    then padd dbg all_alive C P Q else Err UseAfterFree.
  Proof.
    intros HP HQ. destruct (fin_all P HP) as [c [x [y [On ->]]]]. destruct (fin_all Q HQ) as [c' [x' [y' [On' ->]]]].
    rewrite (padd_any dbg live C HC), (padd_inj dbg all_alive C HC) by (try assumption; intros _; reflexivity).
    unfold add_needs. cbn [inj alive pcur px py]. rewrite !(emb_eq C HC).
    destruct (ept_dec p (Some (x, y)) (Some (x', y'))) as [E|NE].
    - injection E as -> ->. destruct (eqFp p x' x'); [|contradiction]. destruct (eqFp p y' y'); [|contradiction]. reflexivity.
    - destruct (eqFp p x x') as [->|]; [|reflexivity]. destruct (eqFp p y y') as [->|]; [contradiction|reflexivity].
  Qed.

  Lemma L_C19_double P : finite_valid all_alive C P ->
    pdouble dbg live C P = if alive live P then pdouble dbg all_alive C P else Err UseAfterFree.
  Proof.
    intros HP. destruct (fin_all P HP) as [c [x [y [On ->]]]].
    rewrite !(pdouble_inj dbg _ C HC) by (assumption || discriminate). reflexivity.
  Qed.

  Lemma L_C19_mul P s : finite_valid all_alive C P -> 0 <= fval s ->
    pmul dbg live C P s = if (fval s <=? 1) || alive live P then pmul dbg all_alive C P s else Err UseAfterFree.
  Proof.
    intros HP S. destruct (fin_all P HP) as [c [x [y [On ->]]]]. cbn [inj alive pcur].
    change (mkpoint (emb C x) (emb C y) false (Some c)) with (inj C c (Some (x, y))).
    rewrite (pmul_inj dbg all_alive C HC) by (try assumption; intros _; reflexivity).
    destruct (live c) eqn:L.
    - rewrite orb_true_r, (pmul_inj dbg live C HC) by (try assumption; intros _; exact L). reflexivity.
    - rewrite orb_false_r, (pmul_dead dbg live C HC) by assumption.
      assert (Z.leb 0 (fval s) = true) as -> by (apply Z.leb_le, S). reflexivity.
  Qed.

  Lemma L_C19_eq P Q : finite_valid all_alive C P -> finite_valid all_alive C Q ->
    peq live C P Q = if negb (fe_eq (px P) (px Q) && fe_eq (py P) (py Q)) then Ok false
                     else if alive live P && alive live Q then Ok true else Err UseAfterFree.
  Proof.
    intros HP HQ. destruct (fin_all P HP) as [c [x [y [On ->]]]]. destruct (fin_all Q HQ) as [c' [x' [y' [On' ->]]]].
    rewrite (peq_any live C HC) by assumption. cbn [inj alive pcur px py]. rewrite !(emb_eq C HC).
    destruct (ept_dec p (Some (x, y)) (Some (x', y'))) as [E|NE].
    - injection E as -> ->. destruct (eqFp p x' x'); [|contradiction]. destruct (eqFp p y' y'); [|contradiction]. reflexivity.
    - destruct (eqFp p x x') as [->|]; [|reflexivity]. destruct (eqFp p y y') as [->|]; [contradiction|reflexivity].
  Qed.

  Lemma L_C19_dead P c e x : finite_valid all_alive C P -> alive live P = false -> live c = false -> pcur P = Some c ->
    isValid dbg live C P = Err UseAfterFree /\ evaluateP dbg live C (Some c) x = Err UseAfterFree /\
    evaluatePneg dbg live C (Some c) x = Err UseAfterFree /\ evaluatePy2 dbg live C (Some c) x = Err UseAfterFree /\
    getEncodedX dbg live C P = Err UseAfterFree /\ setEncodedX dbg live C P e = Err UseAfterFree /\
    getDefaultGen live C (Some c) = Err UseAfterFree.
  Proof.
    intros HP A L Hc. unfold isValid, getEncodedX, setEncodedX, evaluateP, evaluatePneg, evaluatePy2, getDefaultGen, deref.
    rewrite Hc. destruct HP as [-> _]. rewrite L. cbn [bind]. destruct (Z.odd e); repeat split.
  Qed.

  Lemma L_C19_null x e P : pcur P = None ->
    evaluateP dbg live C None x = Err NullDeref /\ evaluatePneg dbg live C None x = Err NullDeref /\
    getEncodedX dbg live C P = Err NullDeref /\ setEncodedX dbg live C P e = Err NullDeref.
  Proof.
    intros H. unfold getEncodedX, setEncodedX, evaluateP, evaluatePneg, deref. rewrite H. cbn [bind].
    destruct (Z.odd e); repeat split.
  Qed.

  (** provenance, for arbitrary point objects *)
  Lemma pdouble_cur P R : pdouble dbg live C P = Ok R -> pcur R = pcur P /\ pinf R = false /\ canon q (px R) /\ canon q (py R).
  Proof.
    pose proof (q_pos C HC) as Qp.
    unfold pdouble. intros H. inv_do H. injection H as <-. cbn [pt_fe pcur pinf px py].
    repeat match goal with H : fe_sub _ _ _ _ = Ok _ |- _ => unfold fe_sub in H; inv_do H; injection H as <- end.
    split; [reflexivity|split; [reflexivity|split; apply canon_new, Qp]].
  Qed.

  Lemma padd_out P Q R : padd dbg live C P Q = Ok R ->
    R = P \/ R = Q \/ R = pt_inf C \/ (pcur R = pcur P /\ pinf R = false /\ canon q (px R) /\ canon q (py R)).
  Proof.
    pose proof (q_pos C HC) as Qp.
    unfold padd. destruct (pinf P); [intros H; injection H as <-; auto|]. destruct (pinf Q); [intros H; injection H as <-; auto|].
    intros H. apply bind_inv in H. destruct H as [_ [_ H]].
    destruct (fe_eq (px P) (px Q)).
    - destruct (fe_eq (py P) (py Q)); [apply pdouble_cur in H; auto|injection H as <-; auto].
    - right; right; right. inv_do H. injection H as <-. cbn [pt_fe pcur pinf px py].
      repeat match goal with H : fe_sub _ _ _ _ = Ok _ |- _ => unfold fe_sub in H; inv_do H; injection H as <- end.
      split; [reflexivity|split; [reflexivity|split; apply canon_new, Qp]].
  Qed.

  Lemma L_C19_prov_add P Q R : padd dbg live C P Q = Ok R -> pinf R = false -> pcur R = pcur P \/ pcur R = pcur Q.
  Proof.
    intros H F. destruct (padd_out P Q R H) as [->|[->|[->|[E _]]]]; auto. discriminate F.
  Qed.

  Lemma L_C19_prov_sub P Q R : psub dbg live C P Q = Ok R -> pinf R = false -> pcur R = pcur P.
  Proof.
    unfold psub. intros H F. apply bind_inv in H. destruct H as [_ [_ H]]. apply bind_inv in H. destruct H as [ny [_ H]].
    destruct (L_C19_prov_add _ _ _ H F) as [E|E]; exact E.
  Qed.

  Lemma mulloop_cur bits : forall R P T, mulloop dbg live C bits R P = Ok T -> pinf P = false -> (pinf R = false -> pcur R = pcur P) ->
    pinf T = false -> pcur T = pcur P.
  Proof.
    induction bits as [|b rest IH]; intros R P T H IP IR IT; cbn [mulloop] in H.
    - injection H as <-. auto.
    - apply bind_inv in H. destruct H as [R' [E H]].
      assert (IR' : pinf R' = false -> pcur R' = pcur P).
      { destruct b; [|injection E as <-; exact IR]. intros F. destruct (padd_out R P R' E) as [->|[->|[->|(E' & _)]]].
        - auto.
        - reflexivity.
        - discriminate F.
        - unfold padd in E. destruct (pinf R) eqn:IRR; [injection E as <-; reflexivity|]. rewrite E'. auto. }
      destruct rest as [|b' rest]; [injection H as <-; auto|].
      apply bind_inv in H. destruct H as [P' [D H]]. apply pdouble_cur in D. destruct D as [D1 [D2 _]].
      rewrite <- D1. apply (IH R' P' T H D2); [|exact IT]. intros F. rewrite D1. auto.
  Qed.

  Lemma L_C19_prov_mul P s R : pmul dbg live C P s = Ok R -> pinf R = false -> pcur R = pcur P.
  Proof.
    unfold pmul. destruct (pinf P) eqn:I; [intros H; injection H as <-; reflexivity|].
    intros H F. apply (mulloop_cur _ _ _ _ H I); [|exact F]. intros F'; discriminate F'.
  Qed.

  (** the only infinity any history produces is the default one *)
  Definition wf (P : point) : Prop := canon q (px P) /\ canon q (py P) /\ (pinf P = true -> P = pt_inf C).

  Lemma wf_inf : wf (pt_inf C).
  Proof.
    pose proof (q_pos C HC) as Qp. repeat split; cbn; lia.
  Qed.

  Lemma wf_padd P Q R : wf P -> wf Q -> padd dbg live C P Q = Ok R -> wf R.
  Proof.
    intros WP WQ H. destruct (padd_out P Q R H) as [->|[->|[->|(_ & I & Cx & Cy)]]]; auto using wf_inf.
    split; [exact Cx|split; [exact Cy|]]. rewrite I. discriminate.
  Qed.

  Lemma wf_pdouble P R : pdouble dbg live C P = Ok R -> wf R.
  Proof.
    intros H. apply pdouble_cur in H. destruct H as (_ & I & Cx & Cy).
    split; [exact Cx|split; [exact Cy|]]. rewrite I. discriminate.
  Qed.

  Lemma wf_mulloop bits : forall R P T, wf R -> wf P -> mulloop dbg live C bits R P = Ok T -> wf T.
  Proof.
    induction bits as [|b rest IH]; intros R P T WR WP H; cbn [mulloop] in H.
    - injection H as <-. exact WR.
    - apply bind_inv in H. destruct H as [R' [E H]].
      assert (WR' : wf R') by (destruct b; [apply (wf_padd R P)|injection E as <-]; assumption).
      destruct rest as [|b' rest]; [injection H as <-; exact WR'|].
      apply bind_inv in H. destruct H as [P' [D H]]. apply wf_pdouble in D. apply (IH R' P' T WR' D H).
  Qed.

  Lemma wf_eval c x R : canon q x ->
    evaluateP dbg live C c x = Ok R \/ evaluatePneg dbg live C c x = Ok R -> wf R.
  Proof.
    intros Hx. pose proof (q_pos C HC) as Qp.
    assert (G : forall y (b : bool), wf (if b then pt_fe x (fe_new q y) c else pt_inf C)).
    { intros y [|]; [|apply wf_inf]. split; [exact Hx|split; [apply canon_new, Qp|discriminate]]. }
    unfold evaluateP, evaluatePneg. intros [H|H]; inv_do H; injection H as <-; apply G.
  Qed.

  Lemma L_C17_reachable P : built dbg live C P -> wf P.
  Proof.
    pose proof (q_pos C HC) as Qp.
    induction 1 as [|x y c|x y c Hx Hy|P Q R _ WP _ WQ E|P Q R _ WP _ WQ E|P R _ WP E|P s R _ WP E|c R E|c x R Hx E|c x R Hx E|P e R _ WP E].
    - apply wf_inf.
    - split; [apply canon_new, Qp|split; [apply canon_new, Qp|discriminate]].
    - split; [exact Hx|split; [exact Hy|discriminate]].
    - apply (wf_padd P Q); assumption.
    - unfold psub in E. apply bind_inv in E. destruct E as [_ [_ E]]. apply bind_inv in E. destruct E as [ny [S E]].
      apply (wf_padd P (pt_fe (px Q) ny (pcur P))); [assumption| |assumption].
      unfold fe_sub in S. inv_do S. injection S as <-. destruct WQ as [Cx _].
      split; [exact Cx|split; [apply canon_new, Qp|discriminate]].
    - apply (wf_pdouble P), E.
    - unfold pmul in E. destruct (pinf P); [injection E as <-; exact WP|]. apply (wf_mulloop _ _ _ _ wf_inf WP E).
    - unfold getDefaultGen in E. destruct c as [c|]; [|discriminate E]. destruct (live c); [|discriminate E]. injection E as <-.
      split; [apply canon_new, Qp|split; [apply canon_new, Qp|discriminate]].
    - apply (wf_eval c x); auto.
    - apply (wf_eval c x); auto.
    - unfold setEncodedX in E. destruct (Z.odd e); eapply wf_eval; [|left; exact E| |right; exact E]; apply canon_new, Qp.
  Qed.
End Lifetime.
