(** Points as multiples of the generator with coefficient in the scalar field: every valid point is [z * G] for
    exactly one residue [z], and the operators act on [z].  Protocol proofs work on these residues. *)
From Coq Require Import ZArith Znumtheory Bool List Lia Field.
From Verif Require Import Outcome FieldModel ZpField SpecField FieldProofs ECGroup ECOrder CurveParams CurveFacts EccModel EccProofs SpecEcc EccThms Emb.
Import ListNotations.
Open Scope Z_scope.

Section RF.
  Variables (dbg : bool) (live : Z -> bool) (C : cparams).
  Hypothesis HC : good C.
  Notation n := (fieldn C).
  Notation F := (Fp n).

  Lemma n_eq : n = c_order C.
  Proof. apply (g_fieldn C HC). Qed.
  Lemma prime_n : prime n.
  Proof. rewrite n_eq. apply (n_prime C HC). Qed.
  Let Hn := prime_n.
  Let HF := field_Fp n Hn.
  Add Field RFField : HF.

  Definition rf (P : point) (z : F) : Prop := rk live C P (val n z).

  Lemma mkn_eq a b : mk n a = mk n b <-> (c_order C | a - b).
  Proof.
    rewrite <- n_eq. pose proof (FieldProofs.q_pos n Hn). split; intros H0.
    - apply mk_eq_inv in H0. apply Z.mod_divide; [lia|]. rewrite Zminus_mod, H0, Z.sub_diag, Z.mod_0_l by lia. reflexivity.
    - apply mk_eq. destruct H0 as [m H0]. replace a with (b + m * n) by lia. apply Z_mod_plus_full.
  Qed.

  Lemma rk_rf P k : rk live C P k -> rf P (mk n k).
  Proof. unfold rf. intros H; apply (rk_eqk live C HC _ _ _ H); apply mkn_eq. rewrite mk_val. reflexivity. Qed.

  Lemma rf_cong P x y : rf P x -> x = y -> rf P y.
  Proof. intros H <-. exact H. Qed.

  Lemma valid_rf P : valid live C P <-> exists z, rf P z.
  Proof.
    split.
    - intros V. destruct (valid_rk live C HC P V) as [k [_ K]]. exists (mk n k). apply rk_rf, K.
    - intros [z K]. apply (rk_valid live C HC P _ K).
  Qed.

  Lemma rf_fun P x y : rf P x -> rf P y -> x = y.
  Proof.
    intros A B. pose proof (rk_fun live C HC P _ _ A B) as D. apply mkn_eq in D. rewrite !mk_val in D. exact D.
  Qed.

  Lemma rf_den P z : rf P z -> den C P = gmul C (val n z) (ggen C).
  Proof. apply rk_den. Qed.

  Lemma rf_den_eq P Q x y : rf P x -> rf Q y -> (den C P = den C Q <-> x = y).
  Proof.
    intros A B. split; intros E.
    - rewrite (rf_den P x A), (rf_den Q y B) in E. apply (gk_eq C HC) in E. apply mkn_eq in E. rewrite !mk_val in E. exact E.
    - subst y. rewrite (rf_den P x A), (rf_den Q x B). reflexivity.
  Qed.

  Lemma div_n_0 z : (c_order C | val n z) <-> z = f0 n.
  Proof.
    rewrite <- n_eq. rewrite <- (mk_0_iff n Hn). rewrite mk_val. reflexivity.
  Qed.

  Lemma rf_pinf P z : rf P z -> (pinf P = true <-> z = f0 n).
  Proof. intros H. rewrite (rk_pinf live C HC P _ H). apply div_n_0. Qed.
  Lemma rf_pinf_false P z : rf P z -> (pinf P = false <-> z <> f0 n).
  Proof. intros H. rewrite <- (rf_pinf P z H). destruct (pinf P); split; congruence. Qed.

  Lemma rf_inf : rf (pt_inf C) (f0 n).
  Proof. apply rk_rf. exists 0. split; [|reflexivity]. intros N. exfalso. apply N. reflexivity. Qed.
  Lemma rf_zero P : rf P (f0 n) -> P = pt_inf C.
  Proof.
    intros [c [_ ->]]. assert (E : gk C (val n (f0 n)) = None) by (apply (gk_None C HC), div_n_0; reflexivity). rewrite E. reflexivity.
  Qed.
  Lemma rf_finite P z : rf P z -> z <> f0 n -> finite_valid live C P.
  Proof.
    intros H N. destruct (proj2 (valid_rf P) (ex_intro _ z H)) as [->|V]; [|exact V].
    exfalso. apply N. apply (rf_fun _ _ _ H rf_inf).
  Qed.
  Lemma finite_rf P : finite_valid live C P -> exists z, rf P z /\ z <> f0 n.
  Proof.
    intros V. destruct (proj1 (valid_rf P) (or_intror V)) as [z H]. exists z. split; [exact H|].
    apply (rf_pinf_false P z H). apply V.
  Qed.

  Lemma rf_gen c : live c = true -> rf (gen C c) (f1 n).
  Proof. intros L. apply rk_rf. apply (rk_gen live C HC c L). Qed.

  Lemma padd_rf P Q x y : rf P x -> rf Q y -> exists R, padd dbg live C P Q = Ok R /\ rf R (fadd n x y).
  Proof.
    intros A B. destruct (padd_rk dbg live C HC P Q _ _ A B) as [R [E K]]. exists R; split; [exact E|].
    apply rk_rf in K. rewrite <- mk_add, !mk_val in K. exact K.
  Qed.
  Lemma psub_rf P Q x y : rf P x -> rf Q y -> x <> f0 n -> y <> f0 n ->
    exists R, psub dbg live C P Q = Ok R /\ rf R (fsub n x y).
  Proof.
    intros A B Nx Ny. destruct (psub_rk dbg live C HC P Q _ _ A B) as [R [E K]]; try (rewrite div_n_0; assumption).
    exists R; split; [exact E|]. apply rk_rf in K. rewrite <- mk_sub, !mk_val in K. exact K.
  Qed.
  Lemma pmul_rf P x s : rf P x -> exists R, pmul dbg live C P (em n s) = Ok R /\ rf R (fmul n s x).
  Proof.
    intros A. destruct (pmul_rk dbg live C HC P _ (em n s) A) as [R [E K]].
    { cbn. apply (val_range n Hn). }
    exists R; split; [exact E|]. apply rk_rf in K. rewrite <- mk_mul in K. cbn [em fval] in K. rewrite !mk_val in K. exact K.
  Qed.
  Lemma pmulz_rf P x a : rf P x -> exists R, pmulz dbg live C P a = Ok R /\ rf R (fmul n (mk n a) x).
  Proof. intros A. unfold pmulz. rewrite em_new. apply pmul_rf. exact A. Qed.
  Lemma peq_rf P Q x y : rf P x -> rf Q y -> exists b, peq live C P Q = Ok b /\ (b = true <-> x = y).
  Proof.
    intros A B. destruct (peq_rk live C HC P Q _ _ A B) as [b [E K]]. exists b; split; [exact E|].
    rewrite K. rewrite <- mkn_eq, !mk_val. reflexivity.
  Qed.
  Lemma isValid_rf P x : rf P x -> isValid dbg live C P = Ok true.
  Proof. apply (isValid_rk dbg live C HC). Qed.

  Lemma rf_yields r E P z : r = Ok P -> rf P z -> gmul C (val n z) (ggen C) = E -> yields live C r E.
  Proof.
    intros -> H <-. exists P. split; [reflexivity|]. split; [apply valid_rf; exists z; exact H|apply rf_den; exact H].
  Qed.

  Lemma getRandomPoint_rf c d : live c = true -> exists R, getRandomPoint dbg live C (Some c) d = Ok R /\ rf R (mk n d).
  Proof.
    intros L. unfold getRandomPoint, getDefaultGen. rewrite L. cbn [bind].
    destruct (pmulz_rf _ _ d (rf_gen c L)) as [R [E K]]. exists R; split; [exact E|].
    apply (rf_cong _ _ _ K). ring.
  Qed.
  Lemma getRandomScalar_em c d : live c = true -> getRandomScalar live C (Some c) d = Ok (em n (mk n d)).
  Proof. intros L. unfold getRandomScalar, deref. rewrite L. reflexivity. Qed.
End RF.
