(** Proofs of the reductions to the decisional Diffie-Hellman problem. *)
From Coq Require Import ZArith Znumtheory Bool List Lia Field ConstructiveEpsilon.
From Verif Require Import Outcome FieldModel ZpField SpecField FieldProofs ECGroup ECOrder CurveParams CurveFacts EccModel EccProofs SpecEcc EccThms Emb RF DmeModel SpecDme DmeProofs OtModel OtProofs ElgamalModel SpecElgamal ElgamalProofs SpecCount CountMath SpecDdh.
Import ListNotations.
Open Scope Z_scope.

(** ** The group *)
Lemma order_pos : 0 < order.
Proof. rewrite order_eq. apply (FieldProofs.q_pos _ (prime_n CV good_CV)). Qed.
Lemma pow_eq i j : pow i = pow j <-> (order | i - j).
Proof. exact (gk_eq CV good_CV i j). Qed.
Lemma pow_mod i : pow (i mod order) = pow i.
Proof. exact (gk_mod CV good_CV i). Qed.
Lemma pow_add i j : gadd CV (pow i) (pow j) = pow (i + j).
Proof. exact (gk_add CV good_CV i j). Qed.
Lemma pow_neg i : gneg CV (pow i) = pow (- i).
Proof. exact (gk_neg CV good_CV i). Qed.
Lemma pow_mul k i : gmul CV k (pow i) = pow (k * i).
Proof. exact (gk_mul CV good_CV k i). Qed.
Lemma rf_pow live P k : rf live CV P (mk (fieldn CV) k) -> den CV P = pow k.
Proof.
  intros K. rewrite (rf_den live CV P _ K). change (pow (val (fieldn CV) (mk (fieldn CV) k)) = pow k). rewrite val_mk, <- order_eq. apply pow_mod.
Qed.

Lemma log_exists live P : is_valid live P -> exists i : nat, den CV P = pow (Z.of_nat i).
Proof.
  intros V. destruct (val_rf live P V) as [z K]. exists (Z.to_nat (val (fieldn CV) z)). pose proof (val_draw z) as R. unfold draw in R. rewrite Z2Nat.id by lia.
  exact (rf_den live CV P z K).
Qed.
Definition log live P (V : is_valid live P) : {i : nat | den CV P = pow (Z.of_nat i)} :=
  constructive_indefinite_ground_description_nat _ (fun i => ept_dec (c_prime CV) (den CV P) (pow (Z.of_nat i))) (log_exists live P V).

(** ** Draws *)
Lemma draws : how_many draw order.
Proof. pose proof order_pos. pose proof (range_count 0 order ltac:(lia)) as R. rewrite Z.sub_0_r in R. exact R. Qed.
Lemma draw_mod i : draw (i mod order).
Proof. apply Z.mod_pos_bound, order_pos. Qed.
Lemma and_draws {T} (coin : T -> Prop) K : how_many coin K -> how_many (and_draw coin) (K * order).
Proof. intros H. apply (how_many_same (fun x : T * Z => coin (fst x) /\ draw (snd x))); [intros [t w]; reflexivity|]. apply how_many_prod; [exact H|exact draws]. Qed.
Definition and_zero {T} (coin : T -> Prop) : T * Z -> Prop := fun '(t, w) => coin t /\ w = 0.
Lemma and_zeros {T} (coin : T -> Prop) K : how_many coin K -> how_many (and_zero coin) (K * 1).
Proof.
  intros H. apply (how_many_same (fun x : T * Z => coin (fst x) /\ snd x = 0)); [intros [t w]; reflexivity|]. apply (how_many_prod coin (fun w => w = 0)); [exact H|].
  exists [0]. split; [constructor; [intros []|constructor]|]. split; [|reflexivity]. intros z. cbn. intuition.
Qed.

(** the multiples of w, except that 0 is replaced by 1 *)
Definition scale (w a : Z) : Z := if w =? 0 then a else (w * a) mod order.
Definition unscale (w a : Z) : Z := if w =? 0 then a else val (fieldn CV) (fdiv (fieldn CV) (mk (fieldn CV) a) (mk (fieldn CV) w)).

Lemma mk_nz w : draw w -> w <> 0 -> mk (fieldn CV) w <> f0 (fieldn CV).
Proof. intros D N E. apply mk_order_0 in E. apply Z.divide_pos_le in E; unfold draw in D; lia. Qed.
Section Scale.
  Let Hn : prime (fieldn CV) := prime_n CV good_CV.
  Let HF := field_Fp (fieldn CV) Hn.
  Add Field DdhField : HF.
  Lemma scale_un w a : draw w -> draw a -> draw (scale w a) /\ unscale w (scale w a) = a.
  Proof.
    intros W D. unfold scale, unscale. destruct (Z.eqb_spec w 0) as [->|N]; [split; [exact D|reflexivity]|]. split; [apply draw_mod|].
    pose proof (mk_nz w W N) as NZ. transitivity (val (fieldn CV) (mk (fieldn CV) a)); [|apply draw_val, D]. apply f_equal.
    assert (E : mk (fieldn CV) ((w * a) mod order) = fmul (fieldn CV) (mk (fieldn CV) w) (mk (fieldn CV) a)).
    { rewrite mk_mul. apply mk_eq. rewrite order_eq. apply Zmod_mod. }
    rewrite E. field. exact NZ.
  Qed.
  Lemma un_scale w a : draw w -> draw a -> draw (unscale w a) /\ scale w (unscale w a) = a.
  Proof.
    intros W D. unfold scale, unscale. destruct (Z.eqb_spec w 0) as [->|N]; [split; [exact D|reflexivity]|]. split; [apply val_draw|].
    pose proof (mk_nz w W N) as NZ. rewrite <- (draw_val a D) at 2. rewrite order_eq.
    transitivity (val (fieldn CV) (fmul (fieldn CV) (mk (fieldn CV) w) (fdiv (fieldn CV) (mk (fieldn CV) a) (mk (fieldn CV) w)))).
    - rewrite <- (mk_val (fieldn CV) (fdiv (fieldn CV) (mk (fieldn CV) a) (mk (fieldn CV) w))) at 2. rewrite mk_mul, val_mk. reflexivity.
    - apply f_equal. field. exact NZ.
  Qed.
End Scale.
Lemma pow_scale w a : w <> 0 -> pow (scale w a) = pow (w * a).
Proof. intros N. unfold scale. rewrite (proj2 (Z.eqb_neq w 0) N). apply pow_mod. Qed.
Lemma pow_scale2 w a b : w <> 0 -> pow (scale w a * b) = pow (w * a * b).
Proof. intros N. rewrite (Z.mul_comm _ b), <- pow_mul, (pow_scale w a N), pow_mul. f_equal. ring. Qed.
Lemma pow_scale2' w a b : w <> 0 -> pow (b * scale w a) = pow (b * (w * a)).
Proof. intros N. rewrite <- pow_mul, (pow_scale w a N), pow_mul. reflexivity. Qed.

Ltac split_all := repeat match goal with H : _ /\ _ |- _ => destruct H | |- _ /\ _ => split end.

(** ** ElGamal *)
Section Elgamal.
  Variables (dbg : bool) (live : Z -> bool) (E : elgamal).
  Hypothesis OK : elgamal_ok live E.
  Context {T : Type} (coin : T -> Prop) (K : Z).
  Hypothesis COIN : how_many coin K.

  Lemma eg_view k r P : is_valid live P -> exists pk c, pmulz dbg live CV (egen E) k = Ok pk /\ eg_encrypt dbg live E pk P r = Ok c /\
    den CV pk = pow k /\ den CV (cu c) = pow r /\ den CV (cmv c) = gadd CV (pow (k * r)) (den CV P).
  Proof.
    intros V. destruct OK as [_ [a [EG La]]].
    destruct (pmulz_rf dbg live CV good_CV (gen CV a) _ k (rf_gen live CV good_CV a La)) as [pk [EP KP]]. rewrite <- EG in EP.
    assert (KP' : rf live CV pk (mk (fieldn CV) k)) by (apply (rf_cong live CV _ _ _ KP); change (f1 (fieldn CV)) with (mk (fieldn CV) 1); rewrite mk_mul; f_equal; ring).
    destruct (val_rf live P V) as [z KZ]. destruct (encrypt_rf dbg live E pk P r _ z OK KP' KZ) as [c [EC [U W]]].
    exists pk, c. split; [exact EP|]. split; [exact EC|]. split; [exact (rf_pow live pk k KP')|]. split; [exact (rf_pow live _ r U)|].
    rewrite (rf_den live CV P z KZ). change (gmul CV (val (fieldn CV) z) (ggen CV)) with (pow (val (fieldn CV) z)). rewrite pow_add. apply (rf_pow live).
    apply (rf_cong live CV _ _ _ W). rewrite <- mk_add, <- mk_mul, mk_val. f_equal. rewrite !mk_mul. f_equal. ring.
  Qed.

  Lemma eg_bool M A N : (forall t X, is_valid live (M t X)) -> (eg_guess dbg live E coin M A N <-> ddh_real coin (with_message M A) N).
  Proof.
    intros V. unfold eg_guess, ddh_real. assert (H : forall z : T * Z * Z,
      (let '(t, k, r) := z in coin t /\ draw k /\ draw r /\ exists pk c, pmulz dbg live CV (egen E) k = Ok pk /\ eg_encrypt dbg live E pk (M t (den CV pk)) r = Ok c /\
        A t (den CV pk) (den CV (cu c)) (den CV (cmv c)) = true) <->
      (let '(t, a, b) := z in coin t /\ draw a /\ draw b /\ with_message M A t (pow a) (pow b) (pow (a * b)) = true)).
    { intros [[t k] r]. unfold with_message. split.
      - intros [C [Dk [Dr [pk [c [EP [EC EA]]]]]]]. split; [exact C|]. split; [exact Dk|]. split; [exact Dr|].
        destruct (eg_view k r (M t (den CV pk)) (V t _)) as [pk' [c' [EP' [EC' [V1 [V2 V3]]]]]]. rewrite EP in EP'. apply Ok_inj in EP'. subst pk'.
        rewrite EC in EC'. apply Ok_inj in EC'. subst c'. rewrite V2, V3, V1 in EA. exact EA.
      - intros [C [Dk [Dr EA]]]. split; [exact C|]. split; [exact Dk|]. split; [exact Dr|].
        destruct (eg_view k r (M t (pow k)) (V t _)) as [pk [c [EP [EC [V1 [V2 V3]]]]]]. exists pk, c. split; [exact EP|]. rewrite V1. split; [exact EC|]. rewrite V2, V3. exact EA. }
    split; apply how_many_same; intros z; [|symmetry]; apply H.
  Qed.

  (** the message is lost when the third element is random *)
  Lemma shift_random M A N : (forall t X, is_valid live (M t X)) -> (ddh_random coin (with_message M A) N <-> ddh_random coin A N).
  Proof.
    intros V. pose proof order_pos as OP.
    set (m := fun t a => Z.of_nat (proj1_sig (log live (M t (pow a)) (V t (pow a))))).
    assert (HM : forall t a c, gadd CV (pow c) (den CV (M t (pow a))) = pow (c + m t a)).
    { intros t a c. unfold m. destruct (log live (M t (pow a)) (V t (pow a))) as [i EI]. cbn [proj1_sig]. rewrite EI. apply pow_add. }
    assert (F : forall c x, draw c -> ((c + x) mod order - x) mod order = c) by (intros c x D; rewrite Zminus_mod_idemp_l; replace (c + x - x) with c by ring; apply Z.mod_small; exact D).
    assert (G : forall c x, draw c -> ((c - x) mod order + x) mod order = c) by (intros c x D; rewrite Zplus_mod_idemp_l; replace (c - x + x) with c by ring; apply Z.mod_small; exact D).
    set (f := fun z : T * Z * Z * Z => let '(t, a, b, c) := z in (t, a, b, (c + m t a) mod order)).
    set (g := fun z : T * Z * Z * Z => let '(t, a, b, c) := z in (t, a, b, (c - m t a) mod order)).
    set (P := fun '(t, a, b, c) => coin t /\ draw a /\ draw b /\ draw c /\ with_message M A t (pow a) (pow b) (pow c) = true).
    set (Q := fun '(t, a, b, c) => coin t /\ draw a /\ draw b /\ draw c /\ A t (pow a) (pow b) (pow c) = true).
    assert (PQ : forall x, P x -> Q (f x) /\ g (f x) = x).
    { intros [[[t a] b] c] [C [Da [Db [Dc ED]]]]. unfold with_message in ED. rewrite HM in ED. cbn [f g]. split.
      - split; [exact C|]. split; [exact Da|]. split; [exact Db|]. split; [apply draw_mod|]. rewrite pow_mod. exact ED.
      - rewrite (F c _ Dc). reflexivity. }
    assert (QP : forall x, Q x -> P (g x) /\ f (g x) = x).
    { intros [[[t a] b] c] [C [Da [Db [Dc ED]]]]. cbn [f g]. split.
      - split; [exact C|]. split; [exact Da|]. split; [exact Db|]. split; [apply draw_mod|]. unfold with_message. rewrite HM.
        rewrite <- (pow_mod ((c - m t a) mod order + m t a)), (G c _ Dc). exact ED.
      - rewrite (G c _ Dc). reflexivity. }
    split; intros H; [exact (how_many_bij f g P Q N H PQ QP)|exact (how_many_bij g f Q P N H QP PQ)].
  Qed.

  (** counts exist *)
  Lemma real_exists D : exists N, ddh_real coin D N.
  Proof.
    destruct (how_many_filter _ _ (fun z : T * Z * Z => let '(t, a, b) := z in D t (pow a) (pow b) (pow (a * b))) (and_draws _ _ (and_draws _ _ COIN))) as [N H].
    exists N. refine (how_many_same _ _ _ _ H). intros [[t a] b]. cbn. tauto.
  Qed.
  Lemma random_exists D : exists N, ddh_random coin D N.
  Proof.
    destruct (how_many_filter _ _ (fun z : T * Z * Z * Z => let '(t, a, b, c) := z in D t (pow a) (pow b) (pow c)) (and_draws _ _ (and_draws _ _ (and_draws _ _ COIN)))) as [N H].
    exists N. refine (how_many_same _ _ _ _ H). intros [[[t a] b] c]. cbn. tauto.
  Qed.
  Lemma gap_exists D : exists g, ddh_gap coin D g.
  Proof. destruct (real_exists D) as [R HR], (random_exists D) as [S HS]. exists (order * R - S), R, S. split; [exact HR|]. split; [exact HS|reflexivity]. Qed.

  Lemma L_C105_cpa M0 M1 A : (forall t X, is_valid live (M0 t X)) -> (forall t X, is_valid live (M1 t X)) ->
    exists N0 N1 g0 g1, eg_guess dbg live E coin M0 A N0 /\ eg_guess dbg live E coin M1 A N1 /\
      ddh_gap coin (with_message M0 A) g0 /\ ddh_gap coin (with_message M1 A) g1 /\ order * (N0 - N1) = g0 - g1.
  Proof.
    intros V0 V1. destruct (real_exists (with_message M0 A)) as [N0 H0], (real_exists (with_message M1 A)) as [N1 H1]. destruct (random_exists A) as [S HS].
    exists N0, N1, (order * N0 - S), (order * N1 - S). split; [apply eg_bool; assumption|]. split; [apply eg_bool; assumption|].
    split; [exists N0, S; split; [exact H0|]; split; [apply shift_random; assumption|reflexivity]|].
    split; [exists N1, S; split; [exact H1|]; split; [apply shift_random; assumption|reflexivity]|]. ring.
  Qed.

  Lemma eg_random_bool A N : eg_guess_random dbg live E coin A N <-> ddh_random coin A N.
  Proof.
    assert (OK' := OK). destruct OK' as [LE _].
    assert (H : eg_guess_random dbg live E coin A N <->
      how_many (fun '(t, k, r, z) => coin t /\ draw k /\ draw r /\ draw z /\ A t (pow k) (pow r) (pow (z + k * r)) = true) N).
    { unfold eg_guess_random. assert (X : forall z : T * Z * Z * Z,
        (let '(t, k, r, z) := z in coin t /\ draw k /\ draw r /\ draw z /\
          exists pk P c, pmulz dbg live CV (egen E) k = Ok pk /\ getRandomPoint dbg live CV (Some (eaddr E)) z = Ok P /\
            eg_encrypt dbg live E pk P r = Ok c /\ A t (den CV pk) (den CV (cu c)) (den CV (cmv c)) = true) <->
        (let '(t, k, r, z) := z in coin t /\ draw k /\ draw r /\ draw z /\ A t (pow k) (pow r) (pow (z + k * r)) = true)).
      { intros [[[t k] r] z]. destruct (getRandomPoint_rf dbg live CV good_CV (eaddr E) z LE) as [P [EP KP]].
        destruct (eg_view k r P (rf_val live P _ KP)) as [pk [c [E1 [E2 [V1 [V2 V3]]]]]]. rewrite (rf_pow live P z KP), pow_add in V3. replace (k * r + z) with (z + k * r) in V3 by ring. split.
        - intros [C [Dk [Dr [Dz [pk' [P' [c' [E1' [EP' [E2' EA]]]]]]]]]]. rewrite E1 in E1'. apply Ok_inj in E1'. subst pk'. rewrite EP in EP'. apply Ok_inj in EP'. subst P'.
          rewrite E2 in E2'. apply Ok_inj in E2'. subst c'. rewrite V1, V2, V3 in EA. split_all; assumption.
        - intros [C [Dk [Dr [Dz EA]]]]. split; [exact C|]. split; [exact Dk|]. split; [exact Dr|]. split; [exact Dz|]. exists pk, P, c.
          split; [exact E1|]. split; [exact EP|]. split; [exact E2|]. rewrite V1, V2, V3. exact EA. }
      split; apply how_many_same; intros z; [|symmetry]; apply X. }
    rewrite H. clear H. unfold ddh_random.
    assert (F : forall c x, draw c -> ((c + x) mod order - x) mod order = c) by (intros c x D; rewrite Zminus_mod_idemp_l; replace (c + x - x) with c by ring; apply Z.mod_small; exact D).
    assert (G : forall c x, draw c -> ((c - x) mod order + x) mod order = c) by (intros c x D; rewrite Zplus_mod_idemp_l; replace (c - x + x) with c by ring; apply Z.mod_small; exact D).
    set (f := fun z : T * Z * Z * Z => let '(t, a, b, c) := z in (t, a, b, (c + a * b) mod order)).
    set (g := fun z : T * Z * Z * Z => let '(t, a, b, c) := z in (t, a, b, (c - a * b) mod order)).
    set (P := fun '(t, k, r, z) => coin t /\ draw k /\ draw r /\ draw z /\ A t (pow k) (pow r) (pow (z + k * r)) = true).
    set (Q := fun '(t, a, b, c) => coin t /\ draw a /\ draw b /\ draw c /\ A t (pow a) (pow b) (pow c) = true).
    assert (PQ : forall x, P x -> Q (f x) /\ g (f x) = x).
    { intros [[[t a] b] c] [C [Da [Db [Dc ED]]]]. cbn [f g]. split.
      - split; [exact C|]. split; [exact Da|]. split; [exact Db|]. split; [apply draw_mod|]. rewrite pow_mod. exact ED.
      - rewrite (F c _ Dc). reflexivity. }
    assert (QP : forall x, Q x -> P (g x) /\ f (g x) = x).
    { intros [[[t a] b] c] [C [Da [Db [Dc ED]]]]. cbn [f g]. split.
      - split; [exact C|]. split; [exact Da|]. split; [exact Db|]. split; [apply draw_mod|].
        rewrite <- (pow_mod ((c - a * b) mod order + a * b)), (G c _ Dc). exact ED.
      - rewrite (G c _ Dc). reflexivity. }
    split; intros H; [exact (how_many_bij f g P Q N H PQ QP)|exact (how_many_bij g f Q P N H QP PQ)].
  Qed.

  Lemma L_C105_random M A : (forall t X, is_valid live (M t X)) ->
    exists N R g, eg_guess dbg live E coin M A N /\ eg_guess_random dbg live E coin A R /\ ddh_gap coin (with_message M A) g /\ order * N - R = g.
  Proof.
    intros V. destruct (real_exists (with_message M A)) as [N H]. destruct (random_exists A) as [S HS]. exists N, S, (order * N - S).
    split; [apply eg_bool; assumption|]. split; [apply eg_random_bool; exact HS|]. split; [|reflexivity]. exists N, S. split; [exact H|]. split; [|reflexivity].
    apply shift_random; assumption.
  Qed.
  Lemma gap_ext D D' g : (forall t a b c, D t (pow a) (pow b) (pow c) = D' t (pow a) (pow b) (pow c)) -> ddh_gap coin D g -> ddh_gap coin D' g.
  Proof.
    intros H [R [S [HR [HS ->]]]]. exists R, S. split; [|split; [|reflexivity]].
    - refine (how_many_same _ _ _ _ HR). intros [[t a] b]. rewrite H. reflexivity.
    - refine (how_many_same _ _ _ _ HS). intros [[[t a] b] c]. rewrite H. reflexivity.
  Qed.
  Lemma L_C105_converse M D : (forall t X, is_valid live (M t X)) ->
    exists N R g, eg_guess dbg live E coin M (less_message M D) N /\ eg_guess_random dbg live E coin (less_message M D) R /\ ddh_gap coin D g /\ order * N - R = g.
  Proof.
    intros V. destruct (L_C105_random M (less_message M D) V) as [N [R [g [H1 [H2 [H3 H4]]]]]]. exists N, R, g. split; [exact H1|]. split; [exact H2|]. split; [|exact H4].
    refine (gap_ext _ _ g _ H3). intros t a b c. unfold with_message, less_message. destruct (log live (M t (pow a)) (V t (pow a))) as [i ->].
    rewrite pow_add, pow_neg, pow_add. do 2 f_equal. ring.
  Qed.
End Elgamal.
