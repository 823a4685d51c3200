(** Proofs of the reductions to the decisional Diffie-Hellman problem: common reference strings and public keys. *)
From Coq Require Import ZArith Znumtheory Bool List Lia Field.
From Verif Require Import Outcome FieldModel ZpField SpecField FieldProofs ECGroup ECOrder CurveParams CurveFacts EccModel EccProofs SpecEcc EccThms Emb RF DmeModel SpecDme DmeProofs OtModel OtProofs SpecCount CountMath SpecDdh DdhProofs.
Import ListNotations.
Open Scope Z_scope.

Ltac conj := repeat match goal with H : _ /\ _ |- _ => destruct H | |- _ /\ _ => split end.

Lemma how_many_le_sum {A} (P Q R : A -> Prop) n m k : how_many P n -> how_many Q m -> how_many R k -> (forall z, P z -> Q z \/ R z) -> n <= m + k.
Proof.
  intros [l [L [I <-]]] [l' [_ [I' <-]]] [l'' [_ [I'' <-]]] H. rewrite <- Nat2Z.inj_add, <- app_length. apply Nat2Z.inj_le, NoDup_incl_length; [exact L|].
  intros z J. apply in_app_iff. rewrite I', I''. apply H, I, J.
Qed.

Section Crs.
  Variables (dbg : bool) (live : Z -> bool) (c : Z).
  Hypothesis LC : live c = true.
  Context {T : Type} (coin : T -> Prop) (K : Z).
  Hypothesis COIN : how_many coin K.
  Notation d1 := (and_draw coin).
  Notation d2 := (and_draw d1).
  Notation d3 := (and_draw d2).
  Notation d4 := (and_draw d3).
  Lemma K_pos : 0 <= K. Proof. exact (how_many_nonneg _ _ COIN). Qed.

  Lemma drf_den D c0 a0 a1 b0 b1 : drf live D c0 (mk (fieldn CV) a0) (mk (fieldn CV) a1) (mk (fieldn CV) b0) (mk (fieldn CV) b1) ->
    den CV (g0 (dcrs D)) = pow a0 /\ den CV (g1 (dcrs D)) = pow a1 /\ den CV (h0 (dcrs D)) = pow b0 /\ den CV (h1 (dcrs D)) = pow b1.
  Proof. intros [_ _ A B A' B']. conj; apply (rf_pow live); assumption. Qed.

  Lemma messy_view r1 r2 r3 r4 : exists D, dme_new dbg live c messy r1 r2 r3 r4 = Ok D /\
    drf live D c (mk (fieldn CV) r3) (mk (fieldn CV) r4) (mk (fieldn CV) (r1 * r3)) (mk (fieldn CV) (r2 * r4)).
  Proof.
    destruct (new_messy_rf dbg live c r1 r2 r3 r4 LC) as [D [E [_ [_ H]]]]. exists D. split; [exact E|]. rewrite <- !mk_mul. exact H.
  Qed.
  Lemma dec_view r1 r2 r3 : exists D, dme_new dbg live c dec r1 r2 r3 0 = Ok D /\
    drf live D c (mk (fieldn CV) r2) (mk (fieldn CV) (r1 * r2)) (mk (fieldn CV) (r3 * r2)) (mk (fieldn CV) (r3 * (r1 * r2))).
  Proof.
    destruct (new_dec_rf dbg live c r1 r2 r3 0 LC) as [D [E [_ H]]]. exists D. split; [exact E|]. rewrite <- !mk_mul. exact H.
  Qed.

  Lemma messy_bool A N : messy_guess dbg live c coin A N <->
    how_many (fun '(t, r1, r2, r3, r4) => (coin t /\ draw r1 /\ draw r2 /\ draw r3 /\ draw r4) /\ A t (pow r3) (pow r4) (pow (r1 * r3)) (pow (r2 * r4)) = true) N.
  Proof.
    assert (X : forall z : T * Z * Z * Z * Z,
      (let '(t, r1, r2, r3, r4) := z in coin t /\ draw r1 /\ draw r2 /\ draw r3 /\ draw r4 /\ exists D, dme_new dbg live c messy r1 r2 r3 r4 = Ok D /\ on_crs (dcrs D) (A t) = true) <->
      (let '(t, r1, r2, r3, r4) := z in (coin t /\ draw r1 /\ draw r2 /\ draw r3 /\ draw r4) /\ A t (pow r3) (pow r4) (pow (r1 * r3)) (pow (r2 * r4)) = true)).
    { intros [[[[t r1] r2] r3] r4]. destruct (messy_view r1 r2 r3 r4) as [D [E H]]. destruct (drf_den _ _ _ _ _ _ H) as [V1 [V2 [V3 V4]]]. split.
      - intros [C [D1 [D2 [D3 [D4 [D' [E' EA]]]]]]]. rewrite E in E'. apply Ok_inj in E'. subst D'. unfold on_crs in EA. rewrite V1, V2, V3, V4 in EA. tauto.
      - intros [[C [D1 [D2 [D3 D4]]]] EA]. split; [exact C|]. split; [exact D1|]. split; [exact D2|]. split; [exact D3|]. split; [exact D4|]. exists D. split; [exact E|].
        unfold on_crs. rewrite V1, V2, V3, V4. exact EA. }
    unfold messy_guess. split; apply how_many_same; intros z; [|symmetry]; apply X.
  Qed.
  Lemma dec_bool A N : dec_guess dbg live c coin A N <->
    how_many (fun '(t, r1, r2, r3) => (coin t /\ draw r1 /\ draw r2 /\ draw r3) /\ A t (pow r2) (pow (r1 * r2)) (pow (r3 * r2)) (pow (r3 * (r1 * r2))) = true) N.
  Proof.
    assert (X : forall z : T * Z * Z * Z,
      (let '(t, r1, r2, r3) := z in coin t /\ draw r1 /\ draw r2 /\ draw r3 /\ exists D, dme_new dbg live c dec r1 r2 r3 0 = Ok D /\ on_crs (dcrs D) (A t) = true) <->
      (let '(t, r1, r2, r3) := z in (coin t /\ draw r1 /\ draw r2 /\ draw r3) /\ A t (pow r2) (pow (r1 * r2)) (pow (r3 * r2)) (pow (r3 * (r1 * r2))) = true)).
    { intros [[[t r1] r2] r3]. destruct (dec_view r1 r2 r3) as [D [E H]]. destruct (drf_den _ _ _ _ _ _ H) as [V1 [V2 [V3 V4]]]. split.
      - intros [C [D1 [D2 [D3 [D' [E' EA]]]]]]. rewrite E in E'. apply Ok_inj in E'. subst D'. unfold on_crs in EA. rewrite V1, V2, V3, V4 in EA. tauto.
      - intros [[C [D1 [D2 D3]]] EA]. split; [exact C|]. split; [exact D1|]. split; [exact D2|]. split; [exact D3|]. exists D. split; [exact E|].
        unfold on_crs. rewrite V1, V2, V3, V4. exact EA. }
    unfold dec_guess. split; apply how_many_same; intros z; [|symmetry]; apply X.
  Qed.

  Lemma L_C106_crs A : exists Nd Nm g, dec_guess dbg live c coin A Nd /\ messy_guess dbg live c coin A Nm /\
    ddh_gap d1 (blown A) g /\ Z.abs (order * Nd - Nm - g) <= K * (2 * order ^ 3).
  Proof.
    pose proof (and_draws _ _ COIN) as C1. pose proof (and_draws _ _ C1) as C2. pose proof (and_draws _ _ C2) as C3. pose proof (and_draws _ _ C3) as C4.
    destruct (real_exists d1 _ C1 (blown A)) as [R HR]. destruct (random_exists d1 _ C1 (blown A)) as [S HS].
    assert (HD : dec_guess dbg live c coin A R).
    { apply dec_bool. refine (how_many_bij (fun z : T * Z * Z * Z => let '(t, w, a, b) := z in (t, a, w, b)) (fun z : T * Z * Z * Z => let '(t, a, w, b) := z in (t, w, a, b)) _ _ _ HR _ _).
      - intros [[[t w] a] b] [[C W] [Da [Db E]]]. split; [|reflexivity]. split; [tauto|]. cbn [blown] in E. rewrite !pow_mul in E.
        rewrite (Z.mul_comm a w), (Z.mul_comm b w). replace (b * (w * a)) with (w * (a * b)) by ring. exact E.
      - intros [[[t a] w] b] [[C [Da [W Db]]] E]. split; [|reflexivity]. split; [split; assumption|]. split; [exact Da|]. split; [exact Db|]. cbn [blown]. rewrite !pow_mul.
        rewrite (Z.mul_comm a w), (Z.mul_comm b w) in E. replace (b * (w * a)) with (w * (a * b)) in E by ring. exact E. }
    set (f := fun z : T * Z * Z * Z * Z => let '(t, w, a, b, e) := z in A t (pow w) (pow (scale w a)) (pow (b * w)) (pow (e * scale w a))).
    set (h := fun z : T * Z * Z * Z * Z => let '(t, w, a, b, e) := z in A t (pow w) (pow (w * a)) (pow (w * b)) (pow (w * scale a e))).
    destruct (how_many_filter _ _ f C4) as [M HM]. destruct (how_many_filter _ _ h C4) as [S' HS'].
    assert (S = S').
    { apply (how_many_unique _ _ _ HS). refine (how_many_bij (fun z : T * Z * Z * Z * Z => let '(t, w, a, b, e) := z in (t, w, a, b, scale a e))
        (fun z : T * Z * Z * Z * Z => let '(t, w, a, b, e) := z in (t, w, a, b, unscale a e)) _ _ _ HS' _ _).
      - intros [[[[t w] a] b] e] [[[[[C W] Da] Db] De] E]. destruct (scale_un a e Da De) as [X Y]. split; [|rewrite Y; reflexivity].
        split; [split; assumption|]. split; [exact Da|]. split; [exact Db|]. split; [exact X|]. cbn [blown]. rewrite !pow_mul. exact E.
      - intros [[[[t w] a] b] e] [[C W] [Da [Db [De E]]]]. destruct (un_scale a e Da De) as [X Y]. split; [|rewrite Y; reflexivity].
        split; [cbn; tauto|]. cbn [h]. rewrite Y. cbn [blown] in E. rewrite !pow_mul in E. exact E. }
    subst S'.
    assert (HM' : messy_guess dbg live c coin A M).
    { apply messy_bool. refine (how_many_bij (fun z : T * Z * Z * Z * Z => let '(t, w, a, b, e) := z in (t, b, e, w, scale w a))
        (fun z : T * Z * Z * Z * Z => let '(t, b, e, w, r) := z in (t, w, unscale w r, b, e)) _ _ _ HM _ _).
      - intros [[[[t w] a] b] e] [[[[[C W] Da] Db] De] E]. destruct (scale_un w a W Da) as [X Y]. split; [|rewrite Y; reflexivity].
        split; [tauto|]. exact E.
      - intros [[[[t b] e] w] r] [[C [Db [De [W Dr]]]] E]. destruct (un_scale w r W Dr) as [X Y]. split; [|rewrite Y; reflexivity].
        split; [cbn; tauto|]. cbn [f]. rewrite Y. exact E. }
    exists R, M, (order * R - S). split; [exact HD|]. split; [exact HM'|]. split; [exists R, S; split; [exact HR|]; split; [exact HS|reflexivity]|].
    set (bad := fun z : T * Z * Z * Z * Z => let '(t, w, a, b, e) := z in (w =? 0) || (a =? 0)).
    destruct (how_many_filter _ _ bad C4) as [k HK].
    assert (Z.abs (M - S) <= k).
    { apply (how_many_close d4 f h bad M S k HM HS' HK). intros [[[[t w] a] b] e] [[[[C W] Da] Db] De] B. cbn [bad] in B. apply orb_false_iff in B. destruct B as [B1 B2].
      apply Z.eqb_neq in B1, B2. cbn [f h]. rewrite (pow_scale w a B1), (pow_scale2' w a e B1), (pow_scale2' a e w B2), (Z.mul_comm b w). replace (e * (w * a)) with (w * (a * e)) by ring. reflexivity. }
    assert (k <= K * 1 * order * order * order + K * order * 1 * order * order).
    { apply (how_many_le_sum _ _ _ _ _ _ HK (and_draws _ _ (and_draws _ _ (and_draws _ _ (and_zeros _ _ COIN)))) (and_draws _ _ (and_draws _ _ (and_zeros _ _ C1)))).
      intros [[[[t w] a] b] e] [[[[[C W] Da] Db] De] B]. cbn [bad] in B. apply orb_true_iff in B. rewrite !Z.eqb_eq in B. cbn. tauto. }
    replace (order * R - M - (order * R - S)) with (- (M - S)) by ring. rewrite Z.abs_opp. replace (K * (2 * order ^ 3)) with (K * 1 * order * order * order + K * order * 1 * order * order) by ring. lia.
  Qed.
End Crs.
