(** Someone who listens to oblivious transfers: counting. *)
From Coq Require Import ZArith Znumtheory Bool List Lia.
From Verif Require Import Outcome FieldModel ZpField SpecField FieldProofs ECGroup ECOrder CurveParams CurveFacts EccModel EccProofs SpecEcc EccThms Emb RF DmeModel SpecDme DmeProofs OtModel OtProofs SpecCount CountMath SpecDdh SpecDdh2 SpecDdh3 SpecDdh4 DdhProofs DdhProofs2 DdhMany DdhServe DdhHear DdhHear2 DdhHear3 DdhCases.
Import ListNotations.
Open Scope Z_scope.

Lemma hv_first w0 y0 w1 y1 M l ds b r b' r' : key_first l -> hv w0 y0 w1 y1 M b r [] l ds = hv w0 y0 w1 y1 M b' r' [] l ds.
Proof. destruct l as [|[k|] l]; intros []. reflexivity. Qed.

(** few strings are singular *)
Definition singular {T} (z : T * Z * Z * Z * Z) : bool := let '(t, w0, y0, w1, y1) := z in det w0 y0 w1 y1.
Lemma singular_count {T} (coin : T -> Prop) K : how_many coin K ->
  exists k, how_many (fun z => and_draw (and_draw (and_draw (and_draw coin))) z /\ singular z = true) k /\ k <= 2 * K * order ^ 3.
Proof.
  intros H. pose proof order_pos as OP. destruct (how_many_filter _ _ singular (and_draws _ _ (and_draws _ _ (and_draws _ _ (and_draws _ _ H))))) as [k HK]. exists k. split; [exact HK|].
  pose proof (and_draws _ _ (and_draws _ _ (and_draws _ _ (and_zeros _ _ H)))) as C1. pose proof (and_draws _ _ (and_draws _ _ (and_draws _ _ H))) as C2.
  assert (C3 : how_many (fun '(t, w0, y0, w1, y1) => and_draw (and_draw (and_draw coin)) (t, w0, y0, w1) /\ y1 = unscale w0 ((y0 * w1) mod order)) (K * order * order * order)).
  { refine (how_many_bij (fun z : T * Z * Z * Z => let '(t, w0, y0, w1) := z in (t, w0, y0, w1, unscale w0 ((y0 * w1) mod order))) (fun z : T * Z * Z * Z * Z => fst z) _ _ _ C2 _ _).
    - intros [[[t w0] y0] w1] X. cbn [fst]. split; [split; [exact X|reflexivity]|reflexivity].
    - intros [[[[t w0] y0] w1] y1] [X ->]. cbn [fst]. split; [exact X|reflexivity]. }
  pose proof (how_many_le_sum _ _ _ _ _ _ HK C1 C3) as L. enough (k <= K * 1 * order * order * order + K * order * order * order) by nia. apply L.
  intros [[[[t w0] y0] w1] y1] [[[[[C W0] Y0] W1] Y1] E]. destruct (Z.eq_dec w0 0) as [E0|N0]; [left; cbn; tauto|right]. split; [cbn; tauto|].
  apply det_true in E. destruct (scale_un w0 y1 W0 Y1) as [_ <-]. f_equal. unfold scale. rewrite (proj2 (Z.eqb_neq w0 0) N0).
  apply mod0_div in E. pose proof (Zplus_mod (w0 * y1 - y0 * w1) (y0 * w1) order) as P. rewrite E, Z.add_0_l, Z.mod_mod in P by lia. rewrite <- P. f_equal. ring.
Qed.

Section Counts.
  Context (live : Z -> bool) {T : Type} (coin : T -> Prop) (K : Z).
  Hypothesis COIN : how_many coin K.
  Variable l : list step.
  Hypothesis FIRST : key_first l.
  Variables (M : T -> four -> heard -> point * point) (A : T -> four -> heard -> bool).
  Hypothesis V : forall t k h, is_valid live (fst (M t k h)) /\ is_valid live (snd (M t k h)).
  Notation CC := (and_draw (and_draw (and_draw (and_draw coin)))).
  Definition kv (w0 y0 w1 y1 : Z) : four := ((pow w0, pow w1), (pow y0, pow y1)).
  Notation d := (Z.of_nat (needs l)).

  Definition talks (N : Z) : Prop :=
    how_many (fun '(t, w0, y0, w1, y1, ds) => and_steps l CC (t, w0, y0, w1, y1, ds) /\
      A t (kv w0 y0 w1 y1) (hv w0 y0 w1 y1 (M t (kv w0 y0 w1 y1)) 0 0 [] l ds) = true) N.
  Definition mumbles (N : Z) : Prop :=
    how_many (fun '(t, w0, y0, w1, y1, ds) => and_steps l CC (t, w0, y0, w1, y1, ds) /\ A t (kv w0 y0 w1 y1) (nv w0 y0 w1 y1 l ds) = true) N.
  Lemma CCs : how_many CC (K * order * order * order * order).
  Proof. exact (and_draws _ _ (and_draws _ _ (and_draws _ _ (and_draws _ _ COIN)))). Qed.
  Lemma talks_exists : exists N, talks N.
  Proof.
    destruct (how_many_filter _ _ (fun '(t, w0, y0, w1, y1, ds) => A t (kv w0 y0 w1 y1) (hv w0 y0 w1 y1 (M t (kv w0 y0 w1 y1)) 0 0 [] l ds)) (and_steps_count l _ _ CCs)) as [N H].
    exists N. refine (how_many_same _ _ _ _ H). intros [[[[[t w0] y0] w1] y1] ds]. reflexivity.
  Qed.
  Lemma mumbles_exists : exists N, mumbles N.
  Proof.
    destruct (how_many_filter _ _ (fun '(t, w0, y0, w1, y1, ds) => A t (kv w0 y0 w1 y1) (nv w0 y0 w1 y1 l ds)) (and_steps_count l _ _ CCs)) as [N H].
    exists N. refine (how_many_same _ _ _ _ H). intros [[[[[t w0] y0] w1] y1] ds]. reflexivity.
  Qed.

  Lemma real_close N R : talks N -> ddh_real (and_steps l CC) (with_string l M A) R -> Z.abs (order ^ 2 * N - R) <= 2 * K * order ^ (d + 4).
  Proof.
    intros HN HR. pose proof order_pos as OP.
    set (dom := fun z : T * Z * Z * Z * Z * list (list Z) * Z * Z => and_draw (and_draw (and_steps l CC)) z).
    set (f := fun z : T * Z * Z * Z * Z * list (list Z) * Z * Z => let '(t, a, e) := z in with_string l M A t (pow a) (pow e) (pow (a * e))).
    set (g := fun z : T * Z * Z * Z * Z * list (list Z) * Z * Z => let '(t, w0, y0, w1, y1, ds, a, e) := z in
      A t (kv w0 y0 w1 y1) (hv w0 y0 w1 y1 (M t (kv w0 y0 w1 y1)) 0 0 [] l (walk (real_f w0 y0 w1 y1 a e) real_nx 0 l ds))).
    set (bad := fun z : T * Z * Z * Z * Z * list (list Z) * Z * Z => let '(t, w0, y0, w1, y1, ds, a, e) := z in ((w0 =? 0) && (y0 =? 0)) || ((w1 =? 0) && (y1 =? 0))).
    assert (HG : how_many (fun z => dom z /\ g z = true) (N * order * order)).
    { refine (how_many_bij (fun z : T * Z * Z * Z * Z * list (list Z) * Z * Z => let '(t, w0, y0, w1, y1, ds, a, e) := z in (t, w0, y0, w1, y1, unwalk (real_g w0 y0 w1 y1 a e) real_nx 0 l ds, a, e))
        (fun z : T * Z * Z * Z * Z * list (list Z) * Z * Z => let '(t, w0, y0, w1, y1, ds, a, e) := z in (t, w0, y0, w1, y1, walk (real_f w0 y0 w1 y1 a e) real_nx 0 l ds, a, e))
        _ _ _ (and_draws _ _ (and_draws _ _ HN)) _ _).
      - intros [[[[[[[t w0] y0] w1] y1] ds] a] e] [[[[C H] EA] Da] De].
        destruct (unwalk_walk _ _ real_nx (real_gf w0 y0 w1 y1 a e) l 0 ds H) as [H' E]. cbn [g]. rewrite E. split; [|reflexivity].
        split; [|exact EA]. split; [|exact De]. split; [|exact Da]. split; [exact C|exact H'].
      - intros [[[[[[[t w0] y0] w1] y1] ds] a] e] [[[[C H] Da] De] EA]. cbn [g] in EA.
        destruct (walk_unwalk _ _ real_nx (real_fg w0 y0 w1 y1 a e) l 0 ds H) as [H' E]. rewrite E. split; [|reflexivity].
        split; [|exact De]. split; [|exact Da]. split; [|exact EA]. split; [exact C|exact H']. }
    assert (HF : how_many (fun z => dom z /\ f z = true) R).
    { refine (how_many_same _ _ _ _ HR). intros [[t a] e]. split.
      - intros [C [Da [De E]]]. split; [split; [split; [exact C|exact Da]|exact De]|exact E].
      - intros [[[C Da] De] E]. split; [exact C|]. split; [exact Da|]. split; [exact De|exact E]. }
    assert (CZ : how_many dom (K * order * order * order * order * order ^ d * order * order)) by exact (and_draws _ _ (and_draws _ _ (and_steps_count l _ _ CCs))).
    destruct (how_many_filter _ _ bad CZ) as [k HK].
    pose proof (and_draws _ _ (and_draws _ _ (and_steps_count l _ _ (and_draws _ _ (and_draws _ _ (and_zeros _ _ (and_zeros _ _ COIN))))))) as B1.
    pose proof (and_draws _ _ (and_draws _ _ (and_steps_count l _ _ (and_zeros _ _ (and_zeros _ _ (and_draws _ _ (and_draws _ _ COIN))))))) as B2.
    assert (KB : k <= 2 * K * order ^ (d + 4)).
    { rewrite Z.pow_add_r by lia. pose proof (how_many_le_sum _ _ _ _ _ _ HK B1 B2) as L. refine (Z.le_trans _ _ _ (L _) _); [|apply Z.eq_le_incl; ring].
      intros [[[[[[[t w0] y0] w1] y1] ds] a] e] [DD E]. cbn [bad] in E. rewrite orb_true_iff, !andb_true_iff, !Z.eqb_eq in E. cbn in DD |- *. tauto. }
    assert (X : Z.abs (R - N * order * order) <= k).
    { refine (how_many_close dom f g bad _ _ _ HF HG HK _). intros [[[[[[[t w0] y0] w1] y1] ds] a] e] [[[C H] Da] De] EB. cbn [f g with_string bad] in *.
      destruct C as [[[[C W0] Y0] W1] Y1]. apply orb_false_iff in EB. destruct EB as [E0 E1].
      change (pow w0, pow w1, (pow y0, pow y1)) with (kv w0 y0 w1 y1). f_equal.
      rewrite (hv_first _ _ _ _ _ l _ 0 0 0 a FIRST). apply real_view; [|exact H|intros q; rewrite Z.add_0_r; reflexivity].
      rewrite (draw_order w0 W0), (draw_order y0 Y0), (draw_order w1 W1), (draw_order y1 Y1). apply andb_false_iff in E0, E1. rewrite !Z.eqb_neq in E0, E1. tauto. }
    revert X KB. replace (N * order * order) with (order ^ 2 * N) by ring. lia.
  Qed.

  Lemma random_close W S : mumbles W -> ddh_random (and_steps l CC) (with_string l M A) S -> Z.abs (order ^ 3 * W - S) <= (3 + Z.of_nat (keys_in l)) * K * order ^ (d + 6).
  Proof.
    intros HW HS. pose proof order_pos as OP.
    set (dom := fun z : T * Z * Z * Z * Z * list (list Z) * Z * Z * Z => and_draw (and_draw (and_draw (and_steps l CC))) z).
    set (to := fun t w0 y0 w1 y1 a e x ds => walk (rand_f live w0 y0 w1 y1 (M t (kv w0 y0 w1 y1)) (V t (kv w0 y0 w1 y1)) a e x) (rand_nx w0 y0 w1 y1) (0, a, []) l ds).
    set (of := fun t w0 y0 w1 y1 a e x ds => unwalk (rand_g live w0 y0 w1 y1 (M t (kv w0 y0 w1 y1)) (V t (kv w0 y0 w1 y1)) a e x) (rand_nx w0 y0 w1 y1) (0, a, []) l ds).
    assert (TO : forall t w0 y0 w1 y1 a e x ds, shaped l ds -> shaped l (to t w0 y0 w1 y1 a e x ds) /\ of t w0 y0 w1 y1 a e x (to t w0 y0 w1 y1 a e x ds) = ds).
    { intros t w0 y0 w1 y1 a e x ds H. apply walk_unwalk; [|exact H]. intros st s y F. apply rand_fg, F. }
    assert (OF : forall t w0 y0 w1 y1 a e x ds, shaped l ds -> shaped l (of t w0 y0 w1 y1 a e x ds) /\ to t w0 y0 w1 y1 a e x (of t w0 y0 w1 y1 a e x ds) = ds).
    { intros t w0 y0 w1 y1 a e x ds H. apply unwalk_walk; [|exact H]. intros st s y F. apply rand_gf, F. }
    set (f := fun z : T * Z * Z * Z * Z * list (list Z) * Z * Z * Z => let '(t, w0, y0, w1, y1, ds, a, e, x) := z in
      with_string l M A (t, w0, y0, w1, y1, of t w0 y0 w1 y1 a e x ds) (pow a) (pow e) (pow (x + a * e))).
    set (g := fun z : T * Z * Z * Z * Z * list (list Z) * Z * Z * Z => let '(t, w0, y0, w1, y1, ds, a, e, x) := z in A t (kv w0 y0 w1 y1) (nv w0 y0 w1 y1 l ds)).
    set (bad := fun z : T * Z * Z * Z * Z * list (list Z) * Z * Z * Z => let '(t, w0, y0, w1, y1, ds, a, e, x) := z in (x =? 0) || (det w0 y0 w1 y1 || zero_key l ds)).
    assert (HG : how_many (fun z => dom z /\ g z = true) (W * order * order * order)).
    { refine (how_many_same _ _ _ _ (and_draws _ _ (and_draws _ _ (and_draws _ _ HW)))). intros [[[[[[[[t w0] y0] w1] y1] ds] a] e] x]. cbn. tauto. }
    assert (HF : how_many (fun z => dom z /\ f z = true) S).
    { refine (how_many_bij (fun z : T * Z * Z * Z * Z * list (list Z) * Z * Z * Z => let '(t, w0, y0, w1, y1, ds, a, e, c) := z in (t, w0, y0, w1, y1, to t w0 y0 w1 y1 a e ((c - a * e) mod order) ds, a, e, (c - a * e) mod order))
        (fun z : T * Z * Z * Z * Z * list (list Z) * Z * Z * Z => let '(t, w0, y0, w1, y1, ds, a, e, x) := z in (t, w0, y0, w1, y1, of t w0 y0 w1 y1 a e x ds, a, e, (x + a * e) mod order)) _ _ _ HS _ _).
      - intros [[[[[[[[t w0] y0] w1] y1] ds] a] e] c] [[C H] [Da [De [Dc EA]]]].
        destruct (TO t w0 y0 w1 y1 a e ((c - a * e) mod order) ds H) as [H' E]. cbn [f]. rewrite E, (sub_add c (a * e) Dc). split; [|reflexivity]. split.
        + split; [|apply draw_mod]. split; [|exact De]. split; [|exact Da]. split; [exact C|exact H'].
        + rewrite <- (pow_mod (_ + a * e)), (sub_add c (a * e) Dc). exact EA.
      - intros [[[[[[[[t w0] y0] w1] y1] ds] a] e] x] [[[[[C H] Da] De] Dx] EA]. cbn [f] in EA.
        destruct (OF t w0 y0 w1 y1 a e x ds H) as [H' E]. rewrite (add_sub x (a * e) Dx), E. split; [|reflexivity].
        split; [split; [exact C|exact H']|]. split; [exact Da|]. split; [exact De|]. split; [apply draw_mod|]. rewrite pow_mod. exact EA. }
    assert (CZ : how_many dom (K * order * order * order * order * order ^ d * order * order * order)) by exact (and_draws _ _ (and_draws _ _ (and_draws _ _ (and_steps_count l _ _ CCs)))).
    destruct (how_many_filter _ _ bad CZ) as [k HK].
    pose proof (and_zeros _ _ (and_draws _ _ (and_draws _ _ (and_steps_count l _ _ CCs)))) as B1.
    destruct (singular_count coin K COIN) as [ks [HKs Ls]]. pose proof (and_draws _ _ (and_draws _ _ (and_draws _ _ (and_steps_count l _ _ HKs)))) as B2.
    destruct (zero_key_count l) as [kz [HKz Lz]]. pose proof (and_draws _ _ (and_draws _ _ (and_draws _ _ (how_many_prod _ _ _ _ CCs HKz)))) as B3.
    assert (KB : k <= (3 + Z.of_nat (keys_in l)) * K * order ^ (d + 6)).
    { destruct (how_many_filter _ _ (fun z : T * Z * Z * Z * Z * list (list Z) * Z * Z * Z => let '(t, w0, y0, w1, y1, ds, a, e, x) := z in det w0 y0 w1 y1 || zero_key l ds) CZ) as [k2 HK2].
      assert (L1 : k <= K * order * order * order * order * order ^ d * order * order * 1 + k2).
      { apply (how_many_le_sum _ _ _ _ _ _ HK B1 HK2). intros [[[[[[[[t w0] y0] w1] y1] ds] a] e] x] [DD E]. cbn [bad] in E. rewrite orb_true_iff, Z.eqb_eq in E. destruct E as [E|E]; [left; cbn in DD |- *; tauto|right; split; [exact DD|exact E]]. }
      assert (L2 : k2 <= ks * order ^ d * order * order * order + K * order * order * order * order * kz * order * order * order).
      { apply (how_many_le_sum _ _ _ _ _ _ HK2 B2 B3). intros [[[[[[[[t w0] y0] w1] y1] ds] a] e] x] [DD E]. rewrite orb_true_iff in E. cbn in DD |- *. tauto. }
      pose proof (how_many_nonneg _ _ COIN). rewrite Z.pow_add_r by lia. assert (0 < order ^ d) by (apply Z.pow_pos_nonneg; lia).
      assert (L3 : ks * (order ^ d * order ^ 3) <= 2 * K * order ^ 3 * (order ^ d * order ^ 3)) by (apply Z.mul_le_mono_nonneg_r; [nia|exact Ls]).
      assert (L4 : kz * order * (K * order ^ 6) <= Z.of_nat (keys_in l) * order ^ d * (K * order ^ 6)) by (apply Z.mul_le_mono_nonneg_r; [nia|exact Lz]).
      replace (order ^ 6) with (order ^ 3 * order ^ 3) in * by ring. set (o3 := order ^ 3) in *. 
      replace (K * order * order * order * order * order ^ d * order * order * 1) with (K * order ^ d * (o3 * o3)) in L1 by (unfold o3; ring).
      replace (ks * order ^ d * order * order * order + K * order * order * order * order * kz * order * order * order) with (ks * (order ^ d * o3) + kz * order * (K * (o3 * o3))) in L2 by (unfold o3; ring).
      replace ((3 + Z.of_nat (keys_in l)) * K * (order ^ d * (o3 * o3))) with (K * order ^ d * (o3 * o3) + 2 * K * o3 * (order ^ d * o3) + Z.of_nat (keys_in l) * order ^ d * (K * (o3 * o3))) by ring. lia. }
    assert (X : Z.abs (S - W * order * order * order) <= k).
    { refine (how_many_close dom f g bad _ _ _ HF HG HK _). intros [[[[[[[[t w0] y0] w1] y1] ds] a] e] x] [[[[C H] Da] De] Dx] EB. cbn [f g with_string bad] in *.
      apply orb_false_iff in EB. destruct EB as [E0 EB]. apply orb_false_iff in EB. destruct EB as [E1 E2]. apply Z.eqb_neq in E0. apply det_false in E1.
      change (pow w0, pow w1, (pow y0, pow y1)) with (kv w0 y0 w1 y1). f_equal.
      destruct (OF t w0 y0 w1 y1 a e x ds H) as [H' E]. change (nv w0 y0 w1 y1 l ds) with ([] ++ nv w0 y0 w1 y1 l ds). rewrite <- E at 2.
      apply rand_view; [| |exact E1|exact H'| |left; exact FIRST|].
      - intros q. apply (f_equal pow). ring.
      - rewrite (draw_order x Dx). exact E0.
      - intros q. rewrite Z.add_0_r. reflexivity.
      - change (zero_key l (to t w0 y0 w1 y1 a e x (of t w0 y0 w1 y1 a e x ds)) = false). rewrite E. exact E2. }
    revert X KB. replace (W * order * order * order) with (order ^ 3 * W) by ring. lia.
  Qed.

  Lemma hear_close N W g : talks N -> mumbles W -> ddh_gap (and_steps l CC) (with_string l M A) g ->
    Z.abs (order ^ 3 * (N - W) - g) <= (4 + Z.of_nat (keys_in l)) * K * order ^ (d + 6).
  Proof.
    intros HN HW [R [S [HR [HS ->]]]]. pose proof (real_close N R HN HR) as E1. pose proof (random_close W S HW HS) as E2. pose proof order_pos as OP. pose proof (how_many_nonneg _ _ COIN).
    assert (E3 : Z.abs (order ^ 3 * N - order * R) <= 2 * K * order ^ (d + 5)).
    { replace (order ^ 3 * N - order * R) with (order * (order ^ 2 * N - R)) by ring. replace (d + 5) with (1 + (d + 4)) by ring. rewrite Z.abs_mul, (Z.abs_eq order), (Z.pow_add_r order 1), Z.pow_1_r by lia. nia. }
    assert (2 * K * order ^ (d + 5) <= K * order ^ (d + 6)).
    { pose proof prime_order as [P2 _]. replace (d + 6) with (1 + (d + 5)) by ring. rewrite (Z.pow_add_r order 1), Z.pow_1_r by lia. assert (0 < order ^ (d + 5)) by (apply Z.pow_pos_nonneg; lia). nia. }
    lia.
  Qed.
End Counts.
