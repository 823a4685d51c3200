(** Proofs of the reductions to the decisional Diffie-Hellman problem: the branch of a public key. *)
From Coq Require Import ZArith Znumtheory Bool List Lia Field.
From Verif Require Import Outcome FieldModel ZpField SpecField FieldProofs ECGroup ECOrder CurveParams CurveFacts EccModel EccProofs SpecEcc EccThms Emb RF DmeModel SpecDme DmeProofs OtModel OtProofs SpecCount CountMath SpecDdh DdhProofs DdhProofs2.
Import ListNotations.
Open Scope Z_scope.

Section Branch.
  Variables (dbg : bool) (live : Z -> bool) (c : Z).
  Hypothesis LC : live c = true.
  Context {T : Type} (coin : T -> Prop) (K : Z).
  Hypothesis COIN : how_many coin K.
  Notation d1 := (and_draw coin).
  Notation d2 := (and_draw d1).
  Notation d3 := (and_draw d2).
  Notation d4 := (and_draw d3).
  Notation d5 := (and_draw d4).
  Notation d6 := (and_draw d5).
  Notation fn := (fieldn CV).
  Implicit Type A V : T -> elt -> elt -> elt -> elt -> elt -> elt -> bool.

  Lemma random_view r1 r2 r3 r4 : exists D, dme_new_random dbg live c r1 r2 r3 r4 = Ok D /\ drf live D c (mk fn r1) (mk fn r3) (mk fn r2) (mk fn r4).
  Proof. exact (new_random_rf dbg live c r1 r2 r3 r4 LC). Qed.
  Definition pickz (b x y : Z) : Z := if b =? 0 then x else y.
  Lemma selected_bool D c0 a0 a1 b0 b1 b r (V : elt -> elt -> elt -> elt -> elt -> elt -> bool) : drf live D c0 (mk fn a0) (mk fn a1) (mk fn b0) (mk fn b1) -> branch b ->
    selected dbg live D b r V <-> V (pow a0) (pow a1) (pow b0) (pow b1) (pow (r * pickz b a0 a1)) (pow (r * pickz b b0 b1)) = true.
  Proof.
    intros H Hb. destruct (drf_den live _ _ _ _ _ _ H) as [V1 [V2 [V3 V4]]]. destruct (KeyGen_rf dbg live D c0 _ _ _ _ b r H Hb) as [kp [E [G1 [G2 _]]]].
    assert (W1 : den CV (pg (kpk kp)) = pow (r * pickz b a0 a1)).
    { apply (rf_pow live). apply (rf_cong live CV _ _ _ G1). rewrite <- mk_mul. destruct Hb as [-> | ->]; reflexivity. }
    assert (W2 : den CV (ph (kpk kp)) = pow (r * pickz b b0 b1)).
    { apply (rf_pow live). apply (rf_cong live CV _ _ _ G2). rewrite <- mk_mul. destruct Hb as [-> | ->]; reflexivity. }
    unfold selected, selectMsg. cbn [otrecv_new rdme]. rewrite E. cbn [bind]. unfold on_crs, on_pk. rewrite V1, V2, V3, V4. split.
    - intros [R [pk [EQ EV]]]. apply Ok_inj in EQ. injection EQ as _ <-. rewrite W1, W2 in EV. exact EV.
    - intros EV. do 2 eexists. split; [reflexivity|]. rewrite W1, W2. exact EV.
  Qed.

  (** one game for both branches *)
  Definition swap A : T -> elt -> elt -> elt -> elt -> elt -> elt -> bool := fun t a0 a1 b0 b1 u v => A t a1 a0 b1 b0 u v.
  Definition game V N : Prop :=
    how_many (fun '(t, w, h, x, y, r) => (coin t /\ draw w /\ draw h /\ draw x /\ draw y /\ draw r) /\
      V t (pow w) (pow x) (pow h) (pow y) (pow (r * w)) (pow (r * h)) = true) N.
  Lemma branch_0 A N : game A N -> branch_guess dbg live c 0 coin A N.
  Proof.
    intros H. unfold branch_guess. refine (how_many_same _ _ _ _ H). intros [[[[[t w] h] x] y] r]. destruct (random_view w h x y) as [D [E HD]].
    pose proof (selected_bool D c _ _ _ _ 0 r (A t) HD (or_introl eq_refl)) as X. cbn [pickz Z.eqb] in X. split.
    - intros [C EA]. conj; try assumption. exists D. split; [exact E|]. apply X. exact EA.
    - intros [C [W [Hh [Hx [Hy [Hr [D' [E' S]]]]]]]]. rewrite E in E'. apply Ok_inj in E'. subst D'. apply X in S. tauto.
  Qed.
  Lemma branch_1 A N : game (swap A) N -> branch_guess dbg live c 1 coin A N.
  Proof.
    intros H. unfold branch_guess.
    assert (X : forall t r1 r2 r3 r4 r, (exists D, dme_new_random dbg live c r1 r2 r3 r4 = Ok D /\ selected dbg live D 1 r (A t)) <->
      A t (pow r1) (pow r3) (pow r2) (pow r4) (pow (r * r3)) (pow (r * r4)) = true).
    { intros t r1 r2 r3 r4 r. destruct (random_view r1 r2 r3 r4) as [D [E HD]]. pose proof (selected_bool D c _ _ _ _ 1 r (A t) HD (or_intror eq_refl)) as X. cbn [pickz Z.eqb] in X. split.
      - intros [D' [E' S]]. rewrite E in E'. apply Ok_inj in E'. subst D'. apply X, S.
      - intros EA. exists D. split; [exact E|]. apply X, EA. }
    refine (how_many_bij (fun z : T * Z * Z * Z * Z * Z => let '(t, w, h, x, y, r) := z in (t, x, y, w, h, r))
      (fun z : T * Z * Z * Z * Z * Z => let '(t, x, y, w, h, r) := z in (t, w, h, x, y, r)) _ _ _ H _ _).
    - intros [[[[[t w] h] x] y] r] [C EA]. split; [|reflexivity]. conj; try assumption. apply X. exact EA.
    - intros [[[[[t x] y] w] h] r] [C [Hx [Hy [W [Hh [Hr S]]]]]]. split; [|reflexivity]. apply X in S. split; [tauto|exact S].
  Qed.

  Definition snd_ (x y : Z) : Z := y.
  (** six uniformly random elements *)
  Definition uniform V N : Prop :=
    how_many (fun '(t, a0, a1, b0, b1, u, v) => (coin t /\ draw a0 /\ draw a1 /\ draw b0 /\ draw b1 /\ draw u /\ draw v) /\
      V t (pow a0) (pow a1) (pow b0) (pow b1) (pow u) (pow v) = true) N.
  Lemma uniform_swap A N : uniform A N -> uniform (swap A) N.
  Proof.
    intros H. refine (how_many_bij (fun z : T * Z * Z * Z * Z * Z * Z => let '(t, a0, a1, b0, b1, u, v) := z in (t, a1, a0, b1, b0, u, v))
      (fun z : T * Z * Z * Z * Z * Z * Z => let '(t, a0, a1, b0, b1, u, v) := z in (t, a1, a0, b1, b0, u, v)) _ _ _ H _ _);
      intros [[[[[[t a0] a1] b0] b1] u] v] [C EA]; (split; [|reflexivity]); (split; [tauto|exact EA]).
  Qed.
  Lemma uniform_exists A : exists N, uniform A N.
  Proof.
    destruct (how_many_filter _ _ (fun z : T * Z * Z * Z * Z * Z * Z => let '(t, a0, a1, b0, b1, u, v) := z in A t (pow a0) (pow a1) (pow b0) (pow b1) (pow u) (pow v))
      (and_draws _ _ (and_draws _ _ (and_draws _ _ (and_draws _ _ (and_draws _ _ (and_draws _ _ COIN))))))) as [N H].
    exists N. refine (how_many_same _ _ _ _ H). intros [[[[[[t a0] a1] b0] b1] u] v]. cbn. tauto.
  Qed.

  Lemma one_branch V : exists N g, game V N /\ ddh_gap d3 (first_half snd_ V) g /\ forall U, uniform V U -> Z.abs (order * N - U - g) <= K * (2 * order ^ 5).
  Proof.
    pose proof (and_draws _ _ COIN) as C1. pose proof (and_draws _ _ C1) as C2. pose proof (and_draws _ _ C2) as C3. pose proof (and_draws _ _ C3) as C4. pose proof (and_draws _ _ C4) as C5. pose proof (and_draws _ _ C5) as C6.
    destruct (real_exists d3 _ C3 (first_half snd_ V)) as [R HR]. destruct (random_exists d3 _ C3 (first_half snd_ V)) as [S HS].
    set (f := fun z : T * Z * Z * Z * Z * Z => let '(t, w, x, y, a, b) := z in V t (pow w) (pow x) (pow (scale w a)) (pow y) (pow (b * w)) (pow (b * scale w a))).
    set (h := fun z : T * Z * Z * Z * Z * Z => let '(t, w, x, y, a, b) := z in V t (pow w) (pow x) (pow (w * a)) (pow y) (pow (w * b)) (pow (w * (a * b)))).
    set (f' := fun z : T * Z * Z * Z * Z * Z * Z => let '(t, w, x, y, a, b, e) := z in V t (pow w) (pow x) (pow (scale w a)) (pow y) (pow (scale w b)) (pow (scale w e))).
    set (h' := fun z : T * Z * Z * Z * Z * Z * Z => let '(t, w, x, y, a, b, e) := z in V t (pow w) (pow x) (pow (w * a)) (pow y) (pow (w * b)) (pow (w * e))).
    destruct (how_many_filter _ _ f C5) as [N HN].
    assert (HR' : how_many (fun z => d5 z /\ h z = true) R).
    { refine (how_many_same _ _ _ _ HR). intros [[[[[t w] x] y] a] b]. cbn [h first_half snd_]. rewrite !pow_mul. unfold snd_. cbn. tauto. }
    assert (HS' : how_many (fun z => d6 z /\ h' z = true) S).
    { refine (how_many_same _ _ _ _ HS). intros [[[[[[t w] x] y] a] b] e]. cbn [h' first_half snd_]. rewrite !pow_mul. unfold snd_. cbn. tauto. }
    exists N, (order * R - S). split; [|split; [exists R, S; split; [exact HR|]; split; [exact HS|reflexivity]|]].
    { refine (how_many_bij (fun z : T * Z * Z * Z * Z * Z => let '(t, w, x, y, a, b) := z in (t, w, scale w a, x, y, b))
        (fun z : T * Z * Z * Z * Z * Z => let '(t, w, s, x, y, b) := z in (t, w, x, y, unscale w s, b)) _ _ _ HN _ _).
      - intros [[[[[t w] x] y] a] b] [[[[[[C W] Hx] Hy] Ha] Hb] EA]. destruct (scale_un w a W Ha) as [X Y]. split; [|rewrite Y; reflexivity]. split; [tauto|exact EA].
      - intros [[[[[t w] s] x] y] b] [[C [W [Hs [Hx [Hy Hb]]]]] EA]. destruct (un_scale w s W Hs) as [X Y]. split; [|rewrite Y; reflexivity]. split; [cbn; tauto|].
        cbn [f]. rewrite Y. exact EA. }
    intros U HU.
    assert (HU' : how_many (fun z => d6 z /\ f' z = true) U).
    { refine (how_many_bij (fun z : T * Z * Z * Z * Z * Z * Z => let '(t, a0, a1, b0, b1, u, v) := z in (t, a0, a1, b1, unscale a0 b0, unscale a0 u, unscale a0 v))
        (fun z : T * Z * Z * Z * Z * Z * Z => let '(t, w, x, y, a, b, e) := z in (t, w, x, scale w a, y, scale w b, scale w e)) _ _ _ HU _ _).
      - intros [[[[[[t w] x] b0] y] u] v] [[C [W [Hx [H0 [Hy [Hu Hv]]]]]] EA]. destruct (un_scale w b0 W H0) as [X1 Y1]. destruct (un_scale w u W Hu) as [X2 Y2]. destruct (un_scale w v W Hv) as [X3 Y3].
        split; [|rewrite Y1, Y2, Y3; reflexivity]. split; [cbn; tauto|]. cbn [f']. rewrite Y1, Y2, Y3. exact EA.
      - intros [[[[[[t w] x] y] a] b] e] [[[[[[[C W] Hx] Hy] Ha] Hb] He] EA]. destruct (scale_un w a W Ha) as [X1 Y1]. destruct (scale_un w b W Hb) as [X2 Y2]. destruct (scale_un w e W He) as [X3 Y3].
        split; [|rewrite Y1, Y2, Y3; reflexivity]. split; [tauto|exact EA]. }
    set (bad := fun z : T * Z * Z * Z * Z * Z => let '(t, w, x, y, a, b) := z in w =? 0).
    set (bad' := fun z : T * Z * Z * Z * Z * Z * Z => let '(t, w, x, y, a, b, e) := z in w =? 0).
    destruct (how_many_filter _ _ bad C5) as [k HK]. destruct (how_many_filter _ _ bad' C6) as [k' HK'].
    assert (B1 : Z.abs (N - R) <= k).
    { apply (how_many_close d5 f h bad N R k HN HR' HK). intros [[[[[t w] x] y] a] b] _ B. cbn [bad] in B. apply Z.eqb_neq in B. cbn [f h].
      rewrite (pow_scale w a B), (pow_scale2' w a b B), (Z.mul_comm b w). replace (b * (w * a)) with (w * (a * b)) by ring. reflexivity. }
    assert (B2 : Z.abs (U - S) <= k').
    { apply (how_many_close d6 f' h' bad' U S k' HU' HS' HK'). intros [[[[[[t w] x] y] a] b] e] _ B. cbn [bad'] in B. apply Z.eqb_neq in B. cbn [f' h'].
      rewrite (pow_scale w a B), (pow_scale w b B), (pow_scale w e B). reflexivity. }
    pose proof (and_draws _ _ (and_draws _ _ (and_draws _ _ (and_draws _ _ (and_zeros _ _ COIN))))) as Z5. pose proof (and_draws _ _ Z5) as Z6.
    assert (k <= K * 1 * order * order * order * order).
    { apply (how_many_le _ _ _ _ HK Z5). intros [[[[[t w] x] y] a] b] [[[[[[C W] Hx] Hy] Ha] Hb] B]. cbn [bad] in B. apply Z.eqb_eq in B. cbn. tauto. }
    assert (k' <= K * 1 * order * order * order * order * order).
    { apply (how_many_le _ _ _ _ HK' Z6). intros [[[[[[t w] x] y] a] b] e] [[[[[[[C W] Hx] Hy] Ha] Hb] He] B]. cbn [bad'] in B. apply Z.eqb_eq in B. cbn. tauto. }
    pose proof order_pos. set (Q := K * 1 * order * order * order * order) in *.
    replace (K * (2 * order ^ 5)) with (order * Q + Q * order) by (unfold Q; ring).
    replace (order * N - U - (order * R - S)) with (order * (N - R) - (U - S)) by ring.
    assert (Z.abs (order * (N - R)) <= order * Q) by (rewrite Z.abs_mul, (Z.abs_eq order) by lia; apply Z.mul_le_mono_nonneg_l; lia). lia.
  Qed.

  Lemma half_swap g V : ddh_gap d3 (first_half snd_ (swap V)) g -> ddh_gap d3 (second_half snd_ V) g.
  Proof.
    intros [R [S [HR [HS ->]]]]. exists R, S. split; [|split; [|reflexivity]].
    - refine (how_many_same _ _ _ _ HR). intros [[[[[t w] x] y] a] b]. reflexivity.
    - refine (how_many_same _ _ _ _ HS). intros [[[[[[t w] x] y] a] b] e]. reflexivity.
  Qed.

  Lemma L_C107_branch A : exists N0 N1 g0 g1, branch_guess dbg live c 0 coin A N0 /\ branch_guess dbg live c 1 coin A N1 /\
    ddh_gap d3 (first_half (fun _ y => y) A) g0 /\ ddh_gap d3 (second_half (fun _ y => y) A) g1 /\
    Z.abs (order * (N0 - N1) - (g0 - g1)) <= K * (4 * order ^ 5).
  Proof.
    destruct (one_branch A) as [N0 [g0 [G0 [H0 B0]]]]. destruct (one_branch (swap A)) as [N1 [g1 [G1 [H1 B1]]]]. destruct (uniform_exists A) as [U HU].
    specialize (B0 U HU). specialize (B1 U (uniform_swap A U HU)). exists N0, N1, g0, g1. split; [exact (branch_0 A N0 G0)|]. split; [exact (branch_1 A N1 G1)|].
    split; [exact H0|]. split; [exact (half_swap g1 A H1)|].
    replace (K * (4 * order ^ 5)) with (K * (2 * order ^ 5) + K * (2 * order ^ 5)) by ring.
    replace (order * (N0 - N1) - (g0 - g1)) with ((order * N0 - U - g0) - (order * N1 - U - g1)) by ring. lia.
  Qed.

  (** ** The string of the messy constructor *)
  Lemma messy_selected b t r1 r2 r3 r4 r A : branch b -> (exists D, dme_new dbg live c messy r1 r2 r3 r4 = Ok D /\ selected dbg live D b r (A t)) <->
    A t (pow r3) (pow r4) (pow (r1 * r3)) (pow (r2 * r4)) (pow (r * pickz b r3 r4)) (pow (r * pickz b (r1 * r3) (r2 * r4))) = true.
  Proof.
    intros Hb. destruct (messy_view dbg live c LC r1 r2 r3 r4) as [D [E HD]]. pose proof (selected_bool D c _ _ _ _ b r (A t) HD Hb) as X. split.
    - intros [D' [E' S]]. rewrite E in E'. apply Ok_inj in E'. subst D'. apply X, S.
    - intros EA. exists D. split; [exact E|]. apply X, EA.
  Qed.

  Lemma L_C107_messy A : exists N0 N1 g0 g1, branch_guess_messy dbg live c 0 coin A N0 /\ branch_guess_messy dbg live c 1 coin A N1 /\
    ddh_gap d3 (first_half (fun x y => x * y) A) g0 /\ ddh_gap d3 (second_half (fun x y => x * y) A) g1 /\
    Z.abs (order * (N0 - N1) - (g0 - g1)) <= K * (2 * order ^ 5).
  Proof.
    pose proof (and_draws _ _ COIN) as C1. pose proof (and_draws _ _ C1) as C2. pose proof (and_draws _ _ C2) as C3. pose proof (and_draws _ _ C3) as C4. pose proof (and_draws _ _ C4) as C5. pose proof (and_draws _ _ C5) as C6.
    destruct (real_exists d3 _ C3 (first_half (fun x y => x * y) A)) as [R0 HR0]. destruct (random_exists d3 _ C3 (first_half (fun x y => x * y) A)) as [S0 HS0].
    destruct (real_exists d3 _ C3 (second_half (fun x y => x * y) A)) as [R1 HR1]. destruct (random_exists d3 _ C3 (second_half (fun x y => x * y) A)) as [S1 HS1].
    exists R0, R1, (order * R0 - S0), (order * R1 - S1). split; [|split; [|split; [|split]]].
    - unfold branch_guess_messy. refine (how_many_bij (fun z : T * Z * Z * Z * Z * Z => let '(t, w, x, y, a, b) := z in (t, a, y, w, x, b))
        (fun z : T * Z * Z * Z * Z * Z => let '(t, r1, r2, r3, r4, r) := z in (t, r3, r4, r2, r1, r)) _ _ _ HR0 _ _).
      + intros [[[[[t w] x] y] a] b] [[[[C W] Hx] Hy] [Ha [Hb EA]]]. split; [|reflexivity]. conj; try assumption. apply messy_selected; [left; reflexivity|].
        cbn [first_half] in EA. rewrite !pow_mul in EA. cbn [pickz Z.eqb]. rewrite (Z.mul_comm a w), (Z.mul_comm y x), (Z.mul_comm b w). replace (b * (w * a)) with (w * (a * b)) by ring. exact EA.
      + intros [[[[[t a] y] w] x] b] [C [Ha [Hy [W [Hx [Hb S]]]]]]. split; [|reflexivity]. apply messy_selected in S; [|left; reflexivity]. split; [cbn; tauto|]. split; [exact Ha|]. split; [exact Hb|].
        cbn [first_half]. rewrite !pow_mul. cbn [pickz Z.eqb] in S. rewrite (Z.mul_comm a w), (Z.mul_comm y x), (Z.mul_comm b w) in S. replace (b * (w * a)) with (w * (a * b)) in S by ring. exact S.
    - unfold branch_guess_messy. refine (how_many_bij (fun z : T * Z * Z * Z * Z * Z => let '(t, w, x, y, a, b) := z in (t, y, a, x, w, b))
        (fun z : T * Z * Z * Z * Z * Z => let '(t, r1, r2, r3, r4, r) := z in (t, r4, r3, r1, r2, r)) _ _ _ HR1 _ _).
      + intros [[[[[t w] x] y] a] b] [[[[C W] Hx] Hy] [Ha [Hb EA]]]. split; [|reflexivity]. conj; try assumption. apply messy_selected; [right; reflexivity|].
        cbn [second_half] in EA. rewrite !pow_mul in EA. cbn [pickz Z.eqb]. rewrite (Z.mul_comm a w), (Z.mul_comm y x), (Z.mul_comm b w). replace (b * (w * a)) with (w * (a * b)) by ring. exact EA.
      + intros [[[[[t y] a] x] w] b] [C [Hy [Ha [Hx [W [Hb S]]]]]]. split; [|reflexivity]. apply messy_selected in S; [|right; reflexivity]. split; [cbn; tauto|]. split; [exact Ha|]. split; [exact Hb|].
        cbn [second_half]. rewrite !pow_mul. cbn [pickz Z.eqb] in S. rewrite (Z.mul_comm a w), (Z.mul_comm y x), (Z.mul_comm b w) in S. replace (b * (w * a)) with (w * (a * b)) in S by ring. exact S.
    - exists R0, S0. split; [exact HR0|]. split; [exact HS0|reflexivity].
    - exists R1, S1. split; [exact HR1|]. split; [exact HS1|reflexivity].
    - set (f := fun z : T * Z * Z * Z * Z * Z * Z => let '(t, w, x, y, a, b, e) := z in A t (pow w) (pow x) (pow (w * a)) (pow (x * y)) (pow (w * scale x b)) (pow (w * scale x e))).
      set (h := fun z : T * Z * Z * Z * Z * Z * Z => let '(t, w, x, y, a, b, e) := z in A t (pow w) (pow x) (pow (w * a)) (pow (x * y)) (pow (x * scale w b)) (pow (x * scale w e))).
      assert (HF : how_many (fun z => d6 z /\ f z = true) S0).
      { refine (how_many_bij (fun z : T * Z * Z * Z * Z * Z * Z => let '(t, w, x, y, a, b, e) := z in (t, w, x, y, a, unscale x b, unscale x e))
          (fun z : T * Z * Z * Z * Z * Z * Z => let '(t, w, x, y, a, b, e) := z in (t, w, x, y, a, scale x b, scale x e)) _ _ _ HS0 _ _).
        - intros [[[[[[t w] x] y] a] b] e] [[[[C W] Hx] Hy] [Ha [Hb [He EA]]]]. destruct (un_scale x b Hx Hb) as [X1 Y1]. destruct (un_scale x e Hx He) as [X2 Y2].
          split; [|rewrite Y1, Y2; reflexivity]. split; [cbn; tauto|]. cbn [f]. rewrite Y1, Y2. cbn [first_half] in EA. rewrite !pow_mul in EA. exact EA.
        - intros [[[[[[t w] x] y] a] b] e] [[[[[[[C W] Hx] Hy] Ha] Hb] He] EA]. destruct (scale_un x b Hx Hb) as [X1 Y1]. destruct (scale_un x e Hx He) as [X2 Y2].
          split; [|rewrite Y1, Y2; reflexivity]. split; [cbn; tauto|]. split; [exact Ha|]. split; [exact X1|]. split; [exact X2|]. cbn [first_half]. rewrite !pow_mul. exact EA. }
      assert (HH : how_many (fun z => d6 z /\ h z = true) S1).
      { refine (how_many_bij (fun z : T * Z * Z * Z * Z * Z * Z => let '(t, w, x, y, a, b, e) := z in (t, x, w, a, y, unscale x b, unscale x e))
          (fun z : T * Z * Z * Z * Z * Z * Z => let '(t, w, x, y, a, b, e) := z in (t, x, w, a, y, scale w b, scale w e)) _ _ _ HS1 _ _).
        - intros [[[[[[t w] x] y] a] b] e] [[[[C W] Hx] Hy] [Ha [Hb [He EA]]]]. destruct (un_scale x b Hx Hb) as [X1 Y1]. destruct (un_scale x e Hx He) as [X2 Y2].
          split; [|rewrite Y1, Y2; reflexivity]. split; [cbn; tauto|]. cbn [h]. rewrite Y1, Y2. cbn [second_half] in EA. rewrite !pow_mul in EA. exact EA.
        - intros [[[[[[t x] w] a] y] b] e] [[[[[[[C Hx] W] Ha] Hy] Hb] He] EA]. destruct (scale_un x b Hx Hb) as [X1 Y1]. destruct (scale_un x e Hx He) as [X2 Y2].
          split; [|rewrite Y1, Y2; reflexivity]. split; [cbn; tauto|]. split; [exact Ha|]. split; [exact X1|]. split; [exact X2|]. cbn [second_half]. rewrite !pow_mul. exact EA. }
      set (bad := fun z : T * Z * Z * Z * Z * Z * Z => let '(t, w, x, y, a, b, e) := z in (w =? 0) || (x =? 0)).
      destruct (how_many_filter _ _ bad C6) as [k HK].
      assert (B : Z.abs (S0 - S1) <= k).
      { apply (how_many_close d6 f h bad S0 S1 k HF HH HK). intros [[[[[[t w] x] y] a] b] e] _ B. cbn [bad] in B. apply orb_false_iff in B. destruct B as [B1 B2]. apply Z.eqb_neq in B1, B2.
        cbn [f h]. rewrite (pow_scale2' x b w B2), (pow_scale2' x e w B2), (pow_scale2' w b x B1), (pow_scale2' w e x B1).
        replace (x * (w * b)) with (w * (x * b)) by ring. replace (x * (w * e)) with (w * (x * e)) by ring. reflexivity. }
      assert (k <= K * 1 * order * order * order * order * order + K * order * 1 * order * order * order * order).
      { apply (how_many_le_sum _ _ _ _ _ _ HK (and_draws _ _ (and_draws _ _ (and_draws _ _ (and_draws _ _ (and_draws _ _ (and_zeros _ _ COIN))))))
          (and_draws _ _ (and_draws _ _ (and_draws _ _ (and_draws _ _ (and_zeros _ _ C1)))))).
        intros [[[[[[t w] x] y] a] b] e] [[[[[[[C W] Hx] Hy] Ha] Hb] He] B']. cbn [bad] in B'. apply orb_true_iff in B'. rewrite !Z.eqb_eq in B'. cbn. tauto. }
      replace (order * (R0 - R1) - (order * R0 - S0 - (order * R1 - S1))) with (S0 - S1) by ring.
      replace (K * (2 * order ^ 5)) with (K * 1 * order * order * order * order * order + K * order * 1 * order * order * order * order) by ring. lia.
  Qed.
End Branch.
