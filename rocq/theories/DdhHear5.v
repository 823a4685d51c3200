(** Someone who listens to oblivious transfers: from the conversations on exponents to the library. *)
From Coq Require Import ZArith Znumtheory Bool List Lia.
From Verif Require Import Outcome FieldModel ZpField SpecField FieldProofs ECGroup ECOrder CurveParams CurveFacts EccModel EccProofs SpecEcc EccThms Emb RF DmeModel SpecDme DmeProofs OtModel OtProofs SpecCount CountMath SpecDdh SpecDdh2 SpecDdh3 SpecDdh4 DdhProofs DdhProofs2 DdhProofs3 DdhMany DdhMany2 DdhServe DdhHear DdhHear2 DdhHear3 DdhHear4 DdhCases.
Import ListNotations.
Open Scope Z_scope.

Section Model.
  Variables (dbg : bool) (live : Z -> bool).
  Notation fn := (fieldn CV).
  Notation like := (like live).
  Notation dlike := (dlike live).

  Lemma like_cong P a b : like P a -> (order | a - b) -> like P b.
  Proof.
    intros [H|[I D]] E.
    - left. apply (rf_cong live CV _ _ _ H). apply mk_order_eq, E.
    - right. split; [exact I|]. replace b with (a - (a - b)) by ring. apply Z.divide_sub_r; assumption.
  Qed.
  Lemma like_mul' P a r : like P a -> exists R, pmul dbg live CV P (em fn (mk fn r)) = Ok R /\ like R (r * a).
  Proof.
    intros [H|[I D]].
    - destruct (pmul_rf dbg live CV good_CV P _ (mk fn r) H) as [R [E K]]. exists R. split; [exact E|]. left. apply (rf_cong live CV _ _ _ K). apply mk_mul.
    - exists P. split; [unfold pmul; rewrite I; reflexivity|]. right. split; [exact I|]. apply Z.divide_mul_r, D.
  Qed.
  Lemma like_add P Q a b : like P a -> like Q b -> exists R, padd dbg live CV P Q = Ok R /\ like R (a + b).
  Proof.
    intros HP HQ. destruct (pinf P) eqn:IP.
    - assert (DA : (order | a)) by (destruct HP as [H|[_ D]]; [apply (rf_pinf live CV good_CV P _ H) in IP; apply mk_order_0 in IP; exact IP|exact D]).
      exists Q. split; [unfold padd; rewrite IP; reflexivity|]. apply (like_cong Q b); [exact HQ|]. replace (b - (a + b)) with (- a) by ring. rewrite Z.divide_opp_r. exact DA.
    - destruct HP as [HP|[I _]]; [|rewrite IP in I; discriminate I]. destruct HQ as [HQ|[IQ DB]].
      + destruct (padd_rf dbg live CV good_CV P Q _ _ HP HQ) as [R [E K]]. exists R. split; [exact E|]. left. apply (rf_cong live CV _ _ _ K). apply mk_add.
      + exists P. split; [unfold padd; rewrite IP, IQ; reflexivity|]. apply (like_cong P a); [left; exact HP|]. replace (a - (a + b)) with (- b) by ring. rewrite Z.divide_opp_r. exact DB.
  Qed.
  Lemma like_valid m : is_valid live m -> exists z, like m z.
  Proof. intros V. destruct (val_rf live m V) as [z KZ]. exists (val fn z). left. apply (rf_cong live CV _ _ _ KZ). symmetry. apply mk_val. Qed.

  Lemma enc_like D c a0 a1 b0 b1 pk x y b m s t : dlike D c a0 a1 b0 b1 -> like (pg pk) x -> like (ph pk) y -> is_valid live m -> branch b ->
    exists ct, Enc dbg live D pk b m s t = Ok ct /\ view ct = (pow (s * at_branch b a0 a1 + t * at_branch b b0 b1), gadd CV (pow (s * x + t * y)) (den CV m)).
  Proof.
    intros [E L A B A' B'] HX HY V Hb. destruct (like_valid m V) as [z HZ]. unfold Enc. rewrite E, !(getRandomScalar_em live CV c _ L). cbn [bind].
    destruct (like_mul' _ _ s HX) as [P1 [-> L1]]. cbn [bind]. destruct (like_mul' _ _ t HY) as [P2 [-> L2]]. cbn [bind]. destruct (like_add _ _ _ _ L1 L2) as [P3 [-> L3]]. cbn [bind].
    destruct (like_add _ _ _ _ L3 HZ) as [P7 [E7 L7]].
    assert (EV : den CV P7 = gadd CV (pow (s * x + t * y)) (den CV m)) by (rewrite (like_den live _ _ L7), (like_den live _ _ HZ), pow_add; reflexivity).
    destruct Hb as [-> | ->]; cbn [Z.eqb Pos.eqb at_branch].
    - destruct (like_mul' _ _ s A) as [P4 [-> L4]]. cbn [bind]. destruct (like_mul' _ _ t A') as [P5 [-> L5]]. cbn [bind]. destruct (like_add _ _ _ _ L4 L5) as [P6 [-> L6]]. cbn [bind].
      rewrite E7. cbn [bind]. eexists. split; [reflexivity|]. unfold view. cbn [cu cmv]. rewrite EV, (like_den live _ _ L6). reflexivity.
    - destruct (like_mul' _ _ s B) as [P4 [-> L4]]. cbn [bind]. destruct (like_mul' _ _ t B') as [P5 [-> L5]]. cbn [bind]. destruct (like_add _ _ _ _ L4 L5) as [P6 [-> L6]]. cbn [bind].
      rewrite E7. cbn [bind]. eexists. split; [reflexivity|]. unfold view. cbn [cu cmv]. rewrite EV, (like_den live _ _ L6). reflexivity.
  Qed.
  Lemma select_like' R c a0 a1 b0 b1 b r : dlike (rdme R) c a0 a1 b0 b1 -> branch b ->
    exists R' pk, selectMsg dbg live R b r = Ok (R', pk) /\ rdme R' = rdme R /\ like (pg pk) (r * at_branch b a0 a1) /\ like (ph pk) (r * at_branch b b0 b1).
  Proof.
    intros [E L A B A' B'] Hb. unfold selectMsg, KeyGen. rewrite E, (getRandomScalar_em live CV c r L). cbn [bind].
    destruct Hb as [-> | ->]; cbn [Z.eqb Pos.eqb at_branch].
    - destruct (like_mul' _ _ r A) as [P [-> D1]]. cbn [bind]. destruct (like_mul' _ _ r A') as [P' [-> D2]]. cbn [bind]. do 2 eexists. split; [reflexivity|].
      split; [reflexivity|]. split; assumption.
    - destruct (like_mul' _ _ r B) as [P [-> D1]]. cbn [bind]. destruct (like_mul' _ _ r B') as [P' [-> D2]]. cbn [bind]. do 2 eexists. split; [reflexivity|].
      split; [reflexivity|]. split; assumption.
  Qed.

  Section Talk.
    Variables (c1 c2 w0 y0 w1 y1 : Z) (M : heard -> point * point).
    Hypothesis V : forall h, is_valid live (fst (M h)) /\ is_valid live (snd (M h)).
    Lemma overheard_hv l : forall R S pk b r seen ds, dlike (rdme R) c1 w0 w1 y0 y1 -> dlike (sdme S) c2 w0 w1 y0 y1 -> good_steps l -> shaped l ds ->
      l = [] \/ key_first l \/ (like (pg pk) (r * at_branch b w0 w1) /\ like (ph pk) (r * at_branch b y0 y1)) ->
      overheard dbg live R S pk M seen l ds = Ok (hv w0 y0 w1 y1 M b r seen l ds).
    Proof.
      induction l as [|s l IH]; intros R S pk b r seen ds HR HS G H HK; inversion H as [|? d ? ds' F H' E1 E2]; subst; [reflexivity|]. fold (shaped l ds') in H'.
      apply Forall_cons_iff in G. destruct G as [G1 G]. destruct s as [b'|].
      - destruct (one_fits b' d F) as [r' [-> Q]]. cbn [overheard hv]. destruct (select_like' R c1 _ _ _ _ b' r' HR G1) as [R' [pk' [-> [ER [L1 L2]]]]]. cbn [bind fst snd].
        unfold elts. rewrite (like_den live _ _ L1), (like_den live _ _ L2). apply IH; [rewrite ER; exact HR|exact HS|exact G|exact H'|right; right; split; assumption].
      - destruct HK as [HK|[[]|[K1 K2]]]; [discriminate HK|]. destruct (four_fits d F) as [s0 [t0 [s1 [t1 [-> [A [B [C D]]]]]]]]. cbn [overheard hv]. unfold encMsgs.
        destruct (enc_like _ _ _ _ _ _ pk _ _ 0 (fst (M seen)) s0 t0 HS K1 K2 (proj1 (V seen)) (or_introl eq_refl)) as [x0 [-> X0]]. cbn [bind].
        destruct (enc_like _ _ _ _ _ _ pk _ _ 1 (snd (M seen)) s1 t1 HS K1 K2 (proj2 (V seen)) (or_intror eq_refl)) as [x1 [-> X1]]. cbn [bind fst snd map app].
        rewrite X0, X1. apply IH; [exact HR|exact HS|exact G|exact H'|right; right; split; assumption].
    Qed.
    Lemma silent_nv l : forall R ds, dlike (rdme R) c1 w0 w1 y0 y1 -> good_steps l -> shaped l ds -> silent dbg live R l ds = Ok (nv w0 y0 w1 y1 l ds).
    Proof.
      induction l as [|s l IH]; intros R ds HR G H; inversion H as [|? d ? ds' F H' E1 E2]; subst; [reflexivity|]. fold (shaped l ds') in H'.
      apply Forall_cons_iff in G. destruct G as [G1 G]. destruct s as [b'|].
      - destruct (one_fits b' d F) as [r' [-> Q]]. cbn [silent nv]. destruct (select_like' R c1 _ _ _ _ b' r' HR G1) as [R' [pk' [-> [ER [L1 L2]]]]]. cbn [bind fst snd].
        rewrite (IH R' ds'); [|rewrite ER; exact HR|exact G|exact H']. cbn [bind]. unfold elts. rewrite (like_den live _ _ L1), (like_den live _ _ L2). reflexivity.
      - destruct (four_fits d F) as [s0 [t0 [s1 [t1 [-> _]]]]]. cbn [silent nv]. rewrite (IH R ds' HR G H'). reflexivity.
    Qed.
  End Talk.

  Variables (c c1 c2 : Z).
  Hypothesis LC : live c = true.
  Hypothesis LC1 : live c1 = true.
  Hypothesis LC2 : live c2 = true.
  Context {T : Type} (coin : T -> Prop).
  Variable l : list step.
  Hypothesis FIRST : key_first l.
  Hypothesis GOOD : good_steps l.
  Variables (M : T -> four -> heard -> point * point) (A : T -> four -> heard -> bool).
  Hypothesis V : forall t k h, is_valid live (fst (M t k h)) /\ is_valid live (snd (M t k h)).
  Lemma new_view r1 r2 r3 r4 : exists D, dme_new_random dbg live c r1 r2 r3 r4 = Ok D /\ crs_view (dcrs D) = kv r1 r2 r3 r4 /\
    dlike (dme_new_crs c1 (dcrs D)) c1 r1 r3 r2 r4 /\ dlike (dme_new_crs c2 (dcrs D)) c2 r1 r3 r2 r4.
  Proof.
    destruct (new_random_rf dbg live c r1 r2 r3 r4 LC) as [D [E HD]]. exists D. split; [exact E|]. split.
    - destruct (drf_like live _ _ _ _ _ _ HD) as [_ _ A0 A1 B0 B1]. unfold crs_view, kv. rewrite (like_den live _ _ A0), (like_den live _ _ A1), (like_den live _ _ B0), (like_den live _ _ B1). reflexivity.
    - split; [exact (moved_like live _ _ _ _ _ _ _ LC1 HD)|exact (moved_like live _ _ _ _ _ _ _ LC2 HD)].
  Qed.
  Lemma talks_game N : talks coin l M A N <-> overheard_guess dbg live c c1 c2 l coin M A N.
  Proof.
    assert (X : forall z : T * Z * Z * Z * Z * list (list Z),
      (let '(t, w0, y0, w1, y1, ds) := z in and_steps l (and_draw (and_draw (and_draw (and_draw coin)))) (t, w0, y0, w1, y1, ds) /\
        A t (kv w0 y0 w1 y1) (hv w0 y0 w1 y1 (M t (kv w0 y0 w1 y1)) 0 0 [] l ds) = true) <->
      (let '(t, r1, r2, r3, r4, ds) := z in coin t /\ draw r1 /\ draw r2 /\ draw r3 /\ draw r4 /\ shaped l ds /\
        exists D h, dme_new_random dbg live c r1 r2 r3 r4 = Ok D /\
          overheard dbg live (otrecv_new (dme_new_crs c1 (dcrs D))) (otsndr_new (dme_new_crs c2 (dcrs D))) pkey_default (M t (crs_view (dcrs D))) [] l ds = Ok h /\
          A t (crs_view (dcrs D)) h = true)).
    { intros [[[[[t w0] y0] w1] y1] ds]. destruct (new_view w0 y0 w1 y1) as [D [E [EV [L1 L2]]]].
      assert (O : shaped l ds -> overheard dbg live (otrecv_new (dme_new_crs c1 (dcrs D))) (otsndr_new (dme_new_crs c2 (dcrs D))) pkey_default (M t (kv w0 y0 w1 y1)) [] l ds =
        Ok (hv w0 y0 w1 y1 (M t (kv w0 y0 w1 y1)) 0 0 [] l ds)).
      { intros H. apply (overheard_hv c1 c2); [intros h; apply V|exact L1|exact L2|exact GOOD|exact H|right; left; exact FIRST]. }
      split.
      - intros [[[[[[C W0] Y0] W1] Y1] H] EA]. split; [exact C|]. split; [exact W0|]. split; [exact Y0|]. split; [exact W1|]. split; [exact Y1|]. split; [exact H|].
        exists D. eexists. split; [exact E|]. rewrite EV. split; [exact (O H)|exact EA].
      - intros [C [W0 [Y0 [W1 [Y1 [H [D' [h [E' [EO EA]]]]]]]]]]. rewrite E in E'. apply Ok_inj in E'. subst D'. rewrite EV in EO, EA. rewrite (O H) in EO. apply Ok_inj in EO. subst h.
        split; [|exact EA]. split; [|exact H]. split; [split; [split; [split; [exact C|exact W0]|exact Y0]|exact W1]|exact Y1]. }
    split; apply how_many_same; intros z; [|symmetry]; apply X.
  Qed.
  Lemma mumbles_game N : mumbles coin l A N <-> silent_guess dbg live c c1 l coin A N.
  Proof.
    assert (X : forall z : T * Z * Z * Z * Z * list (list Z),
      (let '(t, w0, y0, w1, y1, ds) := z in and_steps l (and_draw (and_draw (and_draw (and_draw coin)))) (t, w0, y0, w1, y1, ds) /\
        A t (kv w0 y0 w1 y1) (nv w0 y0 w1 y1 l ds) = true) <->
      (let '(t, r1, r2, r3, r4, ds) := z in coin t /\ draw r1 /\ draw r2 /\ draw r3 /\ draw r4 /\ shaped l ds /\
        exists D h, dme_new_random dbg live c r1 r2 r3 r4 = Ok D /\ silent dbg live (otrecv_new (dme_new_crs c1 (dcrs D))) l ds = Ok h /\
          A t (crs_view (dcrs D)) h = true)).
    { intros [[[[[t w0] y0] w1] y1] ds]. destruct (new_view w0 y0 w1 y1) as [D [E [EV [L1 L2]]]].
      assert (O : shaped l ds -> silent dbg live (otrecv_new (dme_new_crs c1 (dcrs D))) l ds = Ok (nv w0 y0 w1 y1 l ds)).
      { intros H. apply (silent_nv c1); [exact L1|exact GOOD|exact H]. }
      split.
      - intros [[[[[[C W0] Y0] W1] Y1] H] EA]. split; [exact C|]. split; [exact W0|]. split; [exact Y0|]. split; [exact W1|]. split; [exact Y1|]. split; [exact H|].
        exists D. eexists. split; [exact E|]. rewrite EV. split; [exact (O H)|exact EA].
      - intros [C [W0 [Y0 [W1 [Y1 [H [D' [h [E' [EO EA]]]]]]]]]]. rewrite E in E'. apply Ok_inj in E'. subst D'. rewrite EV in EA. rewrite (O H) in EO. apply Ok_inj in EO. subst h.
        split; [|exact EA]. split; [|exact H]. split; [split; [split; [split; [exact C|exact W0]|exact Y0]|exact W1]|exact Y1]. }
    split; apply how_many_same; intros z; [|symmetry]; apply X.
  Qed.
End Model.

Lemma hear_all dbg live c c1 c2 : live c = true -> live c1 = true -> live c2 = true ->
  forall (T : Type) (coin : T -> Prop) K, how_many coin K -> forall l M A, key_first l -> good_steps l -> (forall t k h, is_valid live (fst (M t k h)) /\ is_valid live (snd (M t k h))) ->
  exists N W g, overheard_guess dbg live c c1 c2 l coin M A N /\ silent_guess dbg live c c1 l coin A W /\
    ddh_gap (and_steps l (and_draw (and_draw (and_draw (and_draw coin))))) (with_string l M A) g /\
    Z.abs (order ^ 3 * (N - W) - g) <= (4 + Z.of_nat (keys_in l)) * K * order ^ (Z.of_nat (needs l) + 6).
Proof.
  intros L L1 L2 T coin K H l M A F G V. destruct (talks_exists coin K H l M A) as [N HN]. destruct (mumbles_exists coin K H l A) as [W HW].
  destruct (gap_exists _ _ (and_steps_count l _ _ (CCs coin K H)) (with_string l M A)) as [g HG].
  exists N, W, g. split; [apply talks_game; assumption|]. split; [apply (mumbles_game dbg live c c1 c2); assumption|]. split; [exact HG|]. exact (hear_close live coin K H l F M A V N W g HN HW HG).
Qed.
