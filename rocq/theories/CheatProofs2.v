(** A receiver that sends any public key it likes: strings, the infinite key, and the oblivious PRF. *)
From Coq Require Import ZArith Znumtheory Bool List Lia.
From Verif Require Import Outcome FieldModel ZpField SpecField FieldProofs ECGroup ECOrder CurveParams CurveFacts EccModel EccProofs SpecEcc EccThms Emb RF DmeModel SpecDme DmeProofs OtModel OtProofs SpecCount CountMath SpecDdh SpecDdh2 SpecDdh3 SpecDdh4 DdhProofs DdhProofs2 DdhCases DdhMany DdhMany2 DdhHear DdhHear5 SpecCheat CheatProofs.
From Verif Require Import CrcModel AesModel SpecAes OpprfModel SpecOpprf SpecOpprf6 OpprfProofs OpprfProofs2 OpprfProofs3 OpprfProofs13 OpprfProofs14 OpprfProofs15 TestProofs2.
Import ListNotations.
Open Scope Z_scope.

Section Cheat.
  Variables (dbg : bool) (live : Z -> bool).
  Notation like := (DdhMany2.like live).
  Notation dlike := (dlike live).
  Notation hidden := (hidden dbg live).
  Notation revealed := (revealed dbg live).

  Lemma ok_like D : dme_ok live D -> exists c a0 a1 b0 b1, dlike D c a0 a1 b0 b1.
  Proof.
    intros [[c [E L]] [V0 [V1 [V2 V3]]]]. destruct (like_valid live _ V0) as [a0 H0]. destruct (like_valid live _ V1) as [a1 H1].
    destruct (like_valid live _ V2) as [b0 H2]. destruct (like_valid live _ V3) as [b1 H3]. exists c, a0, a1, b0, b1. constructor; assumption.
  Qed.
  Lemma like_pinf P a : like P a -> (pinf P = true <-> (order | a)).
  Proof.
    intros [H|[I D]]; [|split; intros _; assumption]. rewrite (rf_pinf live CV good_CV P _ H). apply mk_order_0.
  Qed.
  Lemma some_like pk x y : like (pg pk) x -> like (ph pk) y -> (pinf (pg pk) = false \/ pinf (ph pk) = false <-> ~ ((order | x) /\ (order | y))).
  Proof.
    intros HX HY. rewrite <- (like_pinf _ _ HX), <- (like_pinf _ _ HY). destruct (pinf (pg pk)), (pinf (ph pk)); intuition discriminate.
  Qed.

  Lemma L_C117_either S pk b : dme_ok live (sdme S) -> pk_valid live pk -> branch b -> hidden S pk b \/ revealed S pk b.
  Proof.
    intros OK [VX VY] Hb. destruct (ok_like _ OK) as [c [a0 [a1 [b0 [b1 HD]]]]]. destruct (like_valid live _ VX) as [x HX]. destruct (like_valid live _ VY) as [y HY].
    destruct (either dbg live S c a0 a1 b0 b1 pk x y b HD HX HY Hb) as [[_ H]|H]; [right|left]; exact H.
  Qed.

  (** the generator and infinity as messages tell the two apart *)
  Lemma inf_valid : is_valid live (pt_inf CV).
  Proof. left. reflexivity. Qed.
  Lemma no_draw_none : 0 < order * order * order * order.
  Proof. pose proof order_pos. apply Z.mul_pos_pos; [apply Z.mul_pos_pos; [apply Z.mul_pos_pos|]|]; lia. Qed.
  Definition is_elt (g : elt) (f : list (elt * elt) -> elt) (l : list (elt * elt)) : bool := if ept_dec (c_prime CV) (f l) g then true else false.
  Lemma gen_valid c : live c = true -> is_valid live (gen CV c) /\ den CV (gen CV c) = pow 1.
  Proof. intros L. pose proof (rf_gen live CV good_CV c L) as H. split; [exact (rf_val live _ _ H)|]. apply (rf_pow live). apply (rf_cong live CV _ _ _ H). reflexivity. Qed.
  Lemma not_both S pk b c : live c = true -> ~ (hidden S pk b /\ revealed S pk b).
  Proof.
    intros L [H [f F]]. destruct (gen_valid c L) as [VG EG].
    destruct (H (gen CV c) (pt_inf CV) (pt_inf CV) (is_elt (pow 1) f) VG inf_valid inf_valid) as [N [J J']].
    assert (E : N = order * order * order * order).
    { apply (how_many_unique _ _ _ J). refine (how_many_same _ _ _ _ (four_draws live)). intros [[[s0 t0] s1] t1]. split.
      - intros [D0 [D1 [D2 D3]]]. split; [exact D0|]. split; [exact D1|]. split; [exact D2|]. split; [exact D3|].
        destruct (F (gen CV c) (pt_inf CV) s0 t0 s1 t1 VG inf_valid) as [S' [cs [E EF]]]. exists S', cs. split; [exact E|]. unfold is_elt. rewrite EF, EG.
        destruct (ept_dec (c_prime CV) (pow 1) (pow 1)) as [_|X]; [reflexivity|destruct (X eq_refl)].
      - intros [D0 [D1 [D2 [D3 _]]]]. split; [exact D0|]. split; [exact D1|]. split; [exact D2|exact D3]. }
    assert (E' : N = 0).
    { apply (how_many_unique _ _ _ J'). exists []. split; [constructor|]. split; [|reflexivity]. intros [[[s0 t0] s1] t1]. split; [intros []|].
      intros [_ [_ [_ [_ [S' [cs [E1 EA]]]]]]]. destruct (F (pt_inf CV) (pt_inf CV) s0 t0 s1 t1 inf_valid inf_valid) as [S2 [cs2 [E2 EF]]]. rewrite E1 in E2. apply Ok_inj in E2.
      assert (cs = cs2) as <- by congruence. unfold is_elt in EA. rewrite EF in EA. destruct (ept_dec (c_prime CV) (den CV (pt_inf CV)) (pow 1)) as [X|_]; [|discriminate EA].
      assert (X' : pow 0 = pow 1) by (rewrite <- X; reflexivity). apply pow_eq in X'. apply order_one. apply Z.divide_opp_r. exact X'. }
    pose proof no_draw_none. lia.
  Qed.
  Lemma L_C117_not_both S pk b : dme_ok live (sdme S) -> hidden S pk b -> ~ revealed S pk b.
  Proof. intros [[c [_ L]] _] H R. exact (not_both S pk b c L (conj H R)). Qed.

  (** ** Strings *)
  Definition cond (a0 b0 a1 b1 : Z) : Prop := exists k0 k1, ~ ((order | k0 * a0) /\ (order | k0 * b0)) /\ (order | k0 * a0 - k1 * a1) /\ (order | k0 * b0 - k1 * b1).
  Lemma double_cond S c a0 a1 b0 b1 : dlike (sdme S) c a0 a1 b0 b1 -> (double_string dbg live S <-> cond a0 b0 a1 b1).
  Proof.
    intros HD. pose proof (dl_live _ _ _ _ _ _ _ HD) as L. split.
    - intros [pk [[[VX VY] F] [R0 R1]]]. destruct (like_valid live _ VX) as [x HX]. destruct (like_valid live _ VY) as [y HY]. apply (some_like pk x y HX HY) in F.
      destruct (either dbg live S c a0 a1 b0 b1 pk x y 0 HD HX HY (or_introl eq_refl)) as [[[k0 [A0 B0]] _]|H]; [|destruct (not_both S pk 0 c L (conj H R0))].
      destruct (either dbg live S c a0 a1 b0 b1 pk x y 1 HD HX HY (or_intror eq_refl)) as [[[k1 [A1 B1]] _]|H]; [|destruct (not_both S pk 1 c L (conj H R1))].
      cbn [at_branch Z.eqb Pos.eqb] in *. exists k0, k1. split; [|split].
      + intros [X Y]. apply F. split; [replace x with (1 * (x - k0 * a0) + 1 * (k0 * a0)) by ring|replace y with (1 * (y - k0 * b0) + 1 * (k0 * b0)) by ring]; apply order_lin; assumption.
      + replace (k0 * a0 - k1 * a1) with (-1 * (x - k0 * a0) + 1 * (x - k1 * a1)) by ring. apply order_lin; assumption.
      + replace (k0 * b0 - k1 * b1) with (-1 * (y - k0 * b0) + 1 * (y - k1 * b1)) by ring. apply order_lin; assumption.
    - intros [k0 [k1 [F [A B]]]].
      destruct (randP_m dbg live c (k0 * a0) L) as [P [_ MP]]. destruct (randP_m dbg live c (k0 * b0) L) as [Q [_ MQ]].
      pose proof (proj1 (multiple_rf live _ _) MP) as HP. pose proof (proj1 (multiple_rf live _ _) MQ) as HQ.
      exists (mkpk P Q). assert (HX : like (pg (mkpk P Q)) (k0 * a0)) by (left; exact HP). assert (HY : like (ph (mkpk P Q)) (k0 * b0)) by (left; exact HQ).
      split; [split; [split; [exact (proj1 MP)|exact (proj1 MQ)]|]; exact (proj2 (some_like _ _ _ HX HY) F)|]. split.
      + apply (revealed_if dbg live S c a0 a1 b0 b1 _ _ _ 0 k0 HD HX HY (or_introl eq_refl)); cbn [at_branch Z.eqb]; rewrite Z.sub_diag; apply Z.divide_0_r.
      + apply (revealed_if dbg live S c a0 a1 b0 b1 _ _ _ 1 k1 HD HX HY (or_intror eq_refl)); cbn [at_branch Z.eqb Pos.eqb]; assumption.
  Qed.

  Lemma pairs_count : how_many (fun z : Z * Z => (draw (fst z) /\ draw (snd z)) /\ ~ (fst z = 0 /\ snd z = 0)) (order ^ 2 - 1).
  Proof.
    pose proof order_pos as OP.
    assert (H1 : how_many (fun z : Z * Z => 1 <= fst z < order /\ draw (snd z)) ((order - 1) * order)) by (apply (how_many_prod (fun a => 1 <= a < order) draw); [apply range_count; lia|exact draws]).
    assert (H2 : how_many (fun z : Z * Z => fst z = 0 /\ 1 <= snd z < order) (1 * (order - 1))).
    { apply (how_many_prod (fun a => a = 0) (fun a => 1 <= a < order)); [|apply range_count; lia]. exists [0]. split; [constructor; [intros []|constructor]|]. split; [|reflexivity].
      intros z. cbn. intuition lia. }
    replace (order ^ 2 - 1) with ((order - 1) * order + 1 * (order - 1)) by ring. refine (how_many_same _ _ _ _ (how_many_or _ _ _ _ H1 H2 _)).
    - intros [u v]. cbn [fst snd]. unfold draw. lia.
    - intros [u v]. cbn [fst snd]. lia.
  Qed.
  Lemma congr_mod u v : draw u -> ((order | u - v) <-> u = v mod order).
  Proof.
    intros D. pose proof order_pos as OP. split.
    - intros H. rewrite <- (Z.mod_small u order D). apply Z.mod_divide in H; [|lia]. rewrite Zminus_mod in H. apply Z.mod_divide in H; [|lia].
      pose proof (Z.mod_pos_bound u order ltac:(lia)). pose proof (Z.mod_pos_bound v order ltac:(lia)). destruct H as [q E]. assert (q = 0) by nia. lia.
    - intros ->. apply Z.mod_divide; [lia|]. rewrite Zminus_mod, Z.mod_mod, Z.sub_diag by lia. reflexivity.
  Qed.
  Lemma cond_is r1 r2 r3 r4 : draw r1 -> draw r2 -> draw r3 -> draw r4 ->
    (cond r1 r2 r3 r4 <-> ~ (r1 = 0 /\ r2 = 0) /\ exists k, 1 <= k < order /\ r3 = (k * r1) mod order /\ r4 = (k * r2) mod order).
  Proof.
    intros D1 D2 D3 D4. pose proof order_pos as OP. split.
    - intros [k0 [k1 [F [A B]]]].
      assert (N : ~ (order | k0)) by (intros X; apply F; split; apply Z.divide_mul_l, X).
      assert (N1 : ~ (order | k1)).
      { intros X. apply F. split; [replace (k0 * r1) with (1 * (k0 * r1 - k1 * r3) + r3 * k1) by ring|replace (k0 * r2) with (1 * (k0 * r2 - k1 * r4) + r4 * k1) by ring]; apply order_lin; assumption. }
      split; [intros [-> ->]; apply F; rewrite Z.mul_0_r; split; apply Z.divide_0_r|].
      destruct (order_inv k1 N1) as [i I]. exists ((i * k0) mod order). split; [|split].
      + pose proof (Z.mod_pos_bound (i * k0) order ltac:(lia)). destruct (Z.eq_dec ((i * k0) mod order) 0) as [E|NE]; [|lia]. apply Z.mod_divide in E; [|lia]. apply order_mult in E. destruct E as [E|E]; [|contradiction].
        destruct order_one. replace 1 with (k1 * i + -1 * (i * k1 - 1)) by ring. apply order_lin; assumption.
      + rewrite Zmult_mod_idemp_l. apply (proj1 (congr_mod r3 (i * k0 * r1) D3)). replace (r3 - i * k0 * r1) with (- r3 * (i * k1 - 1) + (- i) * (k0 * r1 - k1 * r3)) by ring. apply order_lin; assumption.
      + rewrite Zmult_mod_idemp_l. apply (proj1 (congr_mod r4 (i * k0 * r2) D4)). replace (r4 - i * k0 * r2) with (- r4 * (i * k1 - 1) + (- i) * (k0 * r2 - k1 * r4)) by ring. apply order_lin; assumption.
    - intros [NZ [k [K [E3 E4]]]]. exists k, 1. apply (proj2 (congr_mod r3 _ D3)) in E3. apply (proj2 (congr_mod r4 _ D4)) in E4. split; [|split].
      + assert (KN : ~ (order | k)) by (intros X; apply Z.divide_pos_le in X; lia). intros [X Y]. apply order_mult in X, Y. apply NZ. split; apply draw_order; tauto.
      + replace (k * r1 - 1 * r3) with (-1 * (r3 - k * r1)) by ring. apply Z.divide_mul_r, E3.
      + replace (k * r2 - 1 * r4) with (-1 * (r4 - k * r2)) by ring. apply Z.divide_mul_r, E4.
  Qed.
  Lemma cond_count : how_many (fun '(r1, r2, r3, r4) => (draw r1 /\ draw r2 /\ draw r3 /\ draw r4) /\ cond r1 r2 r3 r4) ((order ^ 2 - 1) * (order - 1)).
  Proof.
    pose proof order_pos as OP.
    assert (H : how_many (fun z : (Z * Z) * Z => ((draw (fst (fst z)) /\ draw (snd (fst z))) /\ ~ (fst (fst z) = 0 /\ snd (fst z) = 0)) /\ 1 <= snd z < order) ((order ^ 2 - 1) * (order - 1))).
    { apply (how_many_prod (fun z : Z * Z => (draw (fst z) /\ draw (snd z)) /\ ~ (fst z = 0 /\ snd z = 0)) (fun k => 1 <= k < order)); [exact pairs_count|apply range_count; lia]. }
    refine (how_many_map (fun z : (Z * Z) * Z => let '(u, v, k) := z in (u, v, (k * u) mod order, (k * v) mod order)) _ _ _ H _ _).
    - intros [[u v] k] [[u' v'] k']. cbn [fst snd]. intros [[[DU DV] NZ] K] [_ K'] E.
      assert (u' = u /\ v' = v /\ (k * u) mod order = (k' * u') mod order /\ (k * v) mod order = (k' * v') mod order) as [-> [-> [E1 E2]]] by (split; [|split; [|split]]; congruence).
      assert (Q1 : (order | (k - k') * u)) by (apply Z.mod_divide; [lia|]; rewrite Z.mul_sub_distr_r, Zminus_mod, E1, Z.sub_diag; reflexivity).
      assert (Q2 : (order | (k - k') * v)) by (apply Z.mod_divide; [lia|]; rewrite Z.mul_sub_distr_r, Zminus_mod, E2, Z.sub_diag; reflexivity).
      apply order_mult in Q1, Q2. assert (QK : (order | k - k')) by (rewrite (draw_order u DU) in Q1; rewrite (draw_order v DV) in Q2; tauto).
      destruct QK as [q Q]. assert (q = 0) by nia. assert (k = k') as -> by lia. reflexivity.
    - intros [[[r1 r2] r3] r4]. split.
      + intros [[D1 [D2 [D3 D4]]] C]. apply (cond_is r1 r2 r3 r4 D1 D2 D3 D4) in C. destruct C as [NZ [k [K [-> ->]]]]. exists (r1, r2, k). cbn [fst snd]. split; [|reflexivity].
        split; [split; [split; assumption|exact NZ]|exact K].
      + intros [[[u v] k] [H1 E]]. cbn [fst snd] in H1. destruct H1 as [[[DU DV] NZ] K].
        assert (u = r1 /\ v = r2 /\ (k * u) mod order = r3 /\ (k * v) mod order = r4) as [-> [-> [<- <-]]] by (split; [|split; [|split]]; congruence).
        assert (D3 : draw ((k * r1) mod order)) by (unfold draw; apply Z.mod_pos_bound; lia). assert (D4 : draw ((k * r2) mod order)) by (unfold draw; apply Z.mod_pos_bound; lia).
        split; [split; [exact DU|]; split; [exact DV|]; split; assumption|]. apply (cond_is r1 r2 _ _ DU DV D3 D4). split; [exact NZ|]. exists k. split; [exact K|]. split; reflexivity.
  Qed.

  Section Strings.
    Variables (c c2 : Z).
    Hypothesis LC : live c = true.
    Hypothesis LC2 : live c2 = true.
    Notation sender D := (otsndr_new (dme_new_crs c2 (dcrs D))).
    Lemma string_like r1 r2 r3 r4 : exists D, dme_new_random dbg live c r1 r2 r3 r4 = Ok D /\ dlike (sdme (sender D)) c2 r1 r3 r2 r4.
    Proof. destruct (new_view dbg live c c2 c2 LC LC2 LC2 r1 r2 r3 r4) as [D [E [_ [L _]]]]. exists D. split; [exact E|exact L]. Qed.
    Lemma L_C117_strings : how_many (fun '(r1, r2, r3, r4) => draw r1 /\ draw r2 /\ draw r3 /\ draw r4 /\
      exists D, dme_new_random dbg live c r1 r2 r3 r4 = Ok D /\ double_string dbg live (sender D)) ((order ^ 2 - 1) * (order - 1)).
    Proof.
      refine (how_many_same _ _ _ _ cond_count). intros [[[r1 r2] r3] r4]. destruct (string_like r1 r2 r3 r4) as [D [E L]]. pose proof (double_cond (sender D) c2 _ _ _ _ L) as X. split.
      - intros [[D1 [D2 [D3 D4]]] C]. split; [exact D1|]. split; [exact D2|]. split; [exact D3|]. split; [exact D4|]. exists D. split; [exact E|]. apply X, C.
      - intros [D1 [D2 [D3 [D4 [D' [E' C]]]]]]. rewrite E in E'. apply Ok_inj in E'. subst D'. split; [split; [exact D1|]; split; [exact D2|]; split; assumption|]. apply X, C.
    Qed.
    Lemma L_C117_one r1 r2 r3 r4 D pk : dme_new_random dbg live c r1 r2 r3 r4 = Ok D -> ~ double_string dbg live (sender D) -> some_key live pk ->
      hidden (sender D) pk 0 \/ hidden (sender D) pk 1.
    Proof.
      intros E ND SK. destruct (string_like r1 r2 r3 r4) as [D' [E' HD]]. rewrite E in E'. apply Ok_inj in E'. subst D'.
      pose proof (proj1 SK) as [VX VY]. destruct (like_valid live _ VX) as [x HX]. destruct (like_valid live _ VY) as [y HY].
      destruct (either dbg live _ c2 _ _ _ _ pk x y 0 HD HX HY (or_introl eq_refl)) as [[_ R0]|H]; [|left; exact H].
      destruct (either dbg live _ c2 _ _ _ _ pk x y 1 HD HX HY (or_intror eq_refl)) as [[_ R1]|H]; [|right; exact H].
      destruct ND. exists pk. split; [exact SK|]. split; [exact R0|exact R1].
    Qed.
  End Strings.

  (** ** The key of two infinities *)
  Definition inf_key (pk : pkey) : Prop := pinf (pg pk) = true /\ pinf (ph pk) = true.
  Lemma enc_inf D pk b m s t : dme_ok live D -> inf_key pk -> branch b -> exists ct, Enc dbg live D pk b m s t = Ok ct /\ cmv ct = m.
  Proof.
    intros OK [I J] Hb. destruct (ok_like D OK) as [c [a0 [a1 [b0 [b1 [E L A B A' B']]]]]].
    unfold Enc. rewrite E, !(getRandomScalar_em live CV c _ L). cbn [bind].
    assert (X1 : pmul dbg live CV (pg pk) (em (fieldn CV) (mk (fieldn CV) s)) = Ok (pg pk)) by (unfold pmul; rewrite I; reflexivity).
    assert (X2 : pmul dbg live CV (ph pk) (em (fieldn CV) (mk (fieldn CV) t)) = Ok (ph pk)) by (unfold pmul; rewrite J; reflexivity).
    assert (X3 : padd dbg live CV (pg pk) (ph pk) = Ok (ph pk)) by (unfold padd; rewrite I; reflexivity).
    assert (X4 : padd dbg live CV (ph pk) m = Ok m) by (unfold padd; rewrite J; reflexivity).
    rewrite X1. cbn [bind]. rewrite X2. cbn [bind]. rewrite X3. cbn [bind].
    destruct Hb as [-> | ->]; cbn [Z.eqb Pos.eqb].
    - destruct (like_mul' dbg live _ _ s A) as [P4 [-> L4]]. cbn [bind]. destruct (like_mul' dbg live _ _ t A') as [P5 [-> L5]]. cbn [bind]. destruct (like_add dbg live _ _ _ _ L4 L5) as [P6 [-> L6]]. cbn [bind].
      rewrite X4. cbn [bind]. eexists. split; [reflexivity|reflexivity].
    - destruct (like_mul' dbg live _ _ s B) as [P4 [-> L4]]. cbn [bind]. destruct (like_mul' dbg live _ _ t B') as [P5 [-> L5]]. cbn [bind]. destruct (like_add dbg live _ _ _ _ L4 L5) as [P6 [-> L6]]. cbn [bind].
      rewrite X4. cbn [bind]. eexists. split; [reflexivity|reflexivity].
  Qed.
  Lemma L_C117_clear S pk m0 m1 s0 t0 s1 t1 : dme_ok live (sdme S) -> pinf (pg pk) = true -> pinf (ph pk) = true ->
    exists S' c0 c1, encMsgs dbg live S pk m0 m1 s0 t0 s1 t1 = Ok (S', [c0; c1]) /\ sdme S' = sdme S /\ cmv c0 = m0 /\ cmv c1 = m1.
  Proof.
    intros OK I J. unfold encMsgs. destruct (enc_inf _ pk 0 m0 s0 t0 OK (conj I J) (or_introl eq_refl)) as [c0 [-> E0]].
    destruct (enc_inf _ pk 1 m1 s1 t1 OK (conj I J) (or_intror eq_refl)) as [c1 [-> E1]]. cbn [bind app]. do 3 eexists. split; [reflexivity|]. split; [reflexivity|]. split; assumption.
  Qed.

  (** ** The oblivious PRF *)
  Lemma encP_inf V pk m0 m1 q : dme_ok live (sdme (ots V)) -> inf_key pk ->
    exists o c0 c1, encP dbg live V pk m0 m1 q = Ok (set_ots V o, [c0; c1]) /\ sdme o = sdme (ots V) /\ cmv c0 = m0 /\ cmv c1 = m1.
  Proof.
    intros OK [I J]. unfold encP. destruct (L_C117_clear (ots V) pk m0 m1 (q_s0 q) (q_t0 q) (q_s1 q) (q_t1 q) OK I J) as [o [c0 [c1 [-> [E [E0 E1]]]]]]. cbn [bind fst snd].
    exists o, c0, c1. split; [reflexivity|]. split; [exact E|]. split; assumption.
  Qed.
  Lemma encZ_inf V pk m0 m1 q : dme_ok live (sdme (ots V)) -> inf_key pk ->
    exists o v, encZ dbg live V pk m0 m1 q = Ok (set_ots V o, v) /\ sdme o = sdme (ots V).
  Proof.
    intros OK I. pose proof OK as [[c [E L]] _]. unfold encZ, encMsgsZ, EncZ.
    destruct (encode_log dbg live (sdme (ots V)) c m0 E L) as [P0 [_ [-> _]]]. destruct (encode_log dbg live (sdme (ots V)) c m1 E L) as [P1 [_ [-> _]]]. cbn [bind].
    destruct (enc_inf _ pk 0 P0 (q_s0 q) (q_t0 q) OK I (or_introl eq_refl)) as [c0 [-> E0]]. destruct (enc_inf _ pk 1 P1 (q_s1 q) (q_t1 q) OK I (or_intror eq_refl)) as [c1 [-> E1]].
    cbn [bind app fst snd]. do 2 eexists. split; [reflexivity|reflexivity].
  Qed.
  Lemma round_inf V pk r qa qb qc qp u v : dme_ok live (sdme (ots V)) -> inf_key pk -> 1 <= r <= 16 -> length (Si0 V) = 16%nat -> length (Si1 V) = 16%nat ->
    exists V' o c0 c1, runOTRound dbg live V r pk qa qb qc qp u v = Ok (V', o) /\ ocprf o = [c0; c1] /\ cmv c0 = share V r 0 /\ cmv c1 = share V r 1.
  Proof.
    intros OK I RG L0 L1. unfold runOTRound, share. change BITS with 16. destruct (Z.eqb_spec r 16) as [->|NE].
    - destruct (encZ_inf V pk (lk (Sl0 V)) (lk (Sl1 V)) qa OK I) as [o1 [v1 [-> D1]]]. cbn [bind fst snd].
      destruct (encP_inf (set_ots V o1) pk (lprf (Sl0 V)) (lprf (Sl1 V)) qp) as [o2 [c0 [c1 [-> [D2 [E0 E1]]]]]]; [cbn [set_ots ots]; rewrite D1; exact OK|exact I|]. cbn [bind fst snd].
      do 4 eexists. split; [reflexivity|]. split; [reflexivity|]. split; [exact E0|exact E1].
    - destruct (nth_error (Si0 V) (Z.to_nat r)) as [r0|] eqn:N0; [|apply nth_error_None in N0; lia].
      destruct (nth_error (Si1 V) (Z.to_nat r)) as [r1|] eqn:N1; [|apply nth_error_None in N1; lia].
      unfold vat. rewrite (proj2 (Z.ltb_ge r 0)) by lia. rewrite N0, N1. cbn [bind Z.eqb].
      destruct (encZ_inf V pk (ilt r0) (ilt r1) qa OK I) as [o1 [v1 [-> D1]]]. cbn [bind fst snd].
      assert (OK1 : dme_ok live (sdme (ots (set_ots V o1)))) by (cbn [set_ots ots]; rewrite D1; exact OK).
      destruct (encZ_inf (set_ots V o1) pk (ieq r0) (ieq r1) qb OK1 I) as [o2 [v2 [-> D2]]]. cbn [bind fst snd].
      assert (OK2 : dme_ok live (sdme (ots (set_ots (set_ots V o1) o2)))) by (cbn [set_ots ots]; rewrite D2; exact OK1).
      destruct (encZ_inf _ pk (igt r0) (igt r1) qc OK2 I) as [o3 [v3 [-> D3]]]. cbn [bind fst snd].
      assert (OK3 : dme_ok live (sdme (ots (set_ots (set_ots (set_ots V o1) o2) o3)))) by (cbn [set_ots ots]; rewrite D3; exact OK2).
      destruct (encP_inf _ pk (iprf r0) (iprf r1) qp OK3 I) as [o4 [c0 [c1 [-> [D4 [E0 E1]]]]]]. cbn [bind fst snd].
      do 4 eexists. split; [reflexivity|]. split; [reflexivity|]. rewrite N0, N1. split; [exact E0|exact E1].
  Qed.

  Variables (e : env) (iv : list Z).
  Lemma L_C117_secret S0 C0 a l S C r pk qa qb qc qp u v : fresh_server S0 -> server_ready live S0 a -> history dbg live e iv l (S0, C0) = Ok (S, C) ->
    1 <= r <= 16 -> loaded l r -> pinf (pg pk) = true -> pinf (ph pk) = true ->
    exists S' o c0 c1 N Q G, runOTRound dbg live S r pk qa qb qc qp u v = Ok (S', o) /\ ocprf o = [c0; c1] /\
      pmulz dbg live CV (cmv c0) (-1) = Ok N /\ padd dbg live CV (cmv c1) N = Ok Q /\ pmulz dbg live CV Q (halve (r - 1)) = Ok G /\
      is_valid live G /\ same_point G (ga S0).
  Proof.
    intros F SR H RG LD I J. destruct (history_share dbg live e iv S0 C0 a l S C r F SR H RG LD) as [w [M0 M1]].
    pose proof (history_keeps dbg live e iv l S0 C0 S C H) as [[CF RO] _]. unfold config in CF.
    assert (CF0 : sdme (ots S) = sdme (ots S0)) by congruence. destruct (RO (sr_rows _ _ _ SR)) as [L0 L1].
    assert (OKS : dme_ok live (sdme (ots S))) by (rewrite CF0; apply (sr_ots _ _ _ SR)).
    destruct (round_inf S pk r qa qb qc qp u v OKS (conj I J) RG L0 L1) as [S' [o [c0 [c1 [E [EO [E0 E1]]]]]]].
    rewrite <- E0 in M0. rewrite <- E1 in M1.
    destruct (pmulz_m dbg live _ _ (-1) M0) as [N [EN MN]]. destruct (padd_m dbg live _ N _ _ M1 MN) as [Q [EQ MQ]].
    destruct (pmulz_m dbg live Q _ (halve (r - 1)) MQ) as [G [EG MG]].
    exists S', o, c0, c1, N, Q, G. split; [exact E|]. split; [exact EO|]. split; [exact EN|]. split; [exact EQ|]. split; [exact EG|].
    destruct (halve_ok (r - 1)) as [q Eq]; [lia|].
    assert (MA : multiple live G a).
    { apply (mult_mod live _ _ _ MG). exists (q * a). replace (halve (r - 1) * (2 ^ (r - 1) * a + w + -1 * w) - a) with ((halve (r - 1) * 2 ^ (r - 1) - 1) * a) by ring.
      rewrite Eq. ring. }
    split; [exact (multiple_valid live _ _ MA)|]. unfold same_point. rewrite (proj2 MA). symmetry. apply (sr_ga _ _ _ SR).
  Qed.
End Cheat.
