(** A client that cheats in one round of an evaluation. *)
From Coq Require Import ZArith Znumtheory Bool List Lia.
From Verif Require Import Outcome FieldModel ZpField SpecField FieldProofs ECGroup ECOrder CurveParams CurveFacts EccModel EccProofs SpecEcc EccThms Emb RF DmeModel SpecDme DmeProofs OtModel OtProofs SpecDdh SpecCheat CheatProofs CheatProofs2.
From Verif Require Import CrcModel SpecCrc AesModel SpecAes OpprfModel SpecOpprf SpecOpprf6 OpprfProofs OpprfProofs13 OpprfProofs14 OpprfProofs15.
Import ListNotations.
Open Scope Z_scope.

Section Cheat.
  Variables (dbg : bool) (live : Z -> bool) (e : env) (iv : list Z).
  Notation multiple := (multiple live).

  Lemma encZ_clear V pk m0 m1 q : dme_ok live (sdme (ots V)) -> inf_key pk ->
    exists o c0 c1, encZ dbg live V pk m0 m1 q = Ok (set_ots V o, [c0; c1]) /\ sdme o = sdme (ots V) /\
      (encodable m0 -> decode (cmv c0) = m0) /\ (encodable m1 -> decode (cmv c1) = m1).
  Proof.
    intros OK I. pose proof OK as [[c [E L]] _]. unfold encZ, encMsgsZ, EncZ.
    destruct (L_C32_encode dbg live c _ m0 E L) as [i0 [P0 [_ [EP0 _]]]]. destruct (L_C32_encode dbg live c _ m1 E L) as [i1 [P1 [_ [EP1 _]]]]. rewrite EP0, EP1. cbn [bind].
    destruct (enc_inf dbg live _ pk 0 P0 (q_s0 q) (q_t0 q) OK I (or_introl eq_refl)) as [c0 [-> E0]]. destruct (enc_inf dbg live _ pk 1 P1 (q_s1 q) (q_t1 q) OK I (or_intror eq_refl)) as [c1 [-> E1]].
    cbn [bind app fst snd]. exists (mksndr (sdme (ots V)) [c0; c1]), c0, c1. split; [reflexivity|]. split; [reflexivity|]. rewrite E0, E1. split; intros EN.
    - apply (proj2 (L_C32_roundtrip dbg live c _ m0 P0 E L EP0)). exact EN.
    - apply (proj2 (L_C32_roundtrip dbg live c _ m1 P1 E L EP1)). exact EN.
  Qed.

  (** the server's answer in round 16 *)
  Lemma top_clear V pk qa qb qc qp u v : dme_ok live (sdme (ots V)) -> inf_key pk ->
    exists o k0 k1 p0 p1, runOTRound dbg live V 16 pk qa qb qc qp u v = Ok (set_ots V o, mkoc [[k0; k1]; []; []] [p0; p1]) /\ sdme o = sdme (ots V) /\
      (encodable (lk (Sl0 V)) -> decode (cmv k0) = lk (Sl0 V)) /\ (encodable (lk (Sl1 V)) -> decode (cmv k1) = lk (Sl1 V)) /\ cmv p0 = lprf (Sl0 V) /\ cmv p1 = lprf (Sl1 V).
  Proof.
    intros OK I. unfold runOTRound. change (16 =? BITS) with true. cbv iota.
    destruct (encZ_clear V pk (lk (Sl0 V)) (lk (Sl1 V)) qa OK I) as [o1 [k0 [k1 [-> [D1 [K0 K1]]]]]]. cbn [bind fst snd].
    destruct (encP_inf dbg live (set_ots V o1) pk (lprf (Sl0 V)) (lprf (Sl1 V)) qp) as [o2 [p0 [p1 [-> [D2 [E0 E1]]]]]]; [cbn [set_ots ots]; rewrite D1; exact OK|exact I|]. cbn [bind fst snd].
    exists o2, k0, k1, p0, p1. split; [reflexivity|]. split; [cbn [set_ots ots] in D2; congruence|]. split; [exact K0|]. split; [exact K1|]. split; [exact E0|exact E1].
  Qed.

  Lemma L_C117_session S0 C0 d a x pk : aes_ready e iv -> server_ready live S0 a -> client_ready live C0 x ->
    same_crs (dcrs (sdme (ots S0))) (dcrs (rdme (otr C0))) ->
    good_draws dbg live e iv (dcrs (rdme (otr C0))) (sdme (ots S0)) (theta S0) a x d -> x <= theta S0 -> pinf (pg pk) = true -> pinf (ph pk) = true ->
    exists S1 S2 k0 k1 p0 p1 N Q G, prepareKeysAndInputs dbg live e iv S0 (sd_prep d) = Ok S1 /\
      (let r := sd_round d 16 in runOTRound dbg live S1 16 pk (rd_a r) (rd_b r) (rd_c r) (rd_p r) (rd_u r) (rd_v r)) = Ok (S2, mkoc [[k0; k1]; []; []] [p0; p1]) /\
      pmulz dbg live CV (cmv p0) (-1) = Ok N /\ padd dbg live CV (cmv p1) N = Ok Q /\ pmulz dbg live CV Q (halve 15) = Ok G /\
      let b := bit x 15 in let C1 := mkcli (otr C0) (ccur C0) (cx C0) (cmv (if b =? 0 then p0 else p1)) (decode (cmv (if b =? 0 then k0 else k1))) in
      exists S3 C3 ms C4, foldM (one_round dbg live e iv) (map (fun r => (r, sd_round d r)) (tl rounds)) (S2, C1) = Ok (S3, C3) /\
        sendEncryptedMasks dbg live e iv S3 (sd_random d) (sd_u d) (sd_v d) = Ok ms /\ unmaskResult dbg live e iv C3 ms (sd_mask d) = Ok C4 /\
        forall y, exists T V, pmulz dbg live CV G (y - x) = Ok T /\ padd dbg live CV (result C4) T = Ok V /\ is_valid live V /\
          den CV V = gadd CV (den CV (kopprf S3)) (gmul CV y (den CV (ga S0))).
  Proof.
    intros A SR CR SC GD LE I J. destruct (cr_x _ _ _ CR) as [CX XR]. pose proof (sr_theta _ _ _ SR) as TR.
    destruct (prepare_ok dbg live e iv S0 (sd_prep d) a A SR (gd_keys _ _ _ _ _ _ _ _ _ _ GD)) as [S1 [E1 [B1 [T0 [T1 [_ RW]]]]]].
    assert (OK1 : dme_ok live (sdme (ots S1))) by (rewrite (ba_ots _ _ _ _ B1); apply (sr_ots _ _ _ SR)).
    set (r := sd_round d 16).
    destruct (top_clear S1 pk (rd_a r) (rd_b r) (rd_c r) (rd_p r) (rd_u r) (rd_v r) OK1 (conj I J)) as [o [k0 [k1 [p0 [p1 [E2 [D2 [K0 [K1 [P0 P1]]]]]]]]]].
    pose proof (proj2 T0) as M0. pose proof (proj2 T1) as M1. rewrite <- P0 in M0. rewrite <- P1 in M1.
    destruct (pmulz_m dbg live _ _ (-1) M0) as [N [EN MN]]. destruct (padd_m dbg live _ N _ _ M1 MN) as [Q [EQ MQ]]. destruct (pmulz_m dbg live Q _ (halve 15) MQ) as [G [EG MG]].
    assert (MA : multiple G a).
    { destruct (halve_ok 15) as [q Eq]; [lia|]. apply (mult_mod live _ _ _ MG). exists (q * a). change (Z.of_nat 15) with 15.
      match goal with |- ?u = _ => replace u with ((halve 15 * 2 ^ 15 - 1) * a) by ring end. rewrite Eq. ring. }
    exists S1, (set_ots S1 o), k0, k1, p0, p1, N, Q, G. split; [exact E1|]. split; [exact E2|]. split; [exact EN|]. split; [exact EQ|]. split; [exact EG|]. cbv zeta.
    set (b := bit x 15). pose proof (bit_branch x 15) as Hb. fold b in Hb.
    assert (PR : OpprfProofs.prepared live e iv S0 (set_ots S1 o) (sd_prep d) a).
    { apply prepared_ots; [|exact D2]. split; [exact B1|]. split; [exact T0|]. split; [exact T1|exact RW]. }
    set (C1 := mkcli (otr C0) (ccur C0) (cx C0) (cmv (if b =? 0 then p0 else p1)) (decode (cmv (if b =? 0 then k0 else k1)))).
    assert (AL : at_level live C0 d (theta S0) a x 0 15 C1).
    { constructor; unfold C1; cbn [otr ccur cx key result]; [reflexivity|reflexivity|exact CX| |].
      - pose proof (gd_top _ _ _ _ _ _ _ _ _ _ GD) as TOP. rewrite prefix_cmp_15 in TOP |- * by assumption. fold b in TOP |- *.
        destruct Hb as [Eb|Eb]; rewrite Eb in TOP |- *; cbn [Z.eqb Pos.eqb]; [rewrite <- (proj1 T0) in TOP |- *; exact (K0 TOP)|rewrite <- (proj1 T1) in TOP |- *; exact (K1 TOP)].
      - assert (M : multiple (cmv (if b =? 0 then p0 else p1)) (b * 2 ^ Z.of_nat 15 * a + d_ok (sd_prep d) 15 * d_r (sd_prep d))) by (destruct Hb as [Eb|Eb]; rewrite Eb; cbn [Z.eqb Pos.eqb]; assumption).
        apply (mult_mod live _ _ _ M). rewrite prefix_15 by assumption. fold b. change 16%nat with (Datatypes.S 15). cbn [sum_to].
        match goal with |- (order | ?u) => replace u with 0 by ring end. apply Z.divide_0_r. }
    destruct (rounds_ok dbg live e iv S0 C0 d a x 0 SR CR SC GD 15 ltac:(lia) (set_ots S1 o) C1 PR AL) as [S3 [C3 [E3 [P3 A3]]]].
    destruct (masks_ok dbg live e iv S0 S3 d a (x ?= theta S0) SR (gd_mask _ _ _ _ _ _ _ _ _ _ GD) (proj1 P3) (sd_u d) (sd_v d)) as [f [E4 MO]].
    destruct (unmask_ok dbg live e iv C0 d (theta S0) a x 0 C3 f (sd_u d) (sd_v d) CR A3 (gd_unmask _ _ _ _ _ _ _ _ _ _ GD) (gd_mask _ _ _ _ _ _ _ _ _ _ GD) MO)
      as [C4 [E5 [_ [_ [_ [_ M4]]]]]].
    exists S3, C3, (shuffle3 [f Lt; f Eq; f Gt] (sd_u d) (sd_v d)), C4. split; [exact E3|]. split; [exact E4|]. split; [exact E5|]. intros y.
    destruct (pmulz_m dbg live G a (y - x) MA) as [T [ET MT]]. destruct (padd_m dbg live (result C4) T _ _ M4 MT) as [V [EV MV]].
    exists T, V. split; [exact ET|]. split; [exact EV|]. split; [exact (multiple_valid live _ _ MV)|].
    rewrite (proj2 MV), (proj2 (ba_kopprf _ _ _ _ (proj1 P3))), (proj2 (sr_ga _ _ _ SR)).
    change (gmul CV a (ggen CV)) with (EccProofs.gk CV a). change (gmul CV (d_kopprf (sd_prep d)) (ggen CV)) with (EccProofs.gk CV (d_kopprf (sd_prep d))).
    unfold gadd, gmul. rewrite !(gk_mul CV good_CV), !(gk_add CV good_CV). apply (f_equal (EccProofs.gk CV)).
    unfold outcome_log. destruct (Z.compare_spec x (theta S0)) as [L|L|L]; [| |lia]; ring.
  Qed.
End Cheat.
