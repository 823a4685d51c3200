(** What a client learns about the server's secret: proofs. *)
From Coq Require Import ZArith Znumtheory Bool List Lia Field.
From Verif Require Import Outcome FieldModel ZpField SpecField FieldProofs ECGroup ECOrder CurveParams CurveFacts EccModel EccProofs SpecEcc EccThms Emb RF.
From Verif Require Import DmeModel SpecDme DmeProofs DmeProofs2 OtModel SpecOt OtProofs OtProofs2 CrcModel AesModel SpecAes OpprfModel SpecOpprf SpecOpprf2.
From Verif Require Import OpprfProofs OpprfProofs2 OpprfProofs3 OpprfProofs4 OpprfProofs5 OpprfProofs6 OpprfProofs7.
Import ListNotations.
Open Scope Z_scope.

Section Opprf8.
  Variables (dbg : bool) (live : Z -> bool) (e : env) (iv : list Z).
  Notation n := (fieldn CV).
  Let Hn : prime n := prime_n CV good_CV.
  Let HF := field_Fp n Hn.
  Add Field OpprfField8 : HF.
  Notation F := (Fp n).
  Notation rf := (rf live CV).
  Notation mk := (mk n).
  Notation drf := (drf live).
  Notation multiple := (multiple live).
  Notation prepared := (prepared live e iv).
  Local Infix "+'" := (fadd n) (at level 50, left associativity).
  Local Infix "-'" := (fsub n) (at level 50, left associativity).
  Local Infix "*'" := (fmul n) (at level 40, left associativity).
  Local Infix "/'" := (fdiv n) (at level 40, left associativity).

  Ltac inv H := let a := fresh "v" in let E := fresh "Q" in apply bind_Ok in H; destruct H as [a [E H]].

  (** ** The parts of two runs that coincide *)
  Lemma encZ_snd S S' pk m0 m1 q r r' : sdme (ots S') = sdme (ots S) -> encZ dbg live S pk m0 m1 q = Ok r -> encZ dbg live S' pk m0 m1 q = Ok r' ->
    snd r = snd r' /\ sdme (ots (fst r)) = sdme (ots S) /\ sdme (ots (fst r')) = sdme (ots S).
  Proof.
    unfold encZ, encMsgsZ. intros E H H'. rewrite E in H'. revert H H'.
    generalize (EncZ dbg live (sdme (ots S)) pk 0 m0 (q_s0 q) (q_t0 q)) as y0. generalize (EncZ dbg live (sdme (ots S)) pk 1 m1 (q_s1 q) (q_t1 q)) as y1.
    intros [y1|] [y0|] H H'; cbn [bind] in H, H'; try discriminate. apply Ok_inj in H, H'. subst r r'. split; [reflexivity|]. split; reflexivity.
  Qed.

  Lemma bind_ret (A B : Type) (x : A) (f : A -> res B) : bind (Ok x) f = f x.
  Proof. reflexivity. Qed.
  Lemma row_letters S S' round pk qa qb qc qp qp' u v r r' r0 r1 r0' r1' : sdme (ots S') = sdme (ots S) ->
    vat (Si0 S) round = Ok r0 -> vat (Si1 S) round = Ok r1 -> vat (Si0 S') round = Ok r0' -> vat (Si1 S') round = Ok r1' ->
    (forall s, letter_ct s r0' = letter_ct s r0) -> (forall s, letter_ct s r1' = letter_ct s r1) ->
    bind (vat (Si0 S) round) (fun r0 => bind (vat (Si1 S) round) (fun r1 =>
      bind (encZ dbg live S pk (ilt r0) (ilt r1) qa) (fun a => bind (encZ dbg live (fst a) pk (ieq r0) (ieq r1) qb) (fun b =>
      bind (encZ dbg live (fst b) pk (igt r0) (igt r1) qc) (fun c => bind (encP dbg live (fst c) pk (iprf r0) (iprf r1) qp) (fun p =>
      Ok (fst p, mkoc (shuffle3 [snd a; snd b; snd c] u v) (snd p)))))))) = Ok r ->
    bind (vat (Si0 S') round) (fun r0 => bind (vat (Si1 S') round) (fun r1 =>
      bind (encZ dbg live S' pk (ilt r0) (ilt r1) qa) (fun a => bind (encZ dbg live (fst a) pk (ieq r0) (ieq r1) qb) (fun b =>
      bind (encZ dbg live (fst b) pk (igt r0) (igt r1) qc) (fun c => bind (encP dbg live (fst c) pk (iprf r0) (iprf r1) qp') (fun p =>
      Ok (fst p, mkoc (shuffle3 [snd a; snd b; snd c] u v) (snd p)))))))) = Ok r' ->
    oc (snd r) = oc (snd r').
  Proof.
    intros E0 V0 V1 V0' V1' K0 K1 H H'. rewrite V0, bind_ret, V1, bind_ret in H. rewrite V0', bind_ret, V1', bind_ret in H'.
    pose proof (K0 Lt) as A0. pose proof (K0 Eq) as A1. pose proof (K0 Gt) as A2. pose proof (K1 Lt) as B0. pose proof (K1 Eq) as B1. pose proof (K1 Gt) as B2.
    clear K0 K1 V0 V1 V0' V1'. cbn [letter_ct] in A0, A1, A2, B0, B1, B2. rewrite A0, A1, A2, B0, B1, B2 in H'.
    apply bind_Ok in H. destruct H as [v1 [Z1 H]]. apply bind_Ok in H'. destruct H' as [w1 [Y1 H']].
    destruct (encZ_snd _ _ _ _ _ _ _ _ E0 Z1 Y1) as [E1 [F1 F1']]. assert (G1 : sdme (ots (fst w1)) = sdme (ots (fst v1))) by (rewrite F1, F1'; reflexivity).
    apply bind_Ok in H. destruct H as [v2 [Z2 H]]. apply bind_Ok in H'. destruct H' as [w2 [Y2 H']].
    destruct (encZ_snd _ _ _ _ _ _ _ _ G1 Z2 Y2) as [E2 [F2 F2']]. assert (G2 : sdme (ots (fst w2)) = sdme (ots (fst v2))) by (rewrite F2, F2'; reflexivity).
    apply bind_Ok in H. destruct H as [v3 [Z3 H]]. apply bind_Ok in H'. destruct H' as [w3 [Y3 H']].
    destruct (encZ_snd _ _ _ _ _ _ _ _ G2 Z3 Y3) as [E3 _]. clear Z1 Z2 Z3 Y1 Y2 Y3.
    apply bind_Ok in H. destruct H as [v4 [_ H]]. apply bind_Ok in H'. destruct H' as [w4 [_ H']].
    apply Ok_inj in H, H'. rewrite <- H, <- H'. cbn [snd oc]. rewrite E1, E2, E3. reflexivity.
  Qed.

  Lemma round_letters S0 S0' S S' p p' a a' round pk qa qb qc qp qp' u v r r' :
    prepared S0 S p a -> prepared S0' S' p' a' -> sdme (ots S0') = sdme (ots S0) -> theta S0' = theta S0 ->
    (forall s j, level_key p' s j = level_key p s j) -> 1 <= round <= 16 ->
    runOTRound dbg live S round pk qa qb qc qp u v = Ok r -> runOTRound dbg live S' round pk qa qb qc qp' u v = Ok r' ->
    oc (snd r) = oc (snd r').
  Proof.
    intros [BA [T0 [T1 RW]]] [BA' [T0' [T1' RW']]] ED ET EK R H H'. unfold runOTRound in H, H'.
    assert (E0 : sdme (ots S') = sdme (ots S)) by (rewrite (ba_ots _ _ _ _ BA), (ba_ots _ _ _ _ BA'); exact ED).
    destruct (Z.eqb_spec round BITS) as [EB|NB].
    - inv H. inv H. apply Ok_inj in H. subst r. inv H'. inv H'. apply Ok_inj in H'. subst r'. cbn [snd oc].
      assert (L0 : lk (Sl0 S') = lk (Sl0 S)) by (rewrite (proj1 T0), (proj1 T0'), ET; apply EK).
      assert (L1 : lk (Sl1 S') = lk (Sl1 S)) by (rewrite (proj1 T1), (proj1 T1'), ET; apply EK).
      rewrite L0, L1 in Q1. destruct (encZ_snd _ _ _ _ _ _ _ _ E0 Q Q1) as [-> _]. reflexivity.
    - assert (NB16 : round <> 16) by exact NB. set (j := Z.to_nat (round - 1)). assert (EJ : round = Z.of_nat (Datatypes.S j)) by (subst j; lia).
      destruct (RW j ltac:(subst j; lia)) as [r0 [r1 [N0 [N1 [Q0 Q1]]]]]. destruct (RW' j ltac:(subst j; lia)) as [r0' [r1' [N0' [N1' [Q0' Q1']]]]].
      assert (V0 : vat (Si0 S) round = Ok r0) by (rewrite EJ; apply vat_nth, N0).
      assert (V1 : vat (Si1 S) round = Ok r1) by (rewrite EJ; apply vat_nth, N1).
      assert (V0' : vat (Si0 S') round = Ok r0') by (rewrite EJ; apply vat_nth, N0').
      assert (V1' : vat (Si1 S') round = Ok r1') by (rewrite EJ; apply vat_nth, N1').
      assert (TT : theta S' = theta S) by (rewrite (ba_theta _ _ _ _ BA), (ba_theta _ _ _ _ BA'); exact ET).
      assert (LQ : forall b ro ro', row_ok live e iv p (theta S) a j b ro -> row_ok live e iv p' (theta S') a' j b ro' -> forall s, letter_ct s ro' = letter_ct s ro).
      { intros b ro ro' [X _] [Y _] s. specialize (X s). specialize (Y s). rewrite TT, !EK in Y. rewrite X in Y. apply Ok_inj in Y. symmetry. exact Y. }
      pose proof (LQ _ _ _ Q0 Q0') as K0. pose proof (LQ _ _ _ Q1 Q1') as K1.
      exact (row_letters S S' round pk qa qb qc qp qp' u v r r' r0 r1 r0' r1' E0 V0 V1 V0' V1' K0 K1 H H').
  Qed.

  Lemma encX_same P Q z : rf P z -> rf Q z -> getEncodedX dbg live CV P = getEncodedX dbg live CV Q.
  Proof.
    intros A B. destruct (eqFp n z (f0 n)) as [->|NZ].
    - rewrite (rf_zero live CV good_CV _ A), (rf_zero live CV good_CV _ B). reflexivity.
    - pose proof (rf_finite live CV good_CV _ _ A NZ) as FA. pose proof (rf_finite live CV good_CV _ _ B NZ) as FB.
      pose proof (rf_den live CV _ _ A) as DA. pose proof (rf_den live CV _ _ B) as DB.
      destruct (finite_inj live CV good_CV P FA) as [c [x [y [On [L E]]]]]. destruct (finite_inj live CV good_CV Q FB) as [c' [x' [y' [On' [L' E']]]]].
      rewrite E, den_inj in DA. rewrite E', den_inj in DB. rewrite <- DB in DA. injection DA as -> ->.
      rewrite E, E', !(getEncodedX_inj dbg live CV good_CV) by assumption. reflexivity.
  Qed.

  Lemma masks_same S0 S0' S S' p p' rd u v c : based live S0 S p -> based live S0' S' p' -> scur S0 = Some c -> scur S0' = Some c -> live c = true ->
    (forall s j, level_key p' s j = level_key p s j) ->
    mk (d_kopprf p' - sum_to (d_ok p') 16 * d_r p') = mk (d_kopprf p - sum_to (d_ok p) 16 * d_r p) ->
    sendEncryptedMasks dbg live e iv S' rd u v = sendEncryptedMasks dbg live e iv S rd u v.
  Proof.
    intros B B' CU0 CU0' L EK EM.
    assert (CU : scur S = Some c) by (rewrite (ba_cur _ _ _ _ B); exact CU0). assert (CU' : scur S' = Some c) by (rewrite (ba_cur _ _ _ _ B'); exact CU0').
    unfold sendEncryptedMasks. rewrite CU, (ba_ok _ _ _ _ B), (ba_lt _ _ _ _ B), (ba_eq _ _ _ _ B), (ba_gt _ _ _ _ B).
    rewrite CU', (ba_ok _ _ _ _ B'), (ba_lt _ _ _ _ B'), (ba_eq _ _ _ _ B'), (ba_gt _ _ _ _ B').
    change 0 with (Z.of_nat 0). rewrite !vat_map' by lia. change (Z.of_nat 0) with 0. cbn [bind].
    rewrite (mapM_In _ (fun j => em n (mk (d_ok p' j)))).
    2: { intros j I. apply in_seq in I. apply (vat_map' (fun j => em n (mk (d_ok p' j)))). unfold MSG_BITS in I. lia. }
    rewrite (mapM_In _ (fun j => em n (mk (d_ok p j)))).
    2: { intros j I. apply in_seq in I. apply (vat_map' (fun j => em n (mk (d_ok p j)))). unfold MSG_BITS in I. lia. }
    cbn [bind]. rewrite !sum_ok. cbn [bind]. rewrite !sum_16. rewrite !(em_neg n Hn). cbn [bind]. rewrite !mk_opp.
    destruct (pmul_m dbg live _ _ (- sum_to (d_ok p) 16) (ba_r _ _ _ _ B)) as [T [ET MT]]. rewrite ET. cbn [bind].
    destruct (padd_m dbg live _ _ _ _ (ba_kopprf _ _ _ _ B) MT) as [M [EM1 MM]]. rewrite EM1. cbn [bind].
    destruct (pmul_m dbg live _ _ (- sum_to (d_ok p') 16) (ba_r _ _ _ _ B')) as [T' [ET' MT']]. rewrite ET'. cbn [bind].
    destruct (padd_m dbg live _ _ _ _ (ba_kopprf _ _ _ _ B') MT') as [M' [EM1' MM']]. rewrite EM1'. cbn [bind].
    apply (multiple_rf live) in MM, MM'.
    assert (EX : getEncodedX dbg live CV M' = getEncodedX dbg live CV M).
    { apply (encX_same _ _ _ MM'). apply (rf_cong live CV _ _ _ MM). apply mk_order_eq. apply mk_order_eq in EM. clear - EM.
      destruct EM as [k E]. exists (- k). lia. }
    rewrite EX. pose proof (EK Lt 0%nat) as K0. pose proof (EK Eq 0%nat) as K1. pose proof (EK Gt 0%nat) as K2. cbn [level_key] in K0, K1, K2.
    rewrite K0, K1, K2. reflexivity.
  Qed.

  (** ** Two servers, one client *)
  (** the logarithms of the points in the PRF ciphertexts of a round *)
  Definition uo (q : quad) (b : Z) (A B : F) : F := mk (q_s b q) *' A +' mk (q_t b q) *' B.
  Definition mo (d : session_draws) (a : F) (r b : Z) : F := mk (b * 2 ^ (r - 1)) *' a +' mk (d_ok (sd_prep d) (Z.to_nat (r - 1)) * d_r (sd_prep d)).
  Definition logs_eq (d d' : session_draws) (a a' a0 a1 b0 b1 g h : F) (r b : Z) : Prop :=
    let q := rd_p (sd_round d r) in let q' := rd_p (sd_round d' r) in
    uo q b (pick b a0 a1) (pick b b0 b1) = uo q' b (pick b a0 a1) (pick b b0 b1) /\
    uo q b g h +' mo d a r b = uo q' b g h +' mo d' a' r b.

  Lemma answers_iff d d' a a' a0 a1 b0 b1 g h r l l' : answer live d a a0 a1 b0 b1 g h r l -> answer live d' a' a0 a1 b0 b1 g h r l' ->
    (Forall2 same_ctxt l l' <-> logs_eq d d' a a' a0 a1 b0 b1 g h r 0 /\ logs_eq d d' a a' a0 a1 b0 b1 g h r 1).
  Proof.
    intros [c0 [c1 [-> [[U0 V0] [U1 V1]]]]] [c0' [c1' [-> [[U0' V0'] [U1' V1']]]]].
    pose proof (rf_den_eq live CV good_CV _ _ _ _ U0 U0') as W0. pose proof (rf_den_eq live CV good_CV _ _ _ _ U1 U1') as W1.
    pose proof (rf_den_eq live CV good_CV _ _ _ _ V0 V0') as X0. pose proof (rf_den_eq live CV good_CV _ _ _ _ V1 V1') as X1.
    clear U0 U1 V0 V1 U0' U1' V0' V1'. cbv zeta in X0, X1. unfold logs_eq, uo, mo. cbn [pick q_s q_t Z.eqb Pos.eqb]. cbv zeta.
    change (0 * 2 ^ (r - 1)) with 0. rewrite (Z.mul_1_l (2 ^ (r - 1))).
    assert (ZZ : forall w y : F, fmul n (mk 0) w +' y = y) by (intros w y; change (mk 0) with (f0 n); ring). rewrite !ZZ.
    split.
    - intros H. inversion H as [|? ? ? ? [A0 B0] H' [E1 E2] [E3 E4]]. subst. inversion H' as [|? ? ? ? [A1 B1] _ [E1 E2] [E3 E4]]. subst.
      split; [split; [exact (proj1 W0 A0)|exact (proj1 X0 B0)]|split; [exact (proj1 W1 A1)|exact (proj1 X1 B1)]].
    - intros [[A0 B0] [A1 B1]]. constructor; [split; [exact (proj2 W0 A0)|exact (proj2 X0 B0)]|]. constructor; [split; [exact (proj2 W1 A1)|exact (proj2 X1 B1)]|constructor].
  Qed.

  Section Two.
    Variables (S S' : server) (C0 : client) (a a' x : Z) (c c' : Z) (a0 a1 b0 b1 : F) (d d' : session_draws).
    Hypotheses (ED : sdme (ots S') = sdme (ots S)) (ET : theta S' = theta S) (EC : scur S' = scur S).
    Hypotheses (K : drf (sdme (ots S)) c a0 a1 b0 b1) (K' : drf (rdme (otr C0)) c' a0 a1 b0 b1).
    Hypothesis (AG : agree_on x d d').

    Definition kg r := mk (rd_key (sd_round d r)) *' pick (round_bit x r) a0 a1.
    Definition kh r := mk (rd_key (sd_round d r)) *' pick (round_bit x r) b0 b1.
    Definition round_eq (r : Z) : Prop := forall b, branch b -> logs_eq d d' (mk a) (mk a') a0 a1 b0 b1 (kg r) (kh r) r b.

    Lemma exchanges_two l : Forall (fun r => 1 <= r <= 16) l -> forall S1 S1' C, prepared S S1 (sd_prep d) a -> prepared S' S1' (sd_prep d') a' ->
      rdme (otr C) = rdme (otr C0) -> cx C = Some x ->
      exists T t T' t', exchanges dbg live S1 C (map (fun r => (r, sd_round d r)) l) = Ok (T, t) /\
        exchanges dbg live S1' C (map (fun r => (r, sd_round d' r)) l) = Ok (T', t') /\
        prepared S T (sd_prep d) a /\ prepared S' T' (sd_prep d') a' /\ (Forall2 same_round t t' <-> Forall round_eq l).
    Proof.
      intros FL. induction FL as [|r l R FL IH]; intros S1 S1' C P P' EX X.
      - exists S1, [], S1', []. split; [reflexivity|]. split; [reflexivity|]. split; [exact P|]. split; [exact P'|]. split; constructor.
      - cbn [map exchanges]. rewrite (start_eq dbg live C x r (rd_key (sd_round d r)) X R), (start_eq dbg live C x r (rd_key (sd_round d' r)) X R), EX.
        rewrite (ag_key _ _ _ AG r R).
        destruct (KeyGen_rf dbg live _ c' _ _ _ _ (round_bit x r) (rd_key (sd_round d r)) K' (round_bit_branch x r)) as [kp [EK [G [H _]]]].
        rewrite EK, !bind_ret. cbn [fst snd].
        assert (KS : drf (sdme (ots S')) c a0 a1 b0 b1) by (rewrite ED; exact K).
        destruct (round_logs dbg live e iv S S1 d a c _ _ _ _ _ _ r (kpk kp) P K G H R) as [S2 [o [E1 [P2 A2]]]].
        destruct (round_logs dbg live e iv S' S1' d' a' c _ _ _ _ _ _ r (kpk kp) P' KS G H R) as [S2' [o' [E1' [P2' A2']]]].
        cbv zeta in E1, E1'. rewrite E1, E1', !bind_ret. cbn [fst snd].
        match goal with |- context [exchanges dbg live S2 ?Y _] => destruct (IH S2 S2' Y P2 P2' eq_refl X) as [T [t [T' [t' [E2 [E2' [Q [Q' I]]]]]]]] end.
        rewrite E2, E2', !bind_ret. cbn [fst snd]. exists T, ((kpk kp, o) :: t), T', ((kpk kp, o') :: t').
        split; [reflexivity|]. split; [reflexivity|]. split; [exact Q|]. split; [exact Q'|].
        destruct (ag_letters _ _ _ AG r R) as [L1 [L2 L3]]. destruct (ag_shuffle _ _ _ AG r R) as [L4 L5]. rewrite L1, L2, L3, L4, L5 in E1'.
        pose proof (round_letters S S' S1 S1' _ _ a a' r _ _ _ _ _ _ _ _ _ _ P P' ED ET (ag_keys _ _ _ AG) R E1 E1') as OC. cbn [snd] in OC.
        pose proof (answers_iff _ _ _ _ _ _ _ _ _ _ _ _ _ A2 A2') as AI.
        split.
        + intros Y. inversion Y as [|? ? ? ? [_ [_ Y0]] Y1]. subst. cbn [snd] in Y0. constructor; [|exact (proj1 I Y1)].
          apply AI in Y0. destruct Y0 as [Y0 Y2]. intros b [-> | ->]; [exact Y0|exact Y2].
        + intros Y. inversion Y as [|? ? Y0 Y1]. subst. constructor; [|exact (proj2 I Y1)]. split; [reflexivity|]. split; [exact OC|]. cbn [snd].
          apply AI. split; apply Y0; [left; reflexivity|right; reflexivity].
    Qed.

    Hypotheses (AR : aes_ready e iv) (SR : server_ready live S a) (SR' : server_ready live S' a').
    Hypothesis (GK : forall s j, (j < 16)%nat -> 2 ^ 120 <= level_key (sd_prep d) s j < 2 ^ 128).

    Lemma talk_parts : cx C0 = Some x -> exists T t T' t',
      talk dbg live e iv S C0 d = bind (sendEncryptedMasks dbg live e iv T (sd_random d) (sd_u d) (sd_v d)) (fun ms => Ok (mktr t ms)) /\
      talk dbg live e iv S' C0 d' = bind (sendEncryptedMasks dbg live e iv T' (sd_random d) (sd_u d) (sd_v d)) (fun ms => Ok (mktr t' ms)) /\
      based live S T (sd_prep d) /\ based live S' T' (sd_prep d') /\ (Forall2 same_round t t' <-> Forall round_eq rounds).
    Proof.
      intros X.
      assert (GK' : forall s j, (j < 16)%nat -> 2 ^ 120 <= level_key (sd_prep d') s j < 2 ^ 128) by (intros s j J; rewrite (ag_keys _ _ _ AG); apply GK, J).
      destruct (prepare_ok dbg live e iv S (sd_prep d) a AR SR GK) as [S1 [E1 [B1 [T0 [T1 [_ RW]]]]]].
      destruct (prepare_ok dbg live e iv S' (sd_prep d') a' AR SR' GK') as [S1' [E1' [B1' [T0' [T1' [_ RW']]]]]].
      assert (P1 : prepared S S1 (sd_prep d) a) by (split; [exact B1|split; [exact T0|split; [exact T1|exact RW]]]).
      assert (P1' : prepared S' S1' (sd_prep d') a') by (split; [exact B1'|split; [exact T0'|split; [exact T1'|exact RW']]]).
      destruct (exchanges_two rounds rounds_range S1 S1' C0 P1 P1' eq_refl X) as [T [t [T' [t' [E2 [E2' [Q [Q' I]]]]]]]].
      exists T, t, T', t'. unfold talk, schedule. rewrite E1, E1', !bind_ret, E2, E2', !bind_ret. cbn [fst snd].
      destruct (ag_rest _ _ _ AG) as [R1 [R2 [R3 _]]]. rewrite R1, R2, R3.
      split; [reflexivity|]. split; [reflexivity|]. split; [exact (proj1 Q)|]. split; [exact (proj1 Q')|exact I].
    Qed.

    Lemma talk_forth t : cx C0 = Some x -> talk dbg live e iv S C0 d = Ok t ->
      mk (d_kopprf (sd_prep d') - sum_to (d_ok (sd_prep d')) 16 * d_r (sd_prep d')) = mk (d_kopprf (sd_prep d) - sum_to (d_ok (sd_prep d)) 16 * d_r (sd_prep d)) ->
      Forall round_eq rounds -> exists t', talk dbg live e iv S' C0 d' = Ok t' /\ same_transcript t t'.
    Proof.
      intros X H EM RE. destruct (talk_parts X) as [T [t0 [T' [t0' [E [E' [B [B' I]]]]]]]]. rewrite E in H. rewrite E'.
      assert (CU : scur S = Some c) by (rewrite (sr_cur _ _ _ SR); exact (dr_cur _ _ _ _ _ _ _ K)).
      assert (CU' : scur S' = Some c) by (rewrite EC; exact CU).
      rewrite (masks_same S S' T T' _ _ (sd_random d) (sd_u d) (sd_v d) c B B' CU CU' (dr_live _ _ _ _ _ _ _ K) (ag_keys _ _ _ AG) EM).
      apply bind_Ok in H. destruct H as [ms [EMS H]]. apply Ok_inj in H. subst t. rewrite EMS, bind_ret.
      exists (mktr t0' ms). split; [reflexivity|]. split; [exact (proj2 I RE)|reflexivity].
    Qed.
    Lemma talk_back t t' : cx C0 = Some x -> talk dbg live e iv S C0 d = Ok t -> talk dbg live e iv S' C0 d' = Ok t' ->
      same_transcript t t' -> Forall round_eq rounds.
    Proof.
      intros X H H' [ST _]. destruct (talk_parts X) as [T [t0 [T' [t0' [E [E' [B [B' I]]]]]]]]. rewrite E in H. rewrite E' in H'.
      apply bind_Ok in H. destruct H as [ms [_ H]]. apply Ok_inj in H. subst t. apply bind_Ok in H'. destruct H' as [ms' [_ H']]. apply Ok_inj in H'. subst t'.
      exact (proj1 I ST).
    Qed.
  End Two.

  (** ** The hidden draws *)
  Lemma low_bits x k : 0 <= x -> sum_to (fun j => bit x j * 2 ^ Z.of_nat j) k = x mod 2 ^ Z.of_nat k.
  Proof.
    intros X. induction k as [|k IH]; [cbn [sum_to]; change (2 ^ Z.of_nat 0) with 1; rewrite Z.mod_1_r; reflexivity|].
    cbn [sum_to]. rewrite IH. unfold bit. rewrite Nat2Z.inj_succ, Z.pow_succ_r by lia.
    rewrite (Z.mul_comm 2), Z.rem_mul_r by (try apply Z.pow_nonzero; lia). ring.
  Qed.
  Lemma mk_sum f g h (D : F) k : (forall j, (j < k)%nat -> mk (f j) = mk (g j) +' mk (h j) *' D) -> mk (sum_to f k) = mk (sum_to g k) +' mk (sum_to h k) *' D.
  Proof.
    intros H. induction k as [|k IH]; [cbn [sum_to]; change (mk 0) with (f0 n); ring|].
    cbn [sum_to]. rewrite <- !mk_add. rewrite IH by (intros j J; apply H; lia). rewrite (H k) by lia. ring.
  Qed.

  Lemma fadd_inj_l (u y z : F) : u +' y = u +' z -> y = z.
  Proof. intros H. apply fsub0. transitivity (u +' y -' (u +' z)); [ring|]. rewrite H. ring. Qed.
  Lemma fadd_inj_r (u y z : F) : y +' u = z +' u -> y = z.
  Proof. intros H. apply fsub0. transitivity (y +' u -' (z +' u)); [ring|]. rewrite H. ring. Qed.
  Lemma solve2 (A B g h s t s' t' : F) : A *' h -' B *' g <> f0 n -> s *' A +' t *' B = s' *' A +' t' *' B -> s *' g +' t *' h = s' *' g +' t' *' h -> s = s' /\ t = t'.
  Proof.
    intros D E1 E2. split; apply fsub0.
    - assert (Z : (s -' s') *' (A *' h -' B *' g) = f0 n).
      { transitivity ((s *' A +' t *' B -' (s' *' A +' t' *' B)) *' h -' (s *' g +' t *' h -' (s' *' g +' t' *' h)) *' B); [ring|]. rewrite E1, E2. ring. }
      apply fmul_0 in Z; [|exact Hn]. destruct Z as [Z|Z]; [exact Z|destruct (D Z)].
    - assert (Z : (t -' t') *' (A *' h -' B *' g) = f0 n).
      { transitivity ((s *' g +' t *' h -' (s' *' g +' t' *' h)) *' A -' (s *' A +' t *' B -' (s' *' A +' t' *' B)) *' g); [ring|]. rewrite E1, E2. ring. }
      apply fmul_0 in Z; [|exact Hn]. destruct Z as [Z|Z]; [exact Z|destruct (D Z)].
  Qed.

  Section Hidden.
    Variables (x a a' : Z) (a0 a1 b0 b1 : F) (d : session_draws).
    Let b r := round_bit x r.
    Let dlt := (mk a -' mk a') /' mk (d_r (sd_prep d)).
    Definition hid_prep : prep_draws :=
      let p := sd_prep d in
      mkpd (val n (mk (d_kopprf p) +' mk x *' (mk a -' mk a'))) (d_r p) (d_lt p) (d_eq p) (d_gt p)
        (fun j => val n (mk (d_ok p j) +' mk (bit x j * 2 ^ Z.of_nat j) *' dlt)).
    (** the shift of the nonces on the other branch *)
    Definition hid_w (r : Z) : F :=
      let o := 1 - b r in
      let A := pick o a0 a1 in let B := pick o b0 b1 in
      (mk (1 - 2 * b r) *' mk (2 ^ (r - 1)) *' (mk a -' mk a')) /'
      (A *' kh x b0 b1 d r -' B *' kg x a0 a1 d r).
    Definition hid_quad (r : Z) : quad :=
      let q := rd_p (sd_round d r) in
      if b r =? 0 then mkq (q_s0 q) (q_t0 q) (val n (mk (q_s1 q) -' b1 *' hid_w r)) (val n (mk (q_t1 q) +' a1 *' hid_w r))
      else mkq (val n (mk (q_s0 q) -' b0 *' hid_w r)) (val n (mk (q_t0 q) +' a0 *' hid_w r)) (q_s1 q) (q_t1 q).
    Definition hid : session_draws :=
      mksd hid_prep (fun r => let q := sd_round d r in mkrd (rd_key q) (rd_a q) (rd_b q) (rd_c q) (hid_quad r) (rd_u q) (rd_v q))
        (sd_random d) (sd_u d) (sd_v d) (sd_mask d).

    Lemma hid_agree : agree_on x d hid.
    Proof.
      constructor; cbn [hid sd_prep hid_prep d_r sd_round sd_random sd_u sd_v sd_mask rd_key rd_a rd_b rd_c rd_p rd_u rd_v].
      - reflexivity.
      - intros s j. destruct s; reflexivity.
      - intros r _. reflexivity.
      - intros r _. split; [reflexivity|]. split; reflexivity.
      - intros r _. unfold hid_quad. fold (b r). destruct (round_bit_branch x r) as [E|E]; fold (b r) in E; rewrite E; cbn [Z.eqb Pos.eqb q_s q_t q_s0 q_t0 q_s1 q_t1]; split; reflexivity.
      - intros r _. split; reflexivity.
      - split; [reflexivity|]. split; [reflexivity|]. split; reflexivity.
    Qed.
    Lemma hid_in_range : hidden_range x hid.
    Proof.
      split; [apply val_draw|]. split; [intros j _; apply val_draw|]. intros r _. cbn [hid sd_round rd_p]. unfold hid_quad. fold (b r).
      destruct (round_bit_branch x r) as [E|E]; fold (b r) in E; rewrite E; cbn [Z.eqb Pos.eqb Z.sub Z.add Z.opp Z.pos_sub q_s q_t q_s0 q_t0 q_s1 q_t1]; split; apply val_draw.
    Qed.

    Hypotheses (NR : ~ (order | d_r (sd_prep d))) (NK : forall r, 1 <= r <= 16 -> ~ (order | rd_key (sd_round d r))).
    Hypothesis (DET : a0 *' b1 -' a1 *' b0 <> f0 n).

    Lemma nr : mk (d_r (sd_prep d)) <> f0 n.
    Proof. intros E. apply NR, mk_order_0, E. Qed.
    Lemma det_r r : 1 <= r <= 16 -> pick (1 - b r) a0 a1 *' kh x b0 b1 d r -' pick (1 - b r) b0 b1 *' kg x a0 a1 d r <> f0 n.
    Proof.
      intros R Z0. assert (NK' : mk (rd_key (sd_round d r)) <> f0 n) by (intros E; apply (NK r R), mk_order_0, E). 
      revert Z0. unfold kg, kh. fold (b r). destruct (round_bit_branch x r) as [E|E]; fold (b r) in E; rewrite E; cbn [Z.eqb Pos.eqb Z.sub Z.add Z.opp Z.pos_sub pick]; intros Z0;
        assert (Z1 : mk (rd_key (sd_round d r)) *' (a0 *' b1 -' a1 *' b0) = f0 n).
      1: transitivity (fopp n (a1 *' (mk (rd_key (sd_round d r)) *' b0) -' b1 *' (mk (rd_key (sd_round d r)) *' a0))); [ring|rewrite Z0; ring].
      2: rewrite <- Z0; ring.
      all: apply fmul_0 in Z1; [|exact Hn]; destruct Z1 as [Z1|Z1]; [exact (NK' Z1)|exact (DET Z1)].
    Qed.

    Lemma hid_ok r : 1 <= r <= 16 -> mk (d_ok hid_prep (Z.to_nat (r - 1)) * d_r (sd_prep d)) =
      mk (d_ok (sd_prep d) (Z.to_nat (r - 1)) * d_r (sd_prep d)) +' mk (b r * 2 ^ (r - 1)) *' (mk a -' mk a').
    Proof.
      intros R. cbn [hid_prep d_ok]. rewrite <- !(mk_mul n _ (d_r (sd_prep d))), mk_val. fold (round_bit x r) (b r).
      replace (Z.of_nat (Z.to_nat (r - 1))) with (r - 1) by lia. unfold dlt. pose proof nr as N. field. exact N.
    Qed.

    Lemma hid_eq r : 1 <= r <= 16 -> round_eq a a' x a0 a1 b0 b1 d hid r.
    Proof.
      intros R. pose proof (hid_ok r R) as HO. pose proof (det_r r R) as HD. unfold round_eq, logs_eq, mo. cbn [hid sd_prep sd_round rd_p].
      change (d_r hid_prep) with (d_r (sd_prep d)). rewrite HO. clear HO. unfold hid_quad, hid_w, uo. fold (b r).
      destruct (round_bit_branch x r) as [E|E]; fold (b r) in E; rewrite E in *; change (1 - 2 * 0) with 1 in *; change (1 - 2 * 1) with (- (1)) in *;
      change (1 - 0) with 1 in *; change (1 - 1) with 0 in *; cbn [Z.eqb Pos.eqb pick] in *;
      intros be [-> | ->]; cbn [Z.eqb Pos.eqb q_s q_t q_s0 q_t0 q_s1 q_t1 pick]; rewrite ?mk_val, ?(Z.mul_1_l (2 ^ (r - 1))), ?(Z.mul_0_l (2 ^ (r - 1)));
      rewrite <- ?mk_opp; change (mk 0) with (f0 n); change (mk 1) with (f1 n).
      - split; [reflexivity|ring].
      - split; [ring|]. field. exact HD.
      - split; [ring|]. field. exact HD.
      - split; [reflexivity|ring].
    Qed.

    Lemma hid_masks : 0 <= x < 2 ^ 16 ->
      mk (d_kopprf (sd_prep hid) - sum_to (d_ok (sd_prep hid)) 16 * d_r (sd_prep hid)) = mk (d_kopprf (sd_prep d) - sum_to (d_ok (sd_prep d)) 16 * d_r (sd_prep d)).
    Proof.
      intros X. cbn [hid sd_prep]. change (d_r hid_prep) with (d_r (sd_prep d)). rewrite <- !mk_sub, <- !mk_mul.
      rewrite (mk_sum (d_ok hid_prep) (d_ok (sd_prep d)) (fun j => bit x j * 2 ^ Z.of_nat j) dlt 16).
      2: { intros j _. cbn [hid_prep d_ok]. rewrite mk_val. reflexivity. }
      rewrite low_bits by lia. change (2 ^ Z.of_nat 16) with (2 ^ 16). rewrite (Z.mod_small x) by exact X. cbn [hid_prep d_kopprf]. rewrite mk_val.
      unfold dlt. pose proof nr as N. field. exact N.
    Qed.

    Lemma hid_unique d2 : agree_on x d d2 -> hidden_range x d2 -> (forall r, 1 <= r <= 16 -> round_eq a a' x a0 a1 b0 b1 d d2 r) ->
      mk (d_kopprf (sd_prep d2)) +' mk x *' mk a' = mk (d_kopprf (sd_prep d)) +' mk x *' mk a -> same_hidden x d2 hid.
    Proof.
      intros AG [HK [HO HQ]] RE EK. split; [|split].
      - cbn [hid sd_prep hid_prep d_kopprf]. rewrite <- (draw_val _ HK). f_equal.
        transitivity (mk (d_kopprf (sd_prep d2)) +' mk x *' mk a' -' mk x *' mk a'); [ring|]. rewrite EK. ring.
      - intros j J. set (r := Z.of_nat j + 1). assert (R : 1 <= r <= 16) by (subst r; lia).
        cbn [hid sd_prep hid_prep d_ok]. rewrite <- (draw_val _ (HO j J)). f_equal.
        destruct (RE r R (b r) (round_bit_branch x r)) as [_ Q]. unfold mo, uo in Q. cbv zeta in Q.
        fold (b r) in Q. pose proof (ag_prf _ _ _ AG r R) as PP. fold (b r) in PP. destruct PP as [P1 P2]. rewrite P1, P2 in Q.
        replace (Z.to_nat (r - 1)) with j in Q by (subst r; lia). replace (r - 1) with (Z.of_nat j) in Q by (subst r; lia).
        assert (EB : b r = bit x j) by (unfold b, round_bit; f_equal; subst r; lia). rewrite EB in Q. rewrite (ag_r _ _ _ AG) in Q.
        rewrite <- !(mk_mul n _ (d_r (sd_prep d))) in Q. unfold dlt. pose proof nr as N.
        assert (Q' : mk (d_ok (sd_prep d2) j) *' mk (d_r (sd_prep d)) = mk (d_ok (sd_prep d) j) *' mk (d_r (sd_prep d)) +' mk (bit x j * 2 ^ Z.of_nat j) *' (mk a -' mk a')).
        { revert Q. generalize (mk (q_s (bit x j) (rd_p (sd_round d r))) *' kg x a0 a1 d r +' mk (q_t (bit x j) (rd_p (sd_round d r))) *' kh x b0 b1 d r) as u.
          intros u Q. apply fsub0. apply (f_equal (fun w => w -' u)) in Q. 
          transitivity (u +' (mk (bit x j * 2 ^ Z.of_nat j) *' mk a' +' mk (d_ok (sd_prep d2) j) *' mk (d_r (sd_prep d))) -' u -'
            (u +' (mk (bit x j * 2 ^ Z.of_nat j) *' mk a +' mk (d_ok (sd_prep d) j) *' mk (d_r (sd_prep d))) -' u)); [ring|]. rewrite Q. ring. }
        transitivity (mk (d_ok (sd_prep d2) j) *' mk (d_r (sd_prep d)) /' mk (d_r (sd_prep d))); [field; exact N|]. rewrite Q'. field. exact N.
      - intros r R. destruct (HQ r R) as [D1 D2].
        pose proof (hid_eq r R) as HE. fold (b r) in *. assert (BO : branch (1 - b r)).
        { destruct (round_bit_branch x r) as [E|E]; fold (b r) in E; rewrite E; [right|left]; reflexivity. }
        destruct (RE r R (1 - b r) BO) as [U V]. destruct (HE (1 - b r) BO) as [U' V']. rewrite U in U'. rewrite V in V'. clear U V HE.
        assert (EM : mo d2 (mk a') r (1 - b r) = mo hid (mk a') r (1 - b r)).
        { unfold mo. f_equal. destruct (RE r R (b r) (round_bit_branch x r)) as [_ Q]. destruct (hid_eq r R (b r) (round_bit_branch x r)) as [_ Q'].
          rewrite Q in Q'. unfold mo, uo in Q'. cbv zeta in Q'.
          pose proof (ag_prf _ _ _ AG r R) as PP. fold (b r) in PP. destruct PP as [P1 P2].
          pose proof (ag_prf _ _ _ hid_agree r R) as PP'. fold (b r) in PP'. destruct PP' as [P1' P2']. rewrite P1, P2, P1', P2' in Q'.
          apply (fadd_inj_l (mk (q_s (b r) (rd_p (sd_round d r))) *' kg x a0 a1 d r +' mk (q_t (b r) (rd_p (sd_round d r))) *' kh x b0 b1 d r)) in Q'.
          apply fadd_inj_l in Q'. exact Q'. }
        rewrite EM in V'. clear EM. assert (V : uo (rd_p (sd_round d2 r)) (1 - b r) (kg x a0 a1 d r) (kh x b0 b1 d r) = uo (rd_p (sd_round hid r)) (1 - b r) (kg x a0 a1 d r) (kh x b0 b1 d r)).
        { apply (fadd_inj_r (mo hid (mk a') r (1 - b r))). exact V'. }
        clear V'. pose proof (det_r r R) as DR. unfold uo in U', V.
        destruct (hid_in_range) as [_ [_ HR]]. destruct (HR r R) as [D1' D2']. fold (b r) in D1', D2'.
        destruct (solve2 _ _ _ _ _ _ _ _ DR U' V) as [X1 X2].
        split; [rewrite <- (draw_val _ D1), <- (draw_val _ D1'), X1; reflexivity|rewrite <- (draw_val _ D2), <- (draw_val _ D2'), X2; reflexivity].
    Qed.
  End Hidden.

  (** ** C83 *)
  Lemma set_ready S a P a' S' P' : server_ready live S a -> multiple P a' -> ~ (order | a') -> setSecret dbg live S P = Ok (S', P') ->
    server_ready live S' a' /\ ots S' = ots S /\ theta S' = theta S /\ scur S' = scur S.
  Proof.
    intros SR M N H. unfold setSecret in H. apply bind_Ok in H. destruct H as [v [_ H]]. apply bind_Ok in H. destruct H as [u [_ H]].
    apply Ok_inj in H. injection H as <- _. destruct SR as [A1 A2 A3 A4 A5 A6]. destruct A1 as [[c [Ec L]] A1].
    pose proof (finite_m live P a' M N) as FP.
    assert (FA : finite all_alive P).
    { destruct FP as [I [A [B [[c' [E _]] Q]]]]. split; [exact I|]. split; [exact A|]. split; [exact B|]. split; [exists c'; split; [exact E|reflexivity]|exact Q]. }
    destruct (set_curve_finite live P c L FA) as [V D].
    split; [|cbn [ots theta scur]; split; [reflexivity|split; reflexivity]].
    constructor; cbn [ots scur theta ga k_lt k_eq k_gt ok Si0 Si1].
    - split; [exists c; split; [exact Ec|exact L]|exact A1].
    - exact A2.
    - exact A3.
    - rewrite A2, Ec. split; [right; exact V|]. refine (eq_trans D _). apply M.
    - exact A5.
    - exact A6.
  Qed.

  Lemma prf_value_log d P a x : multiple P a -> prf_value d P x = EccProofs.gk CV (d_kopprf (sd_prep d) + x * a).
  Proof.
    intros [_ E]. unfold prf_value. rewrite E. change (gmul CV a (ggen CV)) with (EccProofs.gk CV a).
    change (gmul CV (d_kopprf (sd_prep d)) (ggen CV)) with (EccProofs.gk CV (d_kopprf (sd_prep d))). unfold gadd, gmul.
    rewrite (gk_mul CV good_CV), (gk_add CV good_CV). reflexivity.
  Qed.

  Lemma L_C83 S S' P P' C a a' a0 a1 b0 b1 x d t : aes_ready e iv -> server_ready live S a -> multiple P a' -> ~ (order | a') ->
    setSecret dbg live S P = Ok (S', P') ->
    dme_ok live (rdme (otr C)) -> same_crs (dcrs (rdme (otr C))) (dcrs (sdme (ots S))) ->
    crs_logs live (dcrs (sdme (ots S))) a0 a1 b0 b1 -> ~ (order | a0 * b1 - a1 * b0) ->
    0 <= x < 2 ^ 16 -> (forall s j, (j < 16)%nat -> 2 ^ 120 <= level_key (sd_prep d) s j < 2 ^ 128) ->
    ~ (order | d_r (sd_prep d)) -> (forall r, 1 <= r <= 16 -> ~ (order | rd_key (sd_round d r))) ->
    talk dbg live e iv S (setMessage C x) d = Ok t ->
    exists d' t', agree_on x d d' /\ hidden_range x d' /\ talk dbg live e iv S' (setMessage C x) d' = Ok t' /\ same_transcript t t' /\
      prf_value d' (ga S') x = prf_value d (ga S) x /\
      forall d2 t2, agree_on x d d2 -> hidden_range x d2 -> talk dbg live e iv S' (setMessage C x) d2 = Ok t2 -> same_transcript t t2 ->
        prf_value d2 (ga S') x = prf_value d (ga S) x -> same_hidden x d2 d'.
  Proof.
    intros AR SR M N ES OKC SC CL ND X GK NR NK T.
    destruct (set_ready S a P a' S' P' SR M N ES) as [SR' [EO [ET EC]]].
    destruct (mult_drf live _ _ _ _ _ (sr_ots _ _ _ SR) CL) as [c K].
    destruct (same_drf live _ _ _ _ _ _ _ K OKC SC) as [c' K'].
    assert (DET : mk a0 *' mk b1 -' mk a1 *' mk b0 <> f0 n).
    { intros E. apply ND, mk_order_0. rewrite <- mk_sub, <- !mk_mul. exact E. }
    set (d' := hid x a a' (mk a0) (mk a1) (mk b0) (mk b1) d).
    assert (ED : sdme (ots S') = sdme (ots S)) by (rewrite EO; reflexivity).
    pose proof (hid_agree x a a' (mk a0) (mk a1) (mk b0) (mk b1) d) as AG. fold d' in AG.
    assert (RE : forall r, 1 <= r <= 16 -> round_eq a a' x (mk a0) (mk a1) (mk b0) (mk b1) d d' r) by (intros r R; exact (hid_eq x a a' _ _ _ _ d NR NK DET r R)).
    assert (FE : Forall (round_eq a a' x (mk a0) (mk a1) (mk b0) (mk b1) d d') rounds).
    { apply Forall_forall. intros r I. apply RE. exact (proj1 (Forall_forall _ _) rounds_range r I). }
    destruct (talk_forth S S' (setMessage C x) a a' x c c' _ _ _ _ d d' ED ET EC K K' AG AR SR SR' GK t eq_refl T (hid_masks x a a' _ _ _ _ d NR X) FE) as [t' [T' ST]].
    pose proof (sr_ga _ _ _ SR) as MG. pose proof (sr_ga _ _ _ SR') as MG'.
    exists d', t'. split; [exact AG|]. split; [apply hid_in_range|]. split; [exact T'|]. split; [exact ST|]. split.
    - rewrite (prf_value_log _ _ _ x MG), (prf_value_log _ _ _ x MG'). apply (gk_eq CV good_CV), (mkn_eq CV good_CV).
      unfold d'. cbn [hid sd_prep hid_prep d_kopprf]. rewrite <- !mk_add, mk_val, <- !mk_mul. ring.
    - intros d2 t2 AG2 HR2 T2 ST2 PV. apply hid_unique; [exact NR|exact NK|exact DET|exact AG2|exact HR2| |].
      + pose proof (talk_back S S' (setMessage C x) a a' x c c' _ _ _ _ d d2 ED ET K K' AG2 AR SR SR' GK t t2 eq_refl T T2 ST2) as FB.
        intros r R. exact (proj1 (Forall_forall _ _) FB r (rounds_all r R)).
      + rewrite (prf_value_log _ _ _ x MG), (prf_value_log _ _ _ x MG') in PV. apply (gk_eq CV good_CV), (mkn_eq CV good_CV) in PV.
        rewrite <- !mk_add, <- !mk_mul in PV. exact PV.
  Qed.
End Opprf8.
