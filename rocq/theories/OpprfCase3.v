(** Concrete transcripts that someone in between has changed: threshold 9, secret 3*G, input 5. *)
From Coq Require Import ZArith Znumtheory Bool List Lia Field.
From Verif Require Import Outcome FieldModel ZpField SpecField FieldProofs ECGroup ECOrder CurveParams CurveFacts EccModel EccProofs SpecEcc EccThms Emb RF DmeModel SpecDme DmeProofs DmeProofs2 OtModel SpecOt OtProofs.
From Verif Require Import CrcModel SpecCrc AesModel SpecAes OpprfModel SpecOpprf SpecOpprf2 SpecOpprf3 OpprfProofs OpprfProofs2 OpprfProofs3 OpprfProofs4 OpprfProofs5 OpprfProofs6 OpprfProofs7 OpprfProofs8 OpprfProofs9 OpprfCase OpprfCase2 Prop_Aes.
Import ListNotations.
Open Scope Z_scope.

Section Case3.
  Variables (dbg : bool) (live : Z -> bool).
  Notation multiple := (multiple live).
  Notation n := (fieldn CV).

  Lemma key2_nz x r : ~ (order | key2 x r).
  Proof.
    unfold key2. destruct (round_bit x r =? 1); [|exact nz1].
    intros H. apply nz1. apply (Z.divide_add_cancel_r order order 1 (Z.divide_refl _)). replace (order + 1) with (half * 2) by (vm_compute; reflexivity). apply Z.divide_mul_l, H.
  Qed.

  Lemma answer_tilt c x r m : live c = true -> 1 <= r <= 16 ->
    answer live (with_keys case_draws (key2 x)) (mk n 3) (mk n 1) (mk n 2) (mk n 1) (mk n 2) (mk n 1) (mk n 1) r (ocprf (snd m)) ->
    exists m', tilt_round live (0, 7 * 2 ^ (r - 1)) m m'.
  Proof.
    intros L R [c0 [c1 [E [[U0 W0] [U1 W1]]]]]. cbn [with_keys case_draws sd_round rd_p case_quad q_s0 q_t0 q_s1 q_t1 sd_prep case_prep d_ok d_r] in U0, W0, U1, W1.
    repeat first [rewrite mk_mul in U0 | rewrite mk_add in U0]. repeat first [rewrite mk_mul in W0 | rewrite mk_add in W0]. repeat first [rewrite mk_mul in U1 | rewrite mk_add in U1]. repeat first [rewrite mk_mul in W1 | rewrite mk_add in W1].
    assert (PW : 0 < 2 ^ (r - 1) <= 2 ^ 16) by (split; [apply Z.pow_pos_nonneg; lia|apply Z.pow_le_mono_r; lia]).
    destruct (shift_exists dbg live c c0 _ 0 _ L U0 ltac:(apply small_nz; lia) W0 ltac:(apply small_nz; lia) ltac:(rewrite mk_add; apply small_nz; lia)) as [_ [R0 [_ [_ H0]]]].
    destruct (shift_exists dbg live c c1 _ (7 * 2 ^ (r - 1)) _ L U1 ltac:(apply small_nz; lia) W1 ltac:(apply small_nz; lia) ltac:(rewrite mk_add; apply small_nz; lia)) as [_ [R1 [_ [_ H1]]]].
    exists (fst m, mkoc (oc (snd m)) [mkct (cu c0) R0; mkct (cu c1) R1]). split; [reflexivity|].
    exists c0, c1, (mkct (cu c0) R0), (mkct (cu c1) R1). split; [exact E|]. split; [reflexivity|]. split; [exact H0|exact H1].
  Qed.

  Lemma case3_tilt c0 c1 c2 x : live c0 = true -> live c1 = true -> live c2 = true -> 0 <= x <= 9 ->
    forall D Q S0 S, dme_new dbg live c0 dec 2 1 1 0 = Ok D -> crs_finite (dcrs D) -> crs_logs live (dcrs D) 1 2 1 2 ->
    getRandomPoint dbg live CV (Some c0) 3 = Ok Q -> server_new dbg live c1 9 (dcrs D) 1 = Ok S0 ->
    setSecret dbg live S0 Q = Ok (S, set_curve Q (Some c1)) -> server_ready live S 3 -> theta S = 9 ->
    same_crs (dcrs (sdme (ots S))) (dcrs D) ->
    exists t t', talk dbg live small iv0 S (setMessage (client_new c2 (dcrs D)) x) (with_keys case_draws (key2 x)) = Ok t /\
      length (tr_rounds t) = 16%nat /\ tr_masks t' = tr_masks t /\ tilt_rounds live (weighted 7) (tr_rounds t) (tr_rounds t').
  Proof.
    intros L0 L1 L2 X D Q S0 S ED FI LG EQ E0 E1 SR TH SC.
    pose proof (sr_ots _ _ _ SR) as OK. pose proof OK as [[c [Ec L]] _].
    assert (KD : drf live D c0 (mk n 1) (mk n 2) (mk n 1) (mk n 2)).
    { destruct (new_dec_rf dbg live c0 2 1 1 0 L0) as [D1 [EE [_ K]]]. rewrite ED in EE. apply Ok_inj in EE. subst D1. rewrite !mk_mul in K. exact K. }
    destruct (same_drf live _ _ _ _ _ _ _ KD OK SC) as [cs KS].
    assert (KC : drf live (dme_new_crs c2 (dcrs D)) c2 (mk n 1) (mk n 2) (mk n 1) (mk n 2)).
    { apply (received_drf live c0 c2 D _ _ _ _ L2 KD); apply small_nz; lia. }
    destruct (talk_logs dbg live small iv0 S (setMessage (client_new c2 (dcrs D)) x) (with_keys case_draws (key2 x)) 3 x cs c2 _ _ _ _ (x ?= 9)
      case_aes SR KS KC eq_refl (case_keys (with_keys case_draws (key2 x)) eq_refl) (case_masks dbg live c (sdme (ots S)) (with_keys case_draws (key2 x)) x Ec L ltac:(lia) eq_refl eq_refl)) as [t [T A]].
    assert (H : forall l ms, Forall (fun r => 1 <= r <= 16) l ->
      Forall2 (fun r (m : pkey * otctxts) => answer live (with_keys case_draws (key2 x)) (mk n 3) (mk n 1) (mk n 2) (mk n 1) (mk n 2)
        (fmul n (mk n (rd_key (sd_round (with_keys case_draws (key2 x)) r))) (pick (round_bit x r) (mk n 1) (mk n 2)))
        (fmul n (mk n (rd_key (sd_round (with_keys case_draws (key2 x)) r))) (pick (round_bit x r) (mk n 1) (mk n 2))) r (ocprf (snd m))) l ms ->
      exists ms', tilt_rounds live (map (fun r => (0, 7 * 2 ^ (r - 1))) l) ms ms').
    { intros l ms FL F2. revert FL. induction F2 as [|r m l ms HM F2 IH]; intros FL; [exists []; constructor|].
      inversion FL as [|? ? R FL']; subst. destruct (IH FL') as [ms' SH].
      cbn [with_keys sd_round rd_key] in HM. rewrite (key2_mk x r R) in HM. destruct (answer_tilt c x r m L R HM) as [m' HL].
      exists (m' :: ms'). cbn [map]. constructor; [exact HL|exact SH]. }
    destruct (H rounds (tr_rounds t) rounds_range A) as [ms' SH].
    exists t, (mktr ms' (tr_masks t)). split; [exact T|]. split; [|split; [reflexivity|exact SH]].
    change 16%nat with (length rounds). clear - A. induction A as [|? ? ? ? _ _ IH]; [reflexivity|]. cbn [length]. rewrite IH. reflexivity.
  Qed.

  Lemma case87 c0 c1 c2 : live c0 = true -> live c1 = true -> live c2 = true ->
    exists D Q S0 S t C1, dme_new dbg live c0 dec 2 1 1 0 = Ok D /\ getRandomPoint dbg live CV (Some c0) 3 = Ok Q /\
      server_new dbg live c1 9 (dcrs D) 1 = Ok S0 /\ setSecret dbg live S0 Q = Ok (S, set_curve Q (Some c1)) /\
      let C := setMessage (client_new c2 (dcrs D)) 5 in let d := with_keys case_draws (key2 5) in
      talk dbg live small iv0 S C d = Ok t /\ offline dbg live small iv0 C d t = Ok C1 /\
      offline dbg live small iv0 C d (cut_round 1 t) = Err OutOfBounds /\
      offline dbg live small iv0 C d (cut_round 2 t) = Ok C1 /\
      offline dbg live small iv0 C d (cut_round 3 t) = Err OutOfBounds /\
      forall r, 4 <= r <= 16 -> offline dbg live small iv0 C d (cut_round r t) = Ok C1.
  Proof.
    intros L0 L1 L2. destruct (case2_crs dbg live c0 L0) as [D [ED [FI LG]]]. destruct (case_world dbg live c0 c1 D L0 L1 FI) as [Q [S0 [S [EQ [E0 [E1 [SR [TH [SC DG]]]]]]]]].
    destruct (case3_tilt c0 c1 c2 5 L0 L1 L2 ltac:(lia) D Q S0 S ED FI LG EQ E0 E1 SR TH SC) as [t [_ [T [LEN _]]]].
    destruct (case2_session dbg live c0 c1 c2 5 L0 L1 L2 ltac:(lia) D Q S0 S ED FI LG EQ E0 E1 SR TH SC) as [GD _].
    destruct (L_C79 dbg live small iv0 c0 c2 2 1 1 0 D L0 L2 nz2 nz1 nz1 ED S 3 case_draws 5 (key2 5) t case_aes SR SC T 5 (key2 5) ltac:(lia) (key2_change 5 5) GD) as [C1 [O1 _]].
    exists D, Q, S0, S, t, C1. split; [exact ED|]. split; [exact EQ|]. split; [exact E0|]. split; [exact E1|]. cbv zeta. split; [exact T|]. split; [exact O1|].
    assert (K : forall r, 1 <= r <= 16 -> _) by (intros r R; exact (L_C87_cut dbg live small iv0 (setMessage (client_new c2 (dcrs D)) 5) 5 (with_keys case_draws (key2 5)) t C1 r eq_refl R LEN O1)).
    split; [exact (K 1 ltac:(lia))|]. split; [exact (K 2 ltac:(lia))|]. split; [exact (K 3 ltac:(lia))|].
    intros r R. rewrite (K r ltac:(lia)).
    assert (B : round_bit 5 r = 0).
    { assert (r = 4 \/ r = 5 \/ r = 6 \/ r = 7 \/ r = 8 \/ r = 9 \/ r = 10 \/ r = 11 \/ r = 12 \/ r = 13 \/ r = 14 \/ r = 15 \/ r = 16) as HR by lia.
      repeat (destruct HR as [->|HR]; [reflexivity|]). subst r. reflexivity. }
    rewrite B. reflexivity.
  Qed.

  Lemma case88 c0 c1 c2 : live c0 = true -> live c1 = true -> live c2 = true ->
    exists D Q S0 S t t' C1 C1', dme_new dbg live c0 dec 2 1 1 0 = Ok D /\ getRandomPoint dbg live CV (Some c0) 3 = Ok Q /\
      server_new dbg live c1 9 (dcrs D) 1 = Ok S0 /\ setSecret dbg live S0 Q = Ok (S, set_curve Q (Some c1)) /\
      let C := setMessage (client_new c2 (dcrs D)) 5 in let d := with_keys case_draws (key2 5) in
      talk dbg live small iv0 S C d = Ok t /\ tilt_rounds live (weighted 7) (tr_rounds t) (tr_rounds t') /\ tr_masks t' = tr_masks t /\
      offline dbg live small iv0 C d t = Ok C1 /\ offline dbg live small iv0 C d t' = Ok C1' /\
      den CV (result C1') = gadd CV (den CV (result C1)) (gmul CV 35 (ggen CV)).
  Proof.
    intros L0 L1 L2. destruct (case2_crs dbg live c0 L0) as [D [ED [FI LG]]]. destruct (case_world dbg live c0 c1 D L0 L1 FI) as [Q [S0 [S [EQ [E0 [E1 [SR [TH [SC DG]]]]]]]]].
    destruct (case3_tilt c0 c1 c2 5 L0 L1 L2 ltac:(lia) D Q S0 S ED FI LG EQ E0 E1 SR TH SC) as [t [t' [T [LEN [EM SH]]]]].
    destruct (case2_session dbg live c0 c1 c2 5 L0 L1 L2 ltac:(lia) D Q S0 S ED FI LG EQ E0 E1 SR TH SC) as [GD _].
    destruct (L_C79 dbg live small iv0 c0 c2 2 1 1 0 D L0 L2 nz2 nz1 nz1 ED S 3 case_draws 5 (key2 5) t case_aes SR SC T 5 (key2 5) ltac:(lia) (key2_change 5 5) GD) as [C1 [O1 _]].
    destruct (L_ready_client live c2 (dcrs D) 5 L2 FI ltac:(lia)) as [CR [_ R0]].
    destruct (L_C88_tilt dbg live small iv0 (setMessage (client_new c2 (dcrs D)) 5) 5 (with_keys case_draws (key2 5)) (weighted 7) t t' C1) as [C1' [O1' [_ [_ R]]]].
    - exact (cr_otr _ _ _ CR).
    - reflexivity.
    - exact (cr_result _ _ _ CR).
    - intros r _. exact (key2_nz 5 r).
    - rewrite LEN. constructor.
    - exact SH.
    - exact EM.
    - exact O1.
    - rewrite (tilted_weighted 5 7 ltac:(lia)) in R. exists D, Q, S0, S, t, t', C1, C1'. split; [exact ED|]. split; [exact EQ|]. split; [exact E0|]. split; [exact E1|]. cbv zeta. split; [exact T|]. split; [exact SH|]. split; [exact EM|]. split; [exact O1|]. split; [exact O1'|]. exact R.
  Qed.
End Case3.
