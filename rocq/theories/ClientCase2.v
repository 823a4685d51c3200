(** Concrete random strings: one on which the secret stays hidden, and one on which it does not. *)
From Coq Require Import ZArith Znumtheory Bool List Lia.
From Verif Require Import Outcome FieldModel ZpField SpecField FieldProofs ECGroup ECOrder CurveParams CurveFacts EccModel EccProofs SpecEcc EccThms Emb RF DmeModel SpecDme DmeProofs OtModel OtProofs SpecOt CrcModel AesModel OpprfModel SpecOpprf SpecOpprf6 OpprfProofs OpprfProofs3 OpprfProofs4 OpprfProofs5 OpprfProofs8 OpprfCase OpprfCase2 OpprfCase5 SpecCount CountMath SpecDdh SpecDdh2 SpecDdh3 SpecDdh4 DdhProofs DdhProofs3 DdhCases DdhMany2 DdhHear5 SpecCheat CheatProofs CheatProofs2 CheatCase SpecIdeal IdealProofs IdealProofs2 IdealCase SpecClient ClientMath ClientProofs ClientProofs2 ClientProofs3 ClientProofs4 ClientProofs5 ClientCase Prop_Aes.
Import ListNotations.
Open Scope Z_scope.

Section Case.
  Variables (dbg : bool) (live : Z -> bool).
  Lemma random_world c c2 r1 r2 r3 r4 : live c = true -> live c2 = true -> 0 < r1 <= 6 -> 0 < r2 <= 6 -> 0 < r3 <= 6 -> 0 < r4 <= 6 ->
    exists D G T0 S, dme_new_random dbg live c r1 r2 r3 r4 = Ok D /\ crs_finite (dcrs D) /\ dlike live (dme_new_crs c2 (dcrs D)) c2 r1 r3 r2 r4 /\
      getRandomPoint dbg live CV (Some c) 3 = Ok G /\ server_new dbg live c2 9 (dcrs D) 1 = Ok T0 /\ setSecret dbg live T0 G = Ok (S, set_curve G (Some c2)) /\
      server_ready live S 3 /\ theta S = 9 /\ sdme (ots S) = dme_new_crs c2 (dcrs D) /\ den CV (ga S) = den CV G.
  Proof.
    intros LC LC2 R1 R2 R3 R4. destruct (random_view dbg live c LC r1 r2 r3 r4) as [D [ED KD]].
    assert (NZ : forall z, 0 < z <= 6 -> ZpField.mk (fieldn CV) z <> f0 (fieldn CV)) by (intros z Z; apply small_nz; lia).
    assert (FI : crs_finite (dcrs D)).
    { destruct KD as [_ _ A B A' B'].
      split; [refine (fin_any live _ _ A _)|split; [refine (fin_any live _ _ B _)|split; [refine (fin_any live _ _ A' _)|refine (fin_any live _ _ B' _)]]]; apply NZ; lia. }
    destruct (string_like dbg live c c2 LC LC2 r1 r2 r3 r4) as [D' [ED' HD]]. rewrite ED in ED'. apply Ok_inj in ED'. subst D'.
    destruct (case_world dbg live c c2 D LC LC2 FI) as [G [T0 [S [EG [E0 [E1 [SR [TH [SC DG]]]]]]]]].
    exists D, G, T0, S. split; [exact ED|]. split; [exact FI|]. split; [exact HD|]. split; [exact EG|]. split; [exact E0|]. split; [exact E1|]. split; [exact SR|]. split; [exact TH|].
    split; [exact (made_dme _ _ _ _ _ _ _ _ _ _ E0 E1)|exact DG].
  Qed.
  Lemma case122 c c2 : live c = true -> live c2 = true ->
    exists D P Q R G G' T0 S T0' S' H N, dme_new_random dbg live c 1 2 3 4 = Ok D /\
      getRandomPoint dbg live CV (Some c) 7 = Ok P /\ getRandomPoint dbg live CV (Some c) 14 = Ok Q /\ getRandomPoint dbg live CV (Some c) 21 = Ok R /\
      getRandomPoint dbg live CV (Some c) 3 = Ok G /\ getRandomPoint dbg live CV (Some c) 7 = Ok G' /\
      server_new dbg live c2 9 (dcrs D) 1 = Ok T0 /\ setSecret dbg live T0 G = Ok (S, set_curve G (Some c2)) /\
      server_new dbg live c2 9 (dcrs D) 1 = Ok T0' /\ setSecret dbg live T0' G' = Ok (S', set_curve G' (Some c2)) /\ ~ double_string dbg live (ots S) /\
      let K := changing (mkpk P Q) (mkpk P R) in let E := fun _ => (case_draws, 1) in let A := fun H : list sight => (length H =? 2)%nat in
      fits all_ones /\ evaluations dbg live small iv0 S K E [all_ones; all_ones] [] = Ok H /\ length H = 2%nat /\ 0 < N /\
      convinced (fun l => evaluations dbg live small iv0 S K E l []) 2 A N /\ convinced (fun l => evaluations dbg live small iv0 S' K E l []) 2 A N.
  Proof.
    intros LC LC2. destruct (random_world c c2 1 2 3 4 LC LC2 ltac:(lia) ltac:(lia) ltac:(lia) ltac:(lia)) as [D [G [T0 [S [ED [FI [HD [EG [E0 [E1 [SR [TH [DM DG]]]]]]]]]]]]].
    destruct (points_key dbg live c 7 14 LC ltac:(lia)) as [P [Q [EP [EQ [_ [_ SQ]]]]]]. destruct (points_key dbg live c 7 21 LC ltac:(lia)) as [P' [R [EP' [ER [_ [_ SRk]]]]]].
    rewrite EP in EP'. apply Ok_inj in EP'. subst P'.
    assert (N7 : ~ (order | 7)) by (apply order_big; lia). destruct (randP_m dbg live c 7 LC) as [G' [EG' MG']].
    destruct (L_ready_server dbg live c2 9 (dcrs D) G' 7 1 LC2 FI ltac:(lia) MG' N7) as [T0' [S' [E0' [E1' [SR' [TT' [SC' [_ _]]]]]]]].
    pose proof (made_dme _ _ _ _ _ _ _ _ _ _ E0' E1') as DM'. rewrite <- DM in HD, DM'.
    assert (ND : ~ double_string dbg live (ots S)) by (intros X; apply (double_cond dbg live _ c2 _ _ _ _ HD) in X; exact (cond_1234 X)).
    assert (HK : forall H h, some_key live (changing (mkpk P Q) (mkpk P R) H h)) by (intros H h; unfold changing; destruct (Nat.even (length h)); assumption).
    assert (NR : forall H : list sight, ~ (order | d_r (sd_prep (fst (case_draws, 1))))) by (intros _; exact order_one).
    destruct (L_C122_secret dbg live small iv0 S S' 3 7 (changing (mkpk P Q) (mkpk P R)) (fun _ => (case_draws, 1)) (fun H => (length H =? 2)%nat) 2 case_aes SR SR' DM'
      ltac:(rewrite TH; exact TT') ND HK (fun _ => case_keys case_draws eq_refl) NR) as [N [C1 C2]].
    assert (HS : stands live (sdme (ots S)) (theta S) 3 S) by (split; [exact SR|split; reflexivity]).
    assert (KN : forall H h, knows live (sdme (ots S)) (changing (mkpk P Q) (mkpk P R) H h)) by (intros H h; exact (single_knows dbg live (ots S) _ (sr_ots _ _ _ SR) ND (HK H h))).
    assert (EC : dcurve (sdme (ots S)) = Some c2) by (rewrite DM; reflexivity).
    destruct (case_runs dbg live c2 S S _ _ 3 (changing (mkpk P Q) (mkpk P R)) HS EC LC2) as [H EH].
    assert (FF : Forall fits [all_ones; all_ones]) by (constructor; [exact ones_fit|constructor; [exact ones_fit|constructor]]).
    rewrite <- (evaluations_ok dbg live small iv0 _ _ case_aes 3 3 S S (changing (mkpk P Q) (mkpk P R)) (fun _ => (case_draws, 1)) HS HS (fun _ => case_keys case_draws eq_refl) KN _ S [] HS FF) in EH.
    assert (LH : length H = 2%nat).
    { revert EH. cbn [evaluations]. intros EH. apply bind_Ok in EH. destruct EH as [x [_ EH]]. apply bind_Ok in EH. destruct EH as [y [_ EH]]. apply Ok_inj in EH. subst H. reflexivity. }
    exists D, P, Q, R, G, G', T0, S, T0', S', H, N. split; [exact ED|]. split; [exact EP|]. split; [exact EQ|]. split; [exact ER|]. split; [exact EG|]. split; [exact EG'|].
    split; [exact E0|]. split; [exact E1|]. split; [exact E0'|]. split; [exact E1'|]. split; [exact ND|]. cbv zeta. split; [exact ones_fit|]. split; [exact EH|]. split; [exact LH|].
    split; [|split; [exact C1|exact C2]]. apply (some_way _ _ _ _ [all_ones; all_ones] H C1 eq_refl FF EH). rewrite LH. reflexivity.
  Qed.
  Lemma case122_double c c2 : live c = true -> live c2 = true ->
    exists D G T0 S pk f, dme_new_random dbg live c 1 2 2 4 = Ok D /\ getRandomPoint dbg live CV (Some c) 3 = Ok G /\
      server_new dbg live c2 9 (dcrs D) 1 = Ok T0 /\ setSecret dbg live T0 G = Ok (S, set_curve G (Some c2)) /\ double_string dbg live (ots S) /\ some_key live pk /\
      forall r, 1 <= r <= 16 -> exists S1 S2 o, prepareKeysAndInputs dbg live small iv0 S case_prep = Ok S1 /\
        runOTRound dbg live S1 r pk case_quad case_quad case_quad case_quad 16 33 = Ok (S2, o) /\ f r (reply_of o) = den CV G.
  Proof.
    intros LC LC2. destruct (random_world c c2 1 2 2 4 LC LC2 ltac:(lia) ltac:(lia) ltac:(lia) ltac:(lia)) as [D [G [T0 [S [ED [FI [HD [EG [E0 [E1 [SR [TH [DM DG]]]]]]]]]]]]].
    rewrite <- DM in HD. assert (DS : double_string dbg live (ots S)) by (apply (double_cond dbg live _ c2 _ _ _ _ HD), cond_1224).
    destruct (L_C122_double dbg live (ots S) (sr_ots _ _ _ SR) DS) as [pk [f [SK H]]]. exists D, G, T0, S, pk, f.
    split; [exact ED|]. split; [exact EG|]. split; [exact E0|]. split; [exact E1|]. split; [exact DS|]. split; [exact SK|]. intros r RG. rewrite <- DG.
    exact (H small iv0 S 3 case_prep r case_quad case_quad case_quad case_quad 16 33 case_aes SR eq_refl (case_keys case_draws eq_refl) RG).
  Qed.
End Case.
