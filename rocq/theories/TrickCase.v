(** A concrete string, concrete messages and draws, and a server, for the point of order three. *)
From Coq Require Import ZArith Znumtheory Bool List Lia.
From Verif Require Import Outcome FieldModel ZpField SpecField FieldProofs ECGroup ECOrder CurveParams CurveFacts EccModel EccProofs SpecEcc EccThms Emb RF DmeModel SpecDme DmeProofs OtModel OtProofs SpecCount CountMath SpecDdh SpecDdh3 DdhProofs DdhCases DdhMany2 DdhHear5 CheatProofs2 SpecTrick TrickProofs TrickProofs2.
From Verif Require Import CrcModel SpecCrc AesModel SpecAes OpprfModel SpecOpprf SpecOpprf6 OpprfProofs OpprfCase Prop_Aes.
Import ListNotations.
Open Scope Z_scope.

Section Case.
  Variables (dbg : bool) (live : Z -> bool).
  (** the draws 1, 2 leave the first message as it is; the draws 1, 0 hide the second behind the trick point *)
  Lemma case118 c : live c = true ->
    exists D m0 m1 S' c0 c1 M, dme_new dbg live c messy 1 2 3 4 = Ok D /\ getRandomPoint dbg live CV (Some c) 7 = Ok m0 /\ getRandomPoint dbg live CV (Some c) 14 = Ok m1 /\
      encMsgs dbg live (otsndr_new D) (trick_key c) m0 m1 1 2 1 0 = Ok (S', [c0; c1]) /\ same_point (cmv c0) m0 /\
      ~ same_point (cmv c1) m1 /\ padd dbg live CV (cmv c1) (mirrored c) = Ok M /\ same_point M m1.
  Proof.
    intros LC. destruct (L_C26_logs dbg live c messy 1 2 3 4 LC) as [D [ED [OK _]]].
    destruct (randP_m dbg live c 7 LC) as [P [EP MP]]. destruct (randP_m dbg live c 14 LC) as [Q [EQ MQ]].
    destruct (two_parts dbg live (otsndr_new D) c P Q 1 2 1 0 OK LC (proj1 MP) (proj1 MQ)) as [S' [c0 [c1 [E [_ [E0 E1]]]]]].
    assert (K0 : (1 mod order + 2 mod order) = 3) by (vm_compute; reflexivity). assert (K1 : (1 mod order + 0 mod order) = 1) by (vm_compute; reflexivity).
    rewrite K0 in E0. rewrite K1 in E1.
    destruct (masked dbg live c 1 Q LC (proj1 MQ)) as [R [E' [_ H]]]. rewrite E1 in E'. assert (R = cmv c1) as -> by congruence.
    destruct (H ltac:(discriminate)) as [NS [[M [EM [_ SM]]] _]]. change (- (1)) with (-1) in EM. rewrite (T_mod (-1) 2 eq_refl), inj_T2 in EM.
    exists D, P, Q, S', c0, c1, M. split; [exact ED|]. split; [exact EP|]. split; [exact EQ|]. split; [exact E|]. split; [apply (proj2 (proj2 (part dbg live c 3 P c0 LC (proj1 MP) E0))); reflexivity|].
    split; [exact NS|]. split; [exact EM|exact SM].
  Qed.

  (** threshold 9, secret three times the generator, round 4 *)
  Lemma case118_secret c0 c1 c2 c : live c0 = true -> live c1 = true -> live c2 = true -> live c = true ->
    exists D Q N S0 S1 S2 o p0 p1 P0 P1 M R G, dme_new dbg live c0 dec 1 1 1 0 = Ok D /\ getRandomPoint dbg live CV (Some c0) 3 = Ok Q /\
      server_new dbg live c1 9 (dcrs D) 1 = Ok N /\ setSecret dbg live N Q = Ok (S0, set_curve Q (Some c1)) /\
      prepareKeysAndInputs dbg live small iv0 S0 case_prep = Ok S1 /\
      runOTRound dbg live S1 4 (trick_key c) case_quad case_quad case_quad case_quad 16 33 = Ok (S2, o) /\ ocprf o = [p0; p1] /\
      In (Ok P0) (guesses dbg live c p0) /\ In (Ok P1) (guesses dbg live c p1) /\
      pmulz dbg live CV P0 (-1) = Ok M /\ padd dbg live CV P1 M = Ok R /\ pmulz dbg live CV R (halve 3) = Ok G /\
      is_valid live G /\ same_point G Q.
  Proof.
    intros L0 L1 L2 LC. destruct (case_setup dbg live c0 c1 c2 L0 L1 L2) as [D [Q [N [S0 [E1 [E2 [E3 [E4 [SR [TH [FS [DG H]]]]]]]]]]]].
    destruct (H 5 (or_introl eq_refl)) as [CR [SC [_ GD]]].
    destruct (prepare_ok dbg live small iv0 S0 (sd_prep case_draws) 3 case_aes SR (gd_keys _ _ _ _ _ _ _ _ _ _ GD)) as [S1 [EP _]].
    assert (HI : history dbg live small iv0 [EPrepare case_prep] (S0, client_new c2 (dcrs D)) = Ok (S1, client_new c2 (dcrs D))).
    { unfold history. cbn [foldM]. unfold happens. cbn [fst snd]. change (sd_prep case_draws) with case_prep in EP. rewrite EP. reflexivity. }
    assert (LD : loaded [EPrepare case_prep] 4) by (unfold loaded; cbn; discriminate).
    destruct (L_C118_secret dbg live small iv0 S0 _ 3 _ S1 _ c 4 case_quad case_quad case_quad case_quad 16 33 FS SR HI LC ltac:(lia) LD)
      as [S2 [o [p0 [p1 [P0 [P1 [M [R [G [F1 [F2 [F3 [F4 [F5 [F6 [F7 [F8 F9]]]]]]]]]]]]]]]]].
    exists D, Q, N, S0, S1, S2, o, p0, p1, P0, P1, M, R, G.
    split; [exact E1|]. split; [exact E2|]. split; [exact E3|]. split; [exact E4|]. split; [exact EP|]. split; [exact F1|]. split; [exact F2|]. split; [exact F3|]. split; [exact F4|].
    split; [exact F5|]. split; [exact F6|]. split; [exact F7|]. split; [exact F8|]. unfold same_point in *. rewrite F9. exact DG.
  Qed.
End Case.
