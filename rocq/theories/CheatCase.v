(** Concrete strings, keys and an evaluation with one cheated round. *)
From Coq Require Import ZArith Znumtheory Bool List Lia.
From Verif Require Import Outcome FieldModel ZpField SpecField FieldProofs ECGroup ECOrder CurveParams CurveFacts EccModel EccProofs SpecEcc EccThms Emb RF DmeModel SpecDme DmeProofs OtModel OtProofs SpecCount CountMath SpecDdh SpecDdh3 SpecDdh4 DdhProofs DdhCases DdhMany2 DdhHear5 SpecCheat CheatProofs CheatProofs2 CheatProofs3.
From Verif Require Import CrcModel SpecCrc AesModel SpecAes OpprfModel SpecOpprf SpecOpprf6 OpprfProofs OpprfCase Prop_Aes.
Import ListNotations.
Open Scope Z_scope.

Lemma small_draw k : 0 <= k < 100 -> draw k.
Proof. intros H. unfold draw. assert (100 < order) by (vm_compute; reflexivity). lia. Qed.
Lemma cond_1234 : ~ cond 1 2 3 4.
Proof.
  intros C. apply (proj1 (cond_is (fun _ => true) 1 2 3 4 (small_draw 1 ltac:(lia)) (small_draw 2 ltac:(lia)) (small_draw 3 ltac:(lia)) (small_draw 4 ltac:(lia)))) in C. destruct C as [_ [k [K [E3 E4]]]]. assert (100 < order) by (vm_compute; reflexivity).
  rewrite Z.mul_1_r, Z.mod_small in E3 by lia. subst k. rewrite Z.mod_small in E4 by lia. lia.
Qed.
Lemma cond_1224 : cond 1 2 2 4.
Proof. exists 2, 1. split; [|split; exists 0; reflexivity]. intros [X _]. apply draw_order in X; [lia|apply small_draw; lia]. Qed.

Section Case.
  Variables (dbg : bool) (live : Z -> bool).
  Notation sender c2 D := (otsndr_new (dme_new_crs c2 (dcrs D))).
  (** a key that is good for branch 0 of the one string, and for both branches of the other *)
  Lemma case117 c c2 : live c = true -> live c2 = true ->
    exists D D' P Q, dme_new_random dbg live c 1 2 3 4 = Ok D /\ dme_new_random dbg live c 1 2 2 4 = Ok D' /\
      getRandomPoint dbg live CV (Some c) 7 = Ok P /\ getRandomPoint dbg live CV (Some c) 14 = Ok Q /\ some_key live (mkpk P Q) /\
      ~ double_string dbg live (sender c2 D) /\ revealed dbg live (sender c2 D) (mkpk P Q) 0 /\ hidden dbg live (sender c2 D) (mkpk P Q) 1 /\
      double_string dbg live (sender c2 D') /\ revealed dbg live (sender c2 D') (mkpk P Q) 0 /\ revealed dbg live (sender c2 D') (mkpk P Q) 1.
  Proof.
    intros LC LC2. destruct (string_like dbg live c c2 LC LC2 1 2 3 4) as [D [ED HD]]. destruct (string_like dbg live c c2 LC LC2 1 2 2 4) as [D' [ED' HD']].
    destruct (randP_m dbg live c 7 LC) as [P [EP MP]]. destruct (randP_m dbg live c 14 LC) as [Q [EQ MQ]].
    pose proof (proj1 (multiple_rf live _ _) MP) as HP. pose proof (proj1 (multiple_rf live _ _) MQ) as HQ.
    assert (HX : DdhMany2.like live (pg (mkpk P Q)) 7) by (left; exact HP). assert (HY : DdhMany2.like live (ph (mkpk P Q)) 14) by (left; exact HQ).
    assert (SK : some_key live (mkpk P Q)).
    { split; [split; [exact (proj1 MP)|exact (proj1 MQ)]|]. apply (some_like live _ _ _ HX HY). intros [X _]. apply draw_order in X; [lia|apply small_draw; lia]. }
    assert (ND : ~ double_string dbg live (sender c2 D)) by (intros X; apply (double_cond dbg live _ c2 _ _ _ _ HD) in X; exact (cond_1234 X)).
    assert (R0 : revealed dbg live (sender c2 D) (mkpk P Q) 0) by (apply (revealed_if dbg live _ c2 _ _ _ _ _ _ _ 0 7 HD HX HY (or_introl eq_refl)); exists 0; reflexivity).
    exists D, D', P, Q. split; [exact ED|]. split; [exact ED'|]. split; [exact EP|]. split; [exact EQ|]. split; [exact SK|]. split; [exact ND|]. split; [exact R0|]. split.
    - destruct (L_C117_one dbg live c c2 LC LC2 1 2 3 4 D (mkpk P Q) ED ND SK) as [H|H]; [|exact H]. destruct (not_both dbg live _ _ _ c LC (conj H R0)).
    - split; [apply (double_cond dbg live _ c2 _ _ _ _ HD'), cond_1224|]. split.
      + apply (revealed_if dbg live _ c2 _ _ _ _ _ _ _ 0 7 HD' HX HY (or_introl eq_refl)); exists 0; reflexivity.
      + apply (revealed_if dbg live _ c2 _ _ _ _ _ _ _ 1 (7 * ((order + 1) / 2)) HD' HX HY (or_intror eq_refl)); cbn [at_branch Z.eqb Pos.eqb].
        * exists (-7). assert (H : (order + 1) / 2 * 2 = order + 1) by (vm_compute; reflexivity). rewrite <- Z.mul_assoc, H. ring.
        * exists (-14). assert (H : (order + 1) / 2 * 2 = order + 1) by (vm_compute; reflexivity). replace (7 * ((order + 1) / 2) * 4) with (14 * ((order + 1) / 2 * 2)) by ring. rewrite H. ring.
  Qed.

  (** threshold 9, input 5; the value at 60000 comes out *)
  Lemma case117_session c0 c1 c2 : live c0 = true -> live c1 = true -> live c2 = true ->
    exists D Q N S0 S1 S2 k0 k1 p0 p1 M Q' G S3 C3 ms C4 T V, dme_new dbg live c0 dec 1 1 1 0 = Ok D /\ getRandomPoint dbg live CV (Some c0) 3 = Ok Q /\
      server_new dbg live c1 9 (dcrs D) 1 = Ok N /\ setSecret dbg live N Q = Ok (S0, set_curve Q (Some c1)) /\ theta S0 = 9 /\
      prepareKeysAndInputs dbg live small iv0 S0 case_prep = Ok S1 /\
      runOTRound dbg live S1 16 pkey_default case_quad case_quad case_quad case_quad 16 33 = Ok (S2, mkoc [[k0; k1]; []; []] [p0; p1]) /\
      pmulz dbg live CV (cmv p0) (-1) = Ok M /\ padd dbg live CV (cmv p1) M = Ok Q' /\ pmulz dbg live CV Q' (halve 15) = Ok G /\
      foldM (one_round dbg live small iv0) (map (fun r => (r, sd_round case_draws r)) (tl rounds))
        (S2, mkcli (otr (client_new c2 (dcrs D))) (Some c2) (Some 5) (cmv p0) (decode (cmv k0))) = Ok (S3, C3) /\
      sendEncryptedMasks dbg live small iv0 S3 1 4 2 = Ok ms /\ unmaskResult dbg live small iv0 C3 ms 1 = Ok C4 /\
      pmulz dbg live CV G (60000 - 5) = Ok T /\ padd dbg live CV (result C4) T = Ok V /\
      den CV V = gadd CV (den CV (kopprf S3)) (gmul CV 60000 (den CV Q)).
  Proof.
    intros L0 L1 L2. destruct (case_setup dbg live c0 c1 c2 L0 L1 L2) as [D [Q [N [S0 [E1 [E2 [E3 [E4 [SR [TH [FS [DG H]]]]]]]]]]]].
    destruct (H 5 (or_introl eq_refl)) as [CR [SC [_ GD]]].
    destruct (L_C117_session dbg live small iv0 S0 _ case_draws 3 5 pkey_default case_aes SR CR SC GD ltac:(lia) eq_refl eq_refl)
      as [S1 [S2 [k0 [k1 [p0 [p1 [M [Q' [G [F1 [F2 [F3 [F4 [F5 [S3 [C3 [ms [C4 [F6 [F7 [F8 F9]]]]]]]]]]]]]]]]]]]]].
    destruct (F9 60000) as [T [V [F10 [F11 [_ F12]]]]]. rewrite DG in F12.
    exists D, Q, N, S0, S1, S2, k0, k1, p0, p1, M, Q', G, S3, C3, ms, C4, T, V.
    split; [exact E1|]. split; [exact E2|]. split; [exact E3|]. split; [exact E4|]. split; [exact TH|]. split; [exact F1|]. split; [exact F2|]. split; [exact F3|]. split; [exact F4|].
    split; [exact F5|]. split; [exact F6|]. split; [exact F7|]. split; [exact F8|]. split; [exact F10|]. split; [exact F11|exact F12].
  Qed.
End Case.
