(** A concrete server whose shares are not hidden. *)
From Coq Require Import ZArith Znumtheory Bool List Lia.
From Verif Require Import Outcome FieldModel ZpField SpecField FieldProofs ECGroup ECOrder CurveParams CurveFacts EccModel EccProofs SpecEcc EccThms Emb RF DmeModel SpecDme DmeProofs OtModel OtProofs SpecOt CrcModel AesModel OpprfModel SpecOpprf SpecOpprf6 OpprfProofs OpprfCase OpprfCase2 OpprfCase5 SpecCount CountMath SpecDdh SpecDdh2 SpecDdh3 SpecDdh4 DdhProofs DdhProofs3 DdhCases DdhMany2 DdhHear5 SpecCheat CheatProofs CheatProofs2 CheatCase SpecIdeal IdealProofs IdealProofs2 IdealCase SpecClient SpecClient2 ClientProofs5 ClientProofs6 ClientCase ClientCase2 Prop_Aes.
Import ListNotations.
Open Scope Z_scope.

Section Case.
  Variables (dbg : bool) (live : Z -> bool).
  Lemma case124 c c2 : live c = true -> live c2 = true ->
    exists D P Q G T0 S f, dme_new_random dbg live c 1 2 3 4 = Ok D /\ getRandomPoint dbg live CV (Some c) 3 = Ok P /\ getRandomPoint dbg live CV (Some c) 4 = Ok Q /\
      getRandomPoint dbg live CV (Some c) 3 = Ok G /\ server_new dbg live c2 9 (dcrs D) 1 = Ok T0 /\ setSecret dbg live T0 G = Ok (S, set_curve G (Some c2)) /\
      revealed dbg live (ots S) (mkpk P Q) 1 /\
      (exists S1 S2 o, prepareKeysAndInputs dbg live small iv0 S (with_pair case_prep 0 5 1) = Ok S1 /\
        runOTRound dbg live S1 5 (mkpk P Q) case_quad case_quad case_quad case_quad 16 33 = Ok (S2, o) /\ f 5 (reply_of o) = den CV G) /\
      (exists S1 S2 o, prepareKeysAndInputs dbg live small iv0 S (with_pair case_prep 1 5 0) = Ok S1 /\
        runOTRound dbg live S1 5 (mkpk P Q) case_quad case_quad case_quad case_quad 16 33 = Ok (S2, o) /\ f 5 (reply_of o) = den CV G) /\
      exists S1 S2 o, prepareKeysAndInputs dbg live small iv0 S (with_pair case_prep 1 5 1) = Ok S1 /\
        runOTRound dbg live S1 5 (mkpk P Q) case_quad case_quad case_quad case_quad 16 33 = Ok (S2, o) /\ f 5 (reply_of o) <> den CV G.
  Proof.
    intros LC LC2. destruct (random_world dbg live c c2 1 2 3 4 LC LC2 ltac:(lia) ltac:(lia) ltac:(lia) ltac:(lia)) as [D [G [T0 [S [ED [FI [HD [EG [E0 [E1 [SR [TH [DM DG]]]]]]]]]]]]].
    rewrite <- DM in HD. destruct (randP_m dbg live c 3 LC) as [P [EP MP]]. destruct (randP_m dbg live c 4 LC) as [Q [EQ MQ]].
    pose proof (proj1 (multiple_rf live _ _) MP) as HP. pose proof (proj1 (multiple_rf live _ _) MQ) as HQ.
    assert (HX : DdhMany2.like live (pg (mkpk P Q)) 3) by (left; exact HP). assert (HY : DdhMany2.like live (ph (mkpk P Q)) 4) by (left; exact HQ).
    assert (R1 : revealed dbg live (ots S) (mkpk P Q) 1) by (apply (revealed_if dbg live _ c2 _ _ _ _ _ _ _ 1 1 HD HX HY (or_intror eq_refl)); exists 0; reflexivity).
    assert (VK : pk_valid live (mkpk P Q)) by (split; [exact (proj1 MP)|exact (proj1 MQ)]).
    destruct (L_C124_guess dbg live (ots S) (mkpk P Q) (sr_ots _ _ _ SR) VK R1) as [f H].
    exists D, P, Q, G, T0, S, f. split; [exact ED|]. split; [exact EP|]. split; [exact EQ|]. split; [exact EG|]. split; [exact E0|]. split; [exact E1|]. split; [exact R1|]. rewrite <- DG.
    assert (X : forall x o, exists S1 S2 y, prepareKeysAndInputs dbg live small iv0 S (with_pair case_prep x 5 o) = Ok S1 /\
      runOTRound dbg live S1 5 (mkpk P Q) case_quad case_quad case_quad case_quad 16 33 = Ok (S2, y) /\ (f 5 (reply_of y) = den CV (ga S) <-> (order | x * o))).
    { intros x o. destruct (H small iv0 S 3 (with_pair case_prep x 5 o) 5 case_quad case_quad case_quad case_quad 16 33 case_aes SR eq_refl (case_keys case_draws eq_refl) ltac:(lia)) as [Y _]. exact Y. }
    split; [|split].
    - destruct (X 0 1) as [S1 [S2 [y [A [B Y]]]]]. exists S1, S2, y. split; [exact A|]. split; [exact B|]. apply (proj2 Y). exists 0. reflexivity.
    - destruct (X 1 0) as [S1 [S2 [y [A [B Y]]]]]. exists S1, S2, y. split; [exact A|]. split; [exact B|]. apply (proj2 Y). exists 0. reflexivity.
    - destruct (X 1 1) as [S1 [S2 [y [A [B Y]]]]]. exists S1, S2, y. split; [exact A|]. split; [exact B|]. intros Z. apply (proj1 Y) in Z. exact (order_one Z).
  Qed.
End Case.
