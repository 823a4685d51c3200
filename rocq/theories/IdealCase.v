(** A concrete receiver that makes its second key after the first answer. *)
From Coq Require Import ZArith Znumtheory Bool List Lia.
From Verif Require Import Outcome FieldModel ZpField SpecField FieldProofs ECGroup ECOrder CurveParams CurveFacts EccModel EccProofs SpecEcc EccThms Emb RF DmeModel SpecDme DmeProofs OtModel OtProofs SpecCount CountMath SpecDdh SpecDdh2 SpecDdh3 SpecDdh4 DdhProofs DdhCases DdhMany2 DdhHear5 SpecCheat CheatProofs CheatProofs2 CheatCase SpecIdeal IdealProofs IdealProofs2.
From Verif Require Import OpprfProofs.
Import ListNotations.
Open Scope Z_scope.

Section Case.
  Variables (dbg : bool) (live : Z -> bool).
  Lemma points_key c x y : live c = true -> 0 < x < 100 -> exists P Q, getRandomPoint dbg live CV (Some c) x = Ok P /\ getRandomPoint dbg live CV (Some c) y = Ok Q /\
    rf live CV P (ZpField.mk (fieldn CV) x) /\ rf live CV Q (ZpField.mk (fieldn CV) y) /\ some_key live (mkpk P Q).
  Proof.
    intros LC X. destruct (randP_m dbg live c x LC) as [P [EP MP]]. destruct (randP_m dbg live c y LC) as [Q [EQ MQ]].
    pose proof (proj1 (multiple_rf live _ _) MP) as HP. pose proof (proj1 (multiple_rf live _ _) MQ) as HQ.
    exists P, Q. split; [exact EP|]. split; [exact EQ|]. split; [exact HP|]. split; [exact HQ|]. split; [split; [exact (proj1 MP)|exact (proj1 MQ)]|].
    apply (some_like live (mkpk P Q) x y (or_introl HP) (or_introl HQ)). intros [Z0 _]. apply draw_order in Z0; [lia|apply small_draw; lia].
  Qed.
  Definition by_turns (k k' : pkey) (h : seen) : pkey := match h with [] => k | _ => k' end.
  Lemma case119 c c2 : live c = true -> live c2 = true ->
    exists D P Q R N, dme_new dbg live c messy 2 3 1 1 = Ok D /\ ~ (order | 2 - 3) /\
      getRandomPoint dbg live CV (Some c) 7 = Ok P /\ getRandomPoint dbg live CV (Some c) 14 = Ok Q /\ getRandomPoint dbg live CV (Some c) 21 = Ok R /\
      FindMessy dbg live D (mkpk P Q) = Ok 1 /\ FindMessy dbg live D (mkpk P R) = Ok 0 /\
      (forall h, some_key live (by_turns (mkpk P Q) (mkpk P R) h)) /\ is_valid live P /\ is_valid live Q /\
      counted (fun ds => transfers dbg live (otsndr_new (dme_new_crs c2 (dcrs D))) (by_turns (mkpk P Q) (mkpk P R)) (fun _ => (P, Q)) ds []) 2 (fun h => (length h =? 2)%nat) N /\
      counted (fun ds => simulated dbg live D (otsndr_new (dme_new_crs c2 (dcrs D))) (by_turns (mkpk P Q) (mkpk P R)) (fun _ => (P, Q)) ds []) 2 (fun h => (length h =? 2)%nat) N.
  Proof.
    intros LC LC2. destruct (new_messy_rf dbg live c 2 3 1 1 LC) as [D [ED [T0 _]]].
    destruct (points_key c 7 14 LC ltac:(lia)) as [P [Q [EP [EQ [HP [HQ SQ]]]]]]. destruct (points_key c 7 21 LC ltac:(lia)) as [P' [R [EP' [ER [_ [HR SR]]]]]].
    rewrite EP in EP'. apply Ok_inj in EP'. subst P'.
    assert (N12 : ~ (order | 2 - 3)) by (intros X; apply order_one; apply Z.divide_opp_r; exact X).
    assert (F1 : FindMessy dbg live D (mkpk P Q) = Ok 1).
    { destruct (FindMessy_rf dbg live D _ (mkpk P Q) _ _ T0 HP HQ) as [b [E [[-> _]|[-> H]]]]; [exact E|]. destruct H. rewrite mk_mul. reflexivity. }
    assert (F0 : FindMessy dbg live D (mkpk P R) = Ok 0).
    { destruct (FindMessy_rf dbg live D _ (mkpk P R) _ _ T0 HP HR) as [b [E [[-> H]|[-> _]]]]; [|exact E]. exfalso. rewrite mk_mul in H. apply mk_order_eq in H.
      change (21 - 2 * 7) with 7 in H. apply draw_order in H; [lia|apply small_draw; lia]. }
    assert (HK : forall h, some_key live (by_turns (mkpk P Q) (mkpk P R) h)) by (intros [|? ?]; assumption).
    assert (VP : is_valid live P) by (exact (proj1 (proj1 SQ))). assert (VQ : is_valid live Q) by (exact (proj2 (proj1 SQ))).
    destruct (L_C119_ideal dbg live c c2 2 3 1 1 D (by_turns (mkpk P Q) (mkpk P R)) (fun _ => (P, Q)) (fun h => (length h =? 2)%nat) 2 LC LC2 ED N12 HK (fun _ => conj VP VQ)) as [N [C1 C2]].
    exists D, P, Q, R, N. split; [exact ED|]. split; [exact N12|]. split; [exact EP|]. split; [exact EQ|]. split; [exact ER|]. split; [exact F1|]. split; [exact F0|]. split; [exact HK|].
    split; [exact VP|]. split; [exact VQ|]. split; [exact C1|exact C2].
  Qed.
End Case.
