(** Three transfers with one key: the message of one branch is hidden, that of the other is not. *)
From Coq Require Import ZArith Znumtheory Bool List Lia.
From Verif Require Import Outcome FieldModel ZpField SpecField FieldProofs ECGroup ECOrder CurveParams CurveFacts EccModel EccProofs SpecEcc EccThms Emb RF DmeModel SpecDme DmeProofs OtModel OtProofs SpecCount CountMath SpecDdh SpecDdh2 SpecDdh3 SpecDdh4 DdhProofs DdhProofs3 DdhCases DdhMany DdhMany2 DdhHear5 OpprfProofs OpprfProofs5 OpprfProofs8 OpprfCase SpecCheat CheatProofs CheatProofs2 CheatCase SpecIdeal IdealProofs ComposeProofs.
Import ListNotations.
Open Scope Z_scope.

Section Case.
  Variables (dbg : bool) (live : Z -> bool).
  Notation sender c2 D := (otsndr_new (dme_new_crs c2 (dcrs D))).
  Lemma like_ok X c a0 a1 b0 b1 : dlike live X c a0 a1 b0 b1 -> (forall z, In z [a0; a1; b0; b1] -> 0 < z < 100) -> dme_ok live X.
  Proof.
    intros [E L A B A' B'] N. split; [exists c; split; [exact E|exact L]|].
    assert (V : forall P z, In z [a0; a1; b0; b1] -> DdhMany2.like live P z -> is_valid live P).
    { intros P z I [H|[_ H]]; [exact (rf_val live P _ H)|]. specialize (N z I). apply draw_order in H; [lia|apply small_draw; lia]. }
    split; [exact (V _ a0 ltac:(cbn [In]; tauto) A)|]. split; [exact (V _ a1 ltac:(cbn [In]; tauto) B)|]. split; [exact (V _ b0 ltac:(cbn [In]; tauto) A')|exact (V _ b1 ltac:(cbn [In]; tauto) B')].
  Qed.
  Lemma case123 c c2 : live c = true -> live c2 = true ->
    exists D P Q, dme_new_random dbg live c 1 2 3 4 = Ok D /\ getRandomPoint dbg live CV (Some c) 7 = Ok P /\ getRandomPoint dbg live CV (Some c) 14 = Ok Q /\
      let run := fun mm ds => transfers dbg live (sender c2 D) (fun _ => mkpk P Q) (fun _ => mm) ds [] in
      (forall A, exists N, counted (run (P, Q)) 3 A N /\ counted (run (P, P)) 3 A N) /\
      exists A, counted (run (P, Q)) 3 A (order ^ 12) /\ counted (run (Q, Q)) 3 A 0.
  Proof.
    intros LC LC2. destruct (case117 dbg live c c2 LC LC2) as [D [D' [P [Q [ED [_ [EP [EQ [SK [_ [R0 [H1 _]]]]]]]]]]]].
    destruct (string_like dbg live c c2 LC LC2 1 2 3 4) as [D0 [ED0 HD]]. rewrite ED in ED0. apply Ok_inj in ED0. subst D0.
    assert (OK : dme_ok live (dme_new_crs c2 (dcrs D))) by (apply (like_ok _ _ _ _ _ _ HD); cbn [In]; intros z [<-|[<-|[<-|[<-|[]]]]]; lia). pose proof (proj1 SK) as [VP VQ]. cbn [pg ph] in VP, VQ.
    exists D, P, Q. split; [exact ED|]. split; [exact EP|]. split; [exact EQ|]. cbv zeta. split.
    - intros A. apply (L_C123_hidden dbg live (sender c2 D) (fun _ => mkpk P Q) (fun _ => (P, Q)) (fun _ => (P, P)) A 3 OK (fun _ => proj1 SK)); [intros _; split; assumption|intros _; split; assumption|].
      intros _ b [-> | ->]; [right; reflexivity|left; exact H1].
    - apply (L_C123_revealed dbg live (sender c2 D) (fun _ => mkpk P Q) (fun _ => (P, Q)) (fun _ => (Q, Q)) 0 3 OK (fun _ => proj1 SK)); [intros _; split; assumption|intros _; split; assumption|left; reflexivity|exact R0| |lia].
      cbn [message_of Z.eqb fst snd]. unfold same_point. intros X. destruct (randP_m dbg live c 7 LC) as [P' [EP' MP]]. destruct (randP_m dbg live c 14 LC) as [Q' [EQ' MQ]].
      rewrite EP in EP'. apply Ok_inj in EP'. subst P'. rewrite EQ in EQ'. apply Ok_inj in EQ'. subst Q'. rewrite (proj2 MP), (proj2 MQ) in X.
      assert (Y : (order | 14 - 7)) by (apply pow_eq; symmetry; exact X). apply draw_order in Y; [lia|apply small_draw; lia].
  Qed.
End Case.
