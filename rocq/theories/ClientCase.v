(** A concrete client that sends keys of both branches in two evaluations. *)
From Coq Require Import ZArith Znumtheory Bool List Lia.
From Verif Require Import Outcome FieldModel ZpField SpecField FieldProofs ECGroup ECOrder CurveParams CurveFacts EccModel EccProofs SpecEcc EccThms Emb RF DmeModel SpecDme DmeProofs OtModel OtProofs SpecOt CrcModel AesModel OpprfModel SpecOpprf SpecOpprf6 OpprfProofs OpprfProofs3 OpprfProofs4 OpprfProofs5 OpprfProofs8 OpprfCase OpprfCase2 OpprfCase5 SpecCount CountMath SpecDdh SpecDdh2 SpecDdh3 SpecDdh4 DdhProofs DdhCases DdhMany2 DdhHear5 SpecCheat CheatProofs CheatProofs2 CheatCase SpecIdeal IdealProofs IdealProofs2 IdealCase SpecClient ClientMath ClientProofs ClientProofs2 ClientProofs3 ClientProofs4 Prop_Aes.
Import ListNotations.
Open Scope Z_scope.

(** keys in turns, and draws of 1 with the PRF key 17 *)
Definition changing (k k' : pkey) (H : list sight) (h : list reply) : pkey := if Nat.even (length h) then k else k'.
Definition ones : fourth := (1, 1, 1, 1).
Definition all_ones : list nonces * Z := (repeat (1, (ones, ones, ones, ones)) 16, 17).

Lemma ones_fit : fits all_ones.
Proof.
  split; [reflexivity|]. split; [|apply small_draw; cbn [all_ones snd]; lia]. cbn [all_ones fst]. apply Forall_forall. intros w I. apply repeat_spec in I. subst w.
  assert (F : four ones) by (repeat split; apply small_draw; lia). split; [apply small_draw; lia|]. split; [exact F|]. split; [exact F|]. split; [exact F|exact F].
Qed.

Section Case.
  Variables (dbg : bool) (live : Z -> bool).
  Lemma case_masks_at c B X th a : stands live X th a B -> dcurve X = Some c -> live c = true -> exists ms, masks_at dbg live small iv0 B case_draws 1 = Ok ms.
  Proof.
    intros HB Ec L. destruct (prepared_from dbg live small iv0 X th case_aes a B case_prep HB (case_keys case_draws eq_refl)) as [T [ET [BT _]]].
    destruct (masks_ok dbg live small iv0 B T case_draws a (5 ?= 9) (proj1 HB) (case_masks dbg live c X case_draws 5 Ec L ltac:(lia) eq_refl eq_refl) BT 4 2) as [f [EF _]].
    exists (shuffle3 [f Lt; f Eq; f Gt] 4 2). rewrite <- EF. symmetry. 
    apply (masks_ok' dbg live small iv0 X th case_aes a a B B T case_prep case_draws 1 HB HB (case_keys case_draws eq_refl) BT (fun _ _ => eq_refl)). exists 0. reflexivity.
  Qed.
  Lemma case_runs c B B' X th a K : stands live X th a B -> dcurve X = Some c -> live c = true -> exists H, runs dbg live small iv0 B' B K (fun _ => (case_draws, 1)) [all_ones; all_ones] [] = Ok H.
  Proof.
    intros HB Ec L. destruct (case_masks_at c B X th a HB Ec L) as [ms EM]. cbn [runs]. cbv zeta. cbn [fst].
    change (snd all_ones - d_r (sd_prep case_draws) * (0 + tot fst (fst all_ones))) with 1. rewrite EM. cbn [bind]. eexists. reflexivity.
  Qed.
  Lemma some_way run n A N l H : convinced run n A N -> length l = n -> Forall fits l -> run l = Ok H -> A H = true -> 0 < N.
  Proof.
    intros [L [_ [IN EN]]] LN F ER AH. assert (I : In l L) by (apply IN; split; [exact LN|]; split; [exact F|]; exists H; split; assumption). destruct L as [|x L]; [destruct I|]. cbn [length] in EN. lia.
  Qed.
  Lemma case121 c c2 : live c = true -> live c2 = true ->
    exists D P Q R G G' T0 S T0' S' H N, dme_new dbg live c messy 2 3 1 2 = Ok D /\
      getRandomPoint dbg live CV (Some c) 7 = Ok P /\ getRandomPoint dbg live CV (Some c) 14 = Ok Q /\ getRandomPoint dbg live CV (Some c) 21 = Ok R /\
      getRandomPoint dbg live CV (Some c) 3 = Ok G /\ getRandomPoint dbg live CV (Some c) 7 = Ok G' /\
      server_new dbg live c2 9 (dcrs D) 1 = Ok T0 /\ setSecret dbg live T0 G = Ok (S, set_curve G (Some c2)) /\
      server_new dbg live c2 9 (dcrs D) 1 = Ok T0' /\ setSecret dbg live T0' G' = Ok (S', set_curve G' (Some c2)) /\
      let K := changing (mkpk P Q) (mkpk P R) in let E := fun _ => (case_draws, 1) in let A := fun H : list sight => (length H =? 2)%nat in
      fits all_ones /\ evaluations dbg live small iv0 S K E [all_ones; all_ones] [] = Ok H /\ length H = 2%nat /\ 0 < N /\
      convinced (fun l => evaluations dbg live small iv0 S K E l []) 2 A N /\ convinced (fun l => evaluations dbg live small iv0 S' K E l []) 2 A N.
  Proof.
    intros LC LC2. destruct (new_messy_rf dbg live c 2 3 1 2 LC) as [D [ED [_ [_ KD]]]]. rewrite !mk_mul in KD. change (3 * 2) with 6 in KD; change (2 * 1) with 2 in KD.
    assert (NZ : forall z, 0 < z <= 6 -> ZpField.mk (fieldn CV) z <> f0 (fieldn CV)) by (intros z Z; apply small_nz; lia).
    assert (FI : crs_finite (dcrs D)).
    { destruct KD as [_ _ A B A' B'].
      split; [refine (fin_any live _ _ A _)|split; [refine (fin_any live _ _ B _)|split; [refine (fin_any live _ _ A' _)|refine (fin_any live _ _ B' _)]]]; apply NZ; lia. }
    destruct (points_key dbg live c 7 14 LC ltac:(lia)) as [P [Q [EP [EQ [_ [_ SQ]]]]]]. destruct (points_key dbg live c 7 21 LC ltac:(lia)) as [P' [R [EP' [ER [_ [_ SRk]]]]]].
    rewrite EP in EP'. apply Ok_inj in EP'. subst P'.
    destruct (case_world dbg live c c2 D LC LC2 FI) as [G [T0 [S [EG [E0 [E1 [SR [TH [SC DG]]]]]]]]].
    assert (N7 : ~ (order | 7)) by (apply order_big; lia). destruct (randP_m dbg live c 7 LC) as [G' [EG' MG']].
    destruct (L_ready_server dbg live c2 9 (dcrs D) G' 7 1 LC2 FI ltac:(lia) MG' N7) as [T0' [S' [E0' [E1' [SR' [TT' [SC' [_ _]]]]]]]].
    pose proof (made_dme _ _ _ _ _ _ _ _ _ _ E0 E1) as DM. pose proof (made_dme _ _ _ _ _ _ _ _ _ _ E0' E1') as DM'.
    assert (N12 : ~ (order | 2 - 3)) by (intros X; apply order_one; apply Z.divide_opp_r; exact X).
    assert (HK : forall H h, some_key live (changing (mkpk P Q) (mkpk P R) H h)) by (intros H h; unfold changing; destruct (Nat.even (length h)); assumption).
    assert (NR : forall H : list sight, ~ (order | d_r (sd_prep (fst (case_draws, 1))))) by (intros _; exact order_one).
    destruct (L_C121_secret dbg live small iv0 c c2 2 3 1 2 D S S' 3 7 (changing (mkpk P Q) (mkpk P R)) (fun _ => (case_draws, 1)) (fun H => (length H =? 2)%nat) 2 LC LC2 ED N12 case_aes SR SR' DM DM'
      ltac:(rewrite TH; exact TT') HK (fun _ => case_keys case_draws eq_refl) NR) as [N [C1 C2]].
    assert (HS : stands live (dme_new_crs c2 (dcrs D)) (theta S) 3 S) by (split; [exact SR|split; [exact DM|reflexivity]]).
    assert (KN : forall H h, knows live (dme_new_crs c2 (dcrs D)) (changing (mkpk P Q) (mkpk P R) H h)) by (intros H h; destruct (found dbg live c c2 2 3 1 2 D _ LC LC2 ED N12 (HK H h)) as [b [_ X]]; exists b; exact X).
    destruct (case_runs c2 S S _ _ 3 (changing (mkpk P Q) (mkpk P R)) HS eq_refl LC2) as [H EH].
    assert (FF : Forall fits [all_ones; all_ones]) by (constructor; [exact ones_fit|constructor; [exact ones_fit|constructor]]).
    rewrite <- (evaluations_ok dbg live small iv0 _ _ case_aes 3 3 S S (changing (mkpk P Q) (mkpk P R)) (fun _ => (case_draws, 1)) HS HS (fun _ => case_keys case_draws eq_refl) KN _ S [] HS FF) in EH.
    assert (LH : length H = 2%nat).
    { revert EH. cbn [evaluations]. intros EH. apply bind_Ok in EH. destruct EH as [x [_ EH]]. apply bind_Ok in EH. destruct EH as [y [_ EH]]. apply Ok_inj in EH. subst H. reflexivity. }
    exists D, P, Q, R, G, G', T0, S, T0', S', H, N. split; [exact ED|]. split; [exact EP|]. split; [exact EQ|]. split; [exact ER|]. split; [exact EG|]. split; [exact EG'|].
    split; [exact E0|]. split; [exact E1|]. split; [exact E0'|]. split; [exact E1'|]. cbv zeta. split; [exact ones_fit|]. split; [exact EH|]. split; [exact LH|].
    split; [|split; [exact C1|exact C2]]. apply (some_way _ _ _ _ [all_ones; all_ones] H C1 eq_refl FF EH). rewrite LH. reflexivity.
  Qed.
End Case.
