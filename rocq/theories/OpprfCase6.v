(** Concrete histories of one server of the oblivious PRF: threshold 9, secret 3*G. *)
From Coq Require Import ZArith Znumtheory Bool List Lia.
From Verif Require Import Outcome FieldModel ZpField SpecField FieldProofs ECGroup ECOrder CurveParams CurveFacts EccModel EccProofs SpecEcc EccThms Emb RF.
From Verif Require Import DmeModel SpecDme DmeProofs DmeProofs2 OtModel SpecOt OtProofs OtProofs2 CrcModel SpecCrc AesModel SpecAes AesProofs Prop_Aes.
From Verif Require Import OpprfModel SpecOpprf SpecOpprf6 OpprfProofs OpprfProofs2 OpprfProofs3 OpprfProofs4 OpprfProofs13 OpprfProofs14 OpprfProofs15 OpprfCase.
Import ListNotations.
Open Scope Z_scope.

(** a preparation whose keys are useless and whose points are those of case_prep *)
Definition no_keys : prep_draws := mkpd 17 1 (fun _ => 0) (fun _ => 0) (fun _ => 0) (fun _ => 99).

Lemma visible_1 : visible small 1.
Proof.
  unfold visible. change (gmul CV 1 (ggen CV)) with (ggen CV). unfold ggen.
  assert (V : val (c_prime CV) (ZpField.mk (c_prime CV) (c_gx CV)) = c_gx CV) by (apply Z.mod_small; vm_compute; split; [discriminate|reflexivity]).
  cbv zeta. rewrite V. split; [vm_compute; discriminate|]. intros m [-> | ->]; vm_compute; discriminate.
Qed.

Lemma made_tops dbg live c th k d N Q S P : server_new dbg live c th k d = Ok N -> setSecret dbg live N Q = Ok (S, P) ->
  Sl0 S = inputl_default /\ Sl1 S = inputl_default.
Proof.
  intros A B. unfold server_new in A. apply bind_Ok in A. destruct A as [g [_ A]]. apply Ok_inj in A.
  unfold setSecret in B. apply bind_Ok in B. destruct B as [v [_ B]]. apply bind_Ok in B. destruct B as [w [_ B]]. apply Ok_inj in B.
  assert (E : S = fst (S, P)) by reflexivity. rewrite <- B in E. rewrite E, <- A. split; reflexivity.
Qed.

Lemma case_keys_ok s j : 2 ^ 120 <= level_key case_prep s j < 2 ^ 128.
Proof. destruct s; vm_compute; (split; [discriminate|reflexivity]). Qed.

Definition many (pk : pkey) : list event :=
  [EPrepare case_prep; EServe 16 pk case_quad case_quad case_quad case_quad 1 2; EServe 0 pk case_quad case_quad case_quad case_quad 0 0;
   EPrepare no_keys; EMasks 1 2 3; EServe 7 pk case_quad case_quad case_quad case_quad 1 2; ECleanServer 5; EServe 16 pk case_quad case_quad case_quad case_quad 4 4;
   EPrepare case_prep; EPrepare no_keys; EMasks 1 0 0].
Lemma many_proper live pk : pk_valid live pk -> proper_history small live None (many pk).
Proof.
  intros V. assert (R : forall r, r = 16 \/ r = 0 \/ r = 7 -> 0 <= r <= 16 /\ pk_valid live pk) by (intros r H; split; [lia|exact V]).
  assert (K : forall s j, (j < 16)%nat -> 2 ^ 120 <= level_key case_prep s j < 2 ^ 128) by (intros s j _; apply case_keys_ok).
  assert (M : mask_of_prep (keep_keys case_prep no_keys) = 1) by reflexivity.
  unfold many. cbn [proper_history effect proper].
  split; [intros _; exact K|]. split; [apply R; tauto|]. split; [apply R; tauto|]. split; [discriminate|].
  split; [eexists; split; [reflexivity|]; rewrite M; split; exact visible_1|]. split; [apply R; tauto|]. split; [exact I|]. split; [apply R; tauto|].
  split; [intros _; exact K|]. split; [discriminate|].
  split; [eexists; split; [reflexivity|]; rewrite M; split; exact visible_1|exact I].
Qed.

Definition on_server (v : event) : bool := match v with EPrepare _ | EServe _ _ _ _ _ _ _ _ | EMasks _ _ _ | ECleanServer _ => true | _ => false end.
Lemma server_calls dbg live e iv l : forallb on_server l = true -> forall S C S' C', history dbg live e iv l (S, C) = Ok (S', C') -> C' = C.
Proof.
  unfold history. induction l as [|v l IH]; intros F S C S' C' H; cbn [foldM forallb] in *.
  - apply Ok_inj in H. exact (f_equal snd (eq_sym H)).
  - apply andb_prop in F. destruct F as [F1 F2]. apply bind_Ok in H. destruct H as [[S1 C1] [H1 H]]. rewrite (IH F2 _ _ _ _ H). clear H.
    destruct v; try discriminate F1; cbn [happens] in H1; apply bind_Ok in H1; destruct H1 as [w [_ H1]]; apply Ok_inj in H1; exact (f_equal snd (eq_sym H1)).
Qed.

Lemma case_shares dbg live S0 C0 S C : fresh_server S0 -> server_ready live S0 3 ->
  history dbg live small iv0 [EPrepare case_prep; ECleanServer 5] (S0, C0) = Ok (S, C) ->
  multiple live (share S 16 0) 1 /\ multiple live (share S 16 1) (2 ^ 15 * 3 + 1).
Proof.
  intros F SR E. unfold history in E. cbn [foldM happens] in E. apply bind_Ok in E. destruct E as [[S1 C1] [E1 E]].
  apply bind_Ok in E1. destruct E1 as [T [E1 E1']]. apply Ok_inj in E1'. pose proof (f_equal fst E1') as X. cbn [fst] in X. subst T. clear E1'.
  apply bind_Ok in E. destruct E as [[S2 C2] [E2 E]]. apply Ok_inj in E. pose proof (f_equal fst E) as X. cbn [fst] in X. subst S2. clear E.
  apply bind_Ok in E2. destruct E2 as [T [E2 E2']]. apply Ok_inj in E2'. pose proof (f_equal fst E2') as X. cbn [fst] in X. subst T. clear E2'.
  destruct (prepare_ok dbg live small iv0 S0 case_prep 3 case_aes SR) as [T [ET [_ [[_ T0] [[_ T1] _]]]]]; [intros s j _; apply case_keys_ok|].
  rewrite E1 in ET. apply Ok_inj in ET. subst T. unfold server_clean in E2. apply bind_Ok in E2. destruct E2 as [g [_ E2]]. apply Ok_inj in E2. subst S.
  split; [exact T0|exact T1].
Qed.

Lemma case_not_opposite live P j w : multiple live P j -> multiple live P w -> 0 < j < 2 ^ 100 -> ~ (order | 1 + w).
Proof.
  intros A B J X. apply (order_big (1 + j)); [split; [lia|apply Z.lt_trans with (2 ^ 100 + 1); [lia|reflexivity]]|].
  replace (1 + j) with ((1 + w) - (w - j)) by ring. apply Z.divide_sub_r; [exact X|exact (logs_agree live P w j B A)].
Qed.

Lemma case_all_one dbg live c0 c2 D : live c0 = true -> live c2 = true -> dme_new dbg live c0 dec 1 1 1 0 = Ok D ->
  all_one live (dcrs (rdme (otr (client_new c2 (dcrs D))))).
Proof.
  intros L0 L2 E. destruct (L_C26_logs dbg live c0 dec 1 1 1 0 L0) as [D' [ED [OK [A [B [A' B']]]]]]. rewrite E in ED. apply Ok_inj in ED. subst D'.
  change (1 * 1) with 1 in B, A'. change (1 * (1 * 1)) with 1 in B'.
  assert (N1 : ~ (order | 1)) by (apply order_big; split; [lia|reflexivity]).
  assert (FI : crs_finite (dcrs D)).
  { split; [exact (mult_finite live _ _ A N1)|]. split; [exact (mult_finite live _ _ B N1)|].
    split; [exact (mult_finite live _ _ A' N1)|exact (mult_finite live _ _ B' N1)]. }
  destruct (L_ready_client live c2 (dcrs D) 5 L2 FI ltac:(split; [lia|reflexivity])) as [CR [[T1 [T2 [T3 T4]]] _]].
  pose proof (cr_otr _ _ _ CR) as [_ [V1 [V2 [V3 V4]]]].
  intros b. unfold crs_g, crs_h. destruct (b =? 0); (split; (split; [assumption|])).
  - exact (eq_trans T1 (proj2 A)).
  - exact (eq_trans T3 (proj2 A')).
  - exact (eq_trans T2 (proj2 B)).
  - exact (eq_trans T4 (proj2 B')).
Qed.
