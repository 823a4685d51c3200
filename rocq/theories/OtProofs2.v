(** Proofs about the creator of the common reference string of an oblivious transfer. *)
From Coq Require Import ZArith Znumtheory Bool List Lia Field.
From Verif Require Import Outcome FieldModel ZpField SpecField FieldProofs ECGroup ECOrder CurveParams CurveFacts EccModel EccProofs SpecEcc EccThms Emb RF DmeModel SpecDme DmeProofs DmeProofs2 OtModel SpecOt OtProofs.
Import ListNotations.
Open Scope Z_scope.

Section Ot2.
  Variables (dbg : bool) (live : Z -> bool).
  Notation n := (fieldn CV).
  Let Hn : prime n := prime_n CV good_CV.
  Let HF := field_Fp n Hn.
  Add Field OtField2 : HF.
  Notation F := (Fp n).
  Notation rf := (rf live CV).
  Notation em := (em n).
  Notation mk := (mk n).
  Notation drf := (drf live).
  Notation val_rf := (val_rf live).
  Notation recv_run := (recv_run dbg live).
  Infix "+" := (fadd n).
  Infix "*" := (fmul n).
  Infix "-" := (fsub n).
  Notation "'O'" := (f0 n).

  (** ** C68 *)
  Lemma L_C68_sender c r1 r2 r3 r4 D D' h R pk b r : live c = true ->
    ~ (order | (r1 - r2)%Z) -> ~ (order | r4) -> ~ (order | r) ->
    dme_new dbg live c messy r1 r2 r3 r4 = Ok D -> dme_ok live D' -> same_crs (dcrs D') (dcrs D) -> branch b ->
    recv_run (otrecv_new D', None) h = Ok (R, Some pk) -> last_selection h = Some (Select b r) ->
    FindMessy dbg live D pk = Ok (1 - b)%Z.
  Proof.
    intros L N12 N4 Nr E OK SC Hb ER LS.
    rewrite <- mk_order_eq in N12. rewrite <- mk_order_0 in N4, Nr.
    destruct (run_state dbg live _ _ _ ER) as [_ I]. rewrite LS in I. cbn [fst rdme otrecv_new] in I.
    destruct I as [kp [EK I]]. injection I as _ ->.
    destruct (new_messy_rf dbg live c r1 r2 r3 r4 L) as [D1 [E1 [T0 [_ K]]]]. rewrite E in E1. apply Ok_inj in E1. subst D1.
    destruct (same_drf live _ _ _ _ _ _ _ K OK SC) as [c' K'].
    destruct (KeyGen_rf dbg live D' c' _ _ _ _ b r K' Hb) as [kp' [EK' [X [Y SK]]]]. rewrite EK in EK'. apply Ok_inj in EK'. subst kp'.
    destruct (FindMessy_rf dbg live D _ _ _ _ T0 X Y) as [b' [-> H]]. f_equal.
    destruct Hb as [-> | ->]; unfold pick in H; cbn [Z.eqb Pos.eqb] in H; destruct H as [[-> H]|[-> H]]; try reflexivity; exfalso.
    - apply H. ring.
    - assert (Z0 : mk r * ((mk r1 - mk r2) * mk r4) = O).
      { transitivity (mk r1 * (mk r * mk r4) - mk r * (mk r2 * mk r4)); [ring|]. rewrite H. ring. }
      apply fmul_0 in Z0; [|exact Hn]. destruct Z0 as [Z0|Z0]; [contradiction|].
      apply fmul_0 in Z0; [|exact Hn]. destruct Z0 as [Z0|Z0]; [|contradiction].
      apply N12. apply fsub0. exact Z0.
  Qed.

  Lemma trap_rf c r1 r2 r3 r4 D r : live c = true -> ~ (order | r1) -> dme_new dbg live c dec r1 r2 r3 r4 = Ok D ->
    exists pk, TrapKeyGen dbg live D r = Ok (pk, em (mk r), em (fdiv n (mk r) (mk r1))) /\
      rf (pg pk) (mk r * mk r2) /\ rf (ph pk) (mk r * (mk r3 * mk r2)) /\
      drf D c (mk r2) (mk r1 * mk r2) (mk r3 * mk r2) (mk r3 * (mk r1 * mk r2)).
  Proof.
    intros L N1 E. rewrite <- mk_order_0 in N1.
    destruct (new_dec_rf dbg live c r1 r2 r3 r4 L) as [D1 [E1 [T0 K]]]. rewrite E in E1. apply Ok_inj in E1. subst D1. pose proof K as K0.
    destruct K0 as [Ec _ A B A' B'].
    unfold TrapKeyGen. rewrite Ec, (getRandomScalar_em live CV c r) by exact L. cbn [bind].
    destruct (pmul_rf dbg live CV good_CV _ _ (mk r) A) as [P [EP KP]].
    destruct (pmul_rf dbg live CV good_CV _ _ (mk r) A') as [Q [EQ KQ]].
    rewrite EP. cbn [bind]. rewrite EQ. cbn [bind]. rewrite T0, (em_div dbg n Hn) by exact N1. cbn [bind].
    exists (mkpk P Q). split; [reflexivity|]. split; [exact KP|]. split; [exact KQ|exact K].
  Qed.

  Lemma L_C68_receiver c r1 r2 r3 r4 D r pk sk0 sk1 S m0 m1 s0 t0 s1 t1 : live c = true -> ~ (order | r1) ->
    dme_new dbg live c dec r1 r2 r3 r4 = Ok D -> TrapKeyGen dbg live D r = Ok (pk, sk0, sk1) ->
    dme_ok live (sdme S) -> same_crs (dcrs (sdme S)) (dcrs D) -> is_valid live m0 -> is_valid live m1 ->
    (forall b, branch b -> exists r' kp, KeyGen dbg live D b r' = Ok kp /\ same_pkey (kpk kp) pk) /\
    exists S' c0 c1 us0 us1, encMsgs dbg live S pk m0 m1 s0 t0 s1 t1 = Ok (S', [c0; c1]) /\
      EccModel.pmul dbg live CV (cu c0) sk0 = Ok us0 /\ EccModel.pmul dbg live CV (cu c1) sk1 = Ok us1 /\
      (pinf us0 = false -> pinf (cmv c0) = false -> yields live CV (Dec dbg live sk0 c0) (den CV m0)) /\
      (pinf us1 = false -> pinf (cmv c1) = false -> yields live CV (Dec dbg live sk1 c1) (den CV m1)) /\
      (pinf us0 = true <-> (order | (r * (r2 * (s0 + t0 * r3)))%Z)) /\
      (pinf us1 = true <-> (order | (r * (r2 * (s1 + t1 * r3)))%Z)) /\
      (forall k, multiple live m0 k -> (pinf (cmv c0) = true <-> (order | (r * (r2 * (s0 + t0 * r3)) + k)%Z))) /\
      (forall k, multiple live m1 k -> (pinf (cmv c1) = true <-> (order | (r * (r2 * (s1 + t1 * r3)) + k)%Z))).
  Proof.
    intros L N1 E ET OS SC V0 V1. destruct (trap_rf c r1 r2 r3 r4 D r L N1 E) as [pk' [ET' [X [Y K]]]].
    rewrite ET in ET'. apply Ok_inj in ET'. injection ET' as <- -> ->. rewrite <- mk_order_0 in N1.
    split.
    { intros b Hb. exists (val n (pick b (mk r) (fdiv n (mk r) (mk r1)))).
      destruct (KeyGen_rf dbg live D c _ _ _ _ b (val n (pick b (mk r) (fdiv n (mk r) (mk r1)))) K Hb) as [kp [EK [X' [Y' _]]]].
      rewrite mk_val in X'. rewrite mk_val in Y'. exists kp. split; [exact EK|]. split.
      - apply (same_rf live _ _ _ _ X' X). destruct Hb as [-> | ->]; unfold pick; cbn [Z.eqb Pos.eqb]; [ring|field; exact N1].
      - apply (same_rf live _ _ _ _ Y' Y). destruct Hb as [-> | ->]; unfold pick; cbn [Z.eqb Pos.eqb]; [ring|field; exact N1]. }
    destruct (same_drf live _ _ _ _ _ _ _ K OS SC) as [c' K'].
    destruct (val_rf _ V0) as [z0 M0], (val_rf _ V1) as [z1 M1].
    destruct (encMsgs_rf dbg live S c' _ _ _ _ pk _ _ m0 m1 z0 z1 s0 t0 s1 t1 K' X Y M0 M1) as [S' [c0 [c1 [EE [_ [_ [_ [U0 [W0 [U1 W1]]]]]]]]]].
    destruct (pmul_rf dbg live CV good_CV _ _ (mk r) U0) as [us0 [Eu0 Ku0]].
    destruct (pmul_rf dbg live CV good_CV _ _ (fdiv n (mk r) (mk r1)) U1) as [us1 [Eu1 Ku1]].
    exists S', c0, c1, us0, us1. split; [exact EE|]. split; [exact Eu0|]. split; [exact Eu1|].
    split; [|split; [|split; [|split; [|split]]]].
    - intros I1 I2. apply (rf_pinf_false live CV good_CV _ _ Ku0) in I1. apply (rf_pinf_false live CV good_CV _ _ W0) in I2.
      destruct (Dec_rf dbg live c0 _ _ (mk r) U0 W0 I1 I2) as [R [ER KR]].
      apply (yields_rf live _ R z0 m0 ER); [|exact M0]. apply (rf_cong live CV _ _ _ KR). ring.
    - intros I1 I2. apply (rf_pinf_false live CV good_CV _ _ Ku1) in I1. apply (rf_pinf_false live CV good_CV _ _ W1) in I2.
      destruct (Dec_rf dbg live c1 _ _ (fdiv n (mk r) (mk r1)) U1 W1 I1 I2) as [R [ER KR]].
      apply (yields_rf live _ R z1 m1 ER); [|exact M1]. apply (rf_cong live CV _ _ _ KR). field. exact N1.
    - rewrite (rf_pinf live CV good_CV _ _ Ku0), <- mk_order_0, <- !mk_mul, <- mk_add, <- mk_mul.
      match goal with |- ?x = _ <-> ?y = _ => replace x with y; [reflexivity|] end. ring.
    - rewrite (rf_pinf live CV good_CV _ _ Ku1), <- mk_order_0, <- !mk_mul, <- mk_add, <- mk_mul.
      match goal with |- ?x = _ <-> ?y = _ => replace x with y; [reflexivity|] end. field. exact N1.
    - intros l M'. apply (multiple_rf live) in M'. assert (Ez : z0 = mk l) by exact (rf_fun live CV good_CV _ _ _ M0 M').
      rewrite (rf_pinf live CV good_CV _ _ W0), <- mk_order_0, <- mk_add, <- !mk_mul, <- mk_add, <- mk_mul, Ez.
      match goal with |- ?x = _ <-> ?y = _ => replace x with y; [reflexivity|] end. ring.
    - intros l M'. apply (multiple_rf live) in M'. assert (Ez : z1 = mk l) by exact (rf_fun live CV good_CV _ _ _ M1 M').
      rewrite (rf_pinf live CV good_CV _ _ W1), <- mk_order_0, <- mk_add, <- !mk_mul, <- mk_add, <- mk_mul, Ez.
      match goal with |- ?x = _ <-> ?y = _ => replace x with y; [reflexivity|] end. ring.
  Qed.

  (** ** Concrete cases *)
  Ltac small := apply ndiv; split; vm_compute; reflexivity.
  Lemma L_C68_sender_case c c' : live c = true -> live c' = true ->
    exists D R pk, dme_new dbg live c messy 2 3 1 2 = Ok D /\
      recv_run (otrecv_new (dme_new_crs c' (dcrs D)), None) [Select 1 5; Select 0 2] = Ok (R, Some pk) /\
      FindMessy dbg live D pk = Ok 1%Z.
  Proof.
    intros L L'. destruct (case_new dbg live c L) as [D [E K]]. destruct (case_copy live D c c' L' K) as [OS SC].
    destruct (case_run dbg live _ OS) as [R [pk ER]]. exists D, R, pk. split; [exact E|]. split; [exact ER|].
    apply (L_C68_sender c 2 3 1 2 D _ _ R pk 0 2 L) with (5 := OS) (6 := SC) (8 := ER); try exact E; try reflexivity; try small.
    left; reflexivity.
  Qed.

  Lemma L_C68_receiver_case c c' : live c = true -> live c' = true ->
    exists D pk sk0 sk1 S' c0 c1, dme_new dbg live c dec 2 1 3 0 = Ok D /\ TrapKeyGen dbg live D 4 = Ok (pk, sk0, sk1) /\
      encMsgs dbg live (otsndr_new (dme_new_crs c' (dcrs D))) pk (gen CV c') (pt_inf CV) 1 1 3 4 = Ok (S', [c0; c1]) /\
      yields live CV (Dec dbg live sk0 c0) (ggen CV) /\ yields live CV (Dec dbg live sk1 c1) None.
  Proof.
    intros L L'. destruct (new_dec_rf dbg live c 2 1 3 0 L) as [D [E [T0 K0]]].
    assert (N2 : ~ (order | 2)) by small.
    destruct (trap_rf c 2 1 3 0 D 4 L N2 E) as [pk [ET _]].
    rewrite !mk_mul in K0. pose proof (logs_rf live _ _ _ _ _ _ K0) as [A [B [A' B']]].
    destruct (L_new_crs live c' (dcrs D) L') as [OS SC].
    { apply (mult_finite live _ _ A); small. } { apply (mult_finite live _ _ B); small. }
    { apply (mult_finite live _ _ A'); small. } { apply (mult_finite live _ _ B'); small. }
    pose proof (gen_rf live c' L') as G.
    assert (Z0 : multiple live (pt_inf CV) 0) by (split; [left; reflexivity|reflexivity]).
    destruct (L_C68_receiver c 2 1 3 0 D 4 pk _ _ (otsndr_new (dme_new_crs c' (dcrs D))) (gen CV c') (pt_inf CV) 1 1 3 4
      L N2 E ET OS SC (proj1 G) (or_introl eq_refl)) as [_ [S' [c0 [c1 [us0 [us1 [EE [_ [_ [H0 [H1 [C0 [C1 [C2 C3]]]]]]]]]]]]]].
    eexists D, pk, _, _, S', c0, c1. split; [exact E|]. split; [exact ET|]. split; [exact EE|].
    split.
    - apply H0; apply not_true_is_false; [rewrite C0; small|]. rewrite (C2 _ G). small.
    - apply H1; apply not_true_is_false; [rewrite C1; small|]. rewrite (C3 _ Z0). small.
  Qed.
End Ot2.
