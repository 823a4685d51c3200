(** Proofs about oblivious transfer. *)
From Coq Require Import ZArith Znumtheory Bool List Lia Field.
From Verif Require Import Outcome FieldModel ZpField SpecField FieldProofs ECGroup ECOrder CurveParams CurveFacts EccModel EccProofs SpecEcc EccThms Emb RF DmeModel SpecDme DmeProofs OtModel SpecOt.
Import ListNotations.
Open Scope Z_scope.

Section Ot.
  Variables (dbg : bool) (live : Z -> bool).
  Notation n := (fieldn CV).
  Let Hn : prime n := prime_n CV good_CV.
  Let HF := field_Fp n Hn.
  Add Field OtField : HF.
  Notation F := (Fp n).
  Notation rf := (rf live CV).
  Notation em := (em n).
  Notation mk := (mk n).
  Notation drf := (drf live).
  Notation val_rf := (val_rf live).
  Notation rf_val := (rf_val live).
  Notation recv_run := (recv_run dbg live).
  Infix "+" := (fadd n).
  Infix "*" := (fmul n).
  Infix "-" := (fsub n).
  Notation "'O'" := (f0 n).

  Lemma same_drf D D' c a0 a1 b0 b1 : drf D c a0 a1 b0 b1 -> dme_ok live D' -> same_crs (dcrs D') (dcrs D) ->
    exists c', drf D' c' a0 a1 b0 b1.
  Proof.
    intros [E L A B A' B'] OK [S1 [S2 [S3 S4]]]. destruct (ok_drf live D' OK) as [c' [x0 [x1 [y0 [y1 [E' L' X Y X' Y']]]]]].
    exists c'. constructor; try assumption.
    - apply (rf_cong live CV _ _ _ X). apply (same_rf live _ _ _ _ X A). exact S1.
    - apply (rf_cong live CV _ _ _ Y). apply (same_rf live _ _ _ _ Y B). exact S2.
    - apply (rf_cong live CV _ _ _ X'). apply (same_rf live _ _ _ _ X' A'). exact S3.
    - apply (rf_cong live CV _ _ _ Y'). apply (same_rf live _ _ _ _ Y' B'). exact S4.
  Qed.

  (** ** Histories of a receiver *)
  Lemma run_app s h1 h2 : recv_run s (h1 ++ h2) = bind (recv_run s h1) (fun s' => recv_run s' h2).
  Proof.
    revert s; induction h1 as [|o h1 IH]; intros s; [reflexivity|].
    destruct o; cbn [SpecOt.recv_run app].
    - destruct (selectMsg dbg live (fst s) b r) as [x|f]; cbn [bind]; [apply IH|reflexivity].
    - destruct (decryptMsg dbg live (fst s) c) as [x|f]; cbn [bind]; [apply IH|reflexivity].
    - destruct (decryptMsgDecode dbg live (fst s) c) as [x|f]; cbn [bind]; [apply IH|reflexivity].
  Qed.

  (** the state after a history: untouched, or that of the last selection *)
  Lemma run_state s h s' : recv_run s h = Ok s' ->
    rdme (fst s') = rdme (fst s) /\
    match last_selection h with
    | None => s' = s
    | Some (Select b r) => exists kp, KeyGen dbg live (rdme (fst s)) b r = Ok kp /\
        s' = (mkrecv (rdme (fst s)) (ksk kp) (Some b), Some (kpk kp))
    | Some _ => False
    end.
  Proof.
    revert s'. induction h as [|o h IH] using rev_ind; intros s' E.
    - apply Ok_inj in E. subst s'. split; reflexivity.
    - rewrite run_app in E. destruct (recv_run s h) as [s1|f]; [|discriminate E]. cbn [bind] in E.
      destruct (IH s1 eq_refl) as [D1 I1]. unfold last_selection in *. rewrite rev_unit. cbn [find].
      destruct o; cbn [SpecOt.recv_run is_select] in *.
      + unfold selectMsg in E. rewrite D1 in E. destruct (KeyGen dbg live (rdme (fst s)) b r) as [kp|f]; [|discriminate E].
        cbn [bind fst snd] in E. apply Ok_inj in E. subst s'. split; [reflexivity|]. exists kp. split; reflexivity.
      + destruct (decryptMsg dbg live (fst s1) c); [|discriminate E]. cbn [bind] in E. apply Ok_inj in E. subst s'. split; assumption.
      + destruct (decryptMsgDecode dbg live (fst s1) c); [|discriminate E]. cbn [bind] in E. apply Ok_inj in E. subst s'. split; assumption.
  Qed.

  Lemma L_C35_uninit D h s c : recv_run (otrecv_new D, None) h = Ok s -> last_selection h = None ->
    decryptMsg dbg live (fst s) c = Err Uninit /\ decryptMsgDecode dbg live (fst s) c = Err Uninit.
  Proof.
    intros E N. destruct (run_state _ _ _ E) as [_ I]. rewrite N in I. subst s. split; reflexivity.
  Qed.

  Lemma pick_branch b (m0 m1 : point) x y : branch b -> rf m0 x -> rf m1 y -> rf (if b =? 0 then m0 else m1) (pick b x y).
  Proof. intros [-> | ->] A B; assumption. Qed.

  Lemma encMsgs_rf S c a0 a1 b0 b1 pk x y m0 m1 z0 z1 s0 t0 s1 t1 : drf (sdme S) c a0 a1 b0 b1 ->
    rf (pg pk) x -> rf (ph pk) y -> rf m0 z0 -> rf m1 z1 ->
    exists S' c0 c1, encMsgs dbg live S pk m0 m1 s0 t0 s1 t1 = Ok (S', [c0; c1]) /\ sdme S' = sdme S /\
      Enc dbg live (sdme S) pk 0 m0 s0 t0 = Ok c0 /\ Enc dbg live (sdme S) pk 1 m1 s1 t1 = Ok c1 /\
      rf (cu c0) (mk s0 * a0 + mk t0 * b0) /\ rf (cmv c0) (mk s0 * x + mk t0 * y + z0) /\
      rf (cu c1) (mk s1 * a1 + mk t1 * b1) /\ rf (cmv c1) (mk s1 * x + mk t1 * y + z1).
  Proof.
    intros K X Y M0 M1.
    destruct (Enc_rf dbg live _ c _ _ _ _ 0 pk x y m0 z0 s0 t0 K (or_introl eq_refl) X Y M0) as [c0 [E0 [U0 W0]]].
    destruct (Enc_rf dbg live _ c _ _ _ _ 1 pk x y m1 z1 s1 t1 K (or_intror eq_refl) X Y M1) as [c1 [E1 [U1 W1]]].
    exists (mksndr (sdme S) [c0; c1]), c0, c1. unfold encMsgs. rewrite E0; cbn [bind]. rewrite E1; cbn [bind app].
    repeat (split; [try reflexivity; assumption|]). exact W1.
  Qed.

  Lemma vat_pick b (c0 c1 : ctxt) : branch b -> vat [c0; c1] b = Ok (if b =? 0 then c0 else c1).
  Proof. intros [-> | ->]; reflexivity. Qed.

  Lemma L_C35 D h R pk b r S m0 m1 s0 t0 s1 t1 : dme_ok live D ->
    recv_run (otrecv_new D, None) h = Ok (R, Some pk) -> last_selection h = Some (Select b r) -> branch b ->
    dme_ok live (sdme S) -> same_crs (dcrs (sdme S)) (dcrs D) -> is_valid live m0 -> is_valid live m1 ->
    exists S' c0 c1 us, encMsgs dbg live S pk m0 m1 s0 t0 s1 t1 = Ok (S', [c0; c1]) /\
      let c := if b =? 0 then c0 else c1 in let m := if b =? 0 then m0 else m1 in
      EccModel.pmul dbg live CV (cu c) (rsk R) = Ok us /\
      (pinf us = false -> pinf (cmv c) = false -> yields live CV (decryptMsg dbg live R [c0; c1]) (den CV m)) /\
      (forall a e k, multiple live (crs_g b (dcrs D)) a -> multiple live (crs_h b (dcrs D)) e -> multiple live m k ->
         let w := (r * ((if b =? 0 then s0 else s1) * a + (if b =? 0 then t0 else t1) * e))%Z in
         (pinf us = true <-> (order | w)) /\ (pinf (cmv c) = true <-> (order | (w + k)%Z))).
  Proof.
    intros OK ER LS Hb OS SC V0 V1. destruct (run_state _ _ _ ER) as [_ I]. rewrite LS in I. cbn [fst rdme otrecv_new] in I.
    destruct I as [kp [EK I]]. injection I as -> ->.
    destruct (ok_drf live D OK) as [c [a0 [a1 [b0 [b1 K]]]]]. destruct (same_drf _ _ _ _ _ _ _ K OS SC) as [c' K'].
    destruct (KeyGen_rf dbg live D c _ _ _ _ b r K Hb) as [kp' [EK' [X [Y SK]]]]. rewrite EK in EK'. apply Ok_inj in EK'. subst kp'.
    destruct (val_rf _ V0) as [z0 M0], (val_rf _ V1) as [z1 M1].
    destruct (encMsgs_rf S c' _ _ _ _ _ _ _ m0 m1 z0 z1 s0 t0 s1 t1 K' X Y M0 M1) as [S' [c0 [c1 [EE [_ [_ [_ [U0 [W0 [U1 W1]]]]]]]]]].
    assert (UW : exists u, u = mk (if b =? 0 then s0 else s1) * pick b a0 a1 + mk (if b =? 0 then t0 else t1) * pick b b0 b1 /\
        rf (cu (if b =? 0 then c0 else c1)) u /\
        rf (cmv (if b =? 0 then c0 else c1)) (mk r * u + pick b z0 z1)).
    { eexists; split; [reflexivity|]. destruct Hb as [-> | ->]; unfold pick; cbn [Z.eqb Pos.eqb].
      - split; [exact U0|]. apply (rf_cong live CV _ _ _ W0). unfold pick; cbn [Z.eqb]. ring.
      - split; [exact U1|]. apply (rf_cong live CV _ _ _ W1). unfold pick; cbn [Z.eqb]. ring. }
    destruct UW as [u [Eu0 [U W]]]. destruct (pmul_rf dbg live CV good_CV _ _ (mk r) U) as [us [Eu Ku]].
    exists S', c0, c1, us. split; [exact EE|].
    cbv zeta. unfold decryptMsg, chosen. cbn [rbr rsk]. rewrite (vat_pick b c0 c1 Hb). cbn [bind].
    rewrite SK. split; [exact Eu|]. split.
    - intros I1 I2. apply (rf_pinf_false live CV good_CV _ _ Ku) in I1. apply (rf_pinf_false live CV good_CV _ _ W) in I2.
      destruct (Dec_rf dbg live _ _ _ (mk r) U W I1 I2) as [R' [ER' KR]].
      apply (yields_rf live _ R' (pick b z0 z1) _ ER'); [|apply pick_branch; assumption]. apply (rf_cong live CV _ _ _ KR). ring.
    - intros a e k A B M. apply (multiple_rf live) in A, B, M. 
      pose proof (rf_fun live CV good_CV _ _ _ (pick_branch b m0 m1 _ _ Hb M0 M1) M) as Ez.
      assert (Pa : pick b a0 a1 = mk a /\ pick b b0 b1 = mk e).
      { destruct K as [_ _ K1 K2 K3 K4]. unfold pick, crs_g, crs_h in *. destruct (b =? 0); split; eapply (rf_fun live CV good_CV); eassumption. }
      destruct Pa as [Pa Pb]. rewrite Pa, Pb in Eu0. subst u.
      rewrite (rf_pinf live CV good_CV _ _ Ku), (rf_pinf live CV good_CV _ _ W), Ez, <- !mk_order_0.
      rewrite <- !mk_add, <- !mk_mul, <- !mk_add, <- !mk_mul. split; reflexivity.
  Qed.

  (** integers *)
  Lemma L_C35_integer D h R pk b r S m0 m1 s0 t0 s1 t1 : dme_ok live D ->
    recv_run (otrecv_new D, None) h = Ok (R, Some pk) -> last_selection h = Some (Select b r) -> branch b ->
    dme_ok live (sdme S) -> same_crs (dcrs (sdme S)) (dcrs D) ->
    exists S' c0 c1 us P0 P1, encMsgsZ dbg live S pk m0 m1 s0 t0 s1 t1 = Ok (S', [c0; c1]) /\
      encode dbg live (sdme S) m0 = Ok P0 /\ encode dbg live (sdme S) m1 = Ok P1 /\
      let c := if b =? 0 then c0 else c1 in
      EccModel.pmul dbg live CV (cu c) (rsk R) = Ok us /\
      (pinf us = false -> pinf (cmv c) = false ->
       decryptMsgDecode dbg live R [c0; c1] = Ok (decode (if b =? 0 then P0 else P1))).
  Proof.
    intros OK ER LS Hb OS SC. pose proof OS as [[c [Ec L]] _].
    destruct (L_C32_encode dbg live c _ m0 Ec L) as [i0 [P0 [_ [EP0 [F0 _]]]]].
    destruct (L_C32_encode dbg live c _ m1 Ec L) as [i1 [P1 [_ [EP1 [F1 _]]]]].
    destruct (L_C35 D h R pk b r S P0 P1 s0 t0 s1 t1 OK ER LS Hb OS SC (or_intror F0) (or_intror F1)) as [S' [c0 [c1 [us [EE [EU [H _]]]]]]].
    exists S', c0, c1, us, P0, P1. split.
    { revert EE. unfold encMsgsZ, encMsgs, EncZ. rewrite EP0, EP1. cbn [bind]. intros EE; exact EE. }
    split; [exact EP0|]. split; [exact EP1|]. cbv zeta. split; [exact EU|]. intros I1 I2. specialize (H I1 I2).
    destruct (run_state _ _ _ ER) as [_ I]. rewrite LS in I. destruct I as [kp [_ I]]. injection I as -> _.
    unfold decryptMsg, decryptMsgDecode, chosen in *. cbn [rbr rsk] in *. rewrite (vat_pick b c0 c1 Hb) in *. cbn [bind] in *.
    destruct H as [Q [EQ [V DQ]]]. unfold DecDecode. rewrite EQ. cbn [bind]. f_equal.
    apply (decode_den live). { destruct (b =? 0); assumption. } { exact V. } exact DQ.
  Qed.

  (** the message that was not selected stays hidden in messy mode *)
  Lemma L_C35_hidden c r1 r2 r3 r4 D h R pk b r S m m' s t : live c = true ->
    ~ (order | (r1 - r2)%Z) -> ~ (order | r3) -> ~ (order | r4) -> ~ (order | r) ->
    dme_new dbg live c messy r1 r2 r3 r4 = Ok D -> branch b ->
    recv_run (otrecv_new D, None) h = Ok (R, Some pk) -> last_selection h = Some (Select b r) ->
    dme_ok live (sdme S) -> same_crs (dcrs (sdme S)) (dcrs D) -> is_valid live m -> is_valid live m' ->
    exists ct s' t', Enc dbg live (sdme S) pk (1 - b)%Z m s t = Ok ct /\ draw s' /\ draw t' /\
      (exists ct', Enc dbg live (sdme S) pk (1 - b)%Z m' s' t' = Ok ct' /\ same_ctxt ct' ct) /\
      (forall s2 t2, draw s2 -> draw t2 ->
        (exists ct', Enc dbg live (sdme S) pk (1 - b)%Z m' s2 t2 = Ok ct' /\ same_ctxt ct' ct) -> s2 = s' /\ t2 = t').
  Proof.
    intros L N12 N3 N4 Nr ED Hb ER LS OS SC V V'.
    rewrite <- mk_order_eq in N12. rewrite <- mk_order_0 in N3, N4, Nr.
    destruct (run_state _ _ _ ER) as [_ I]. rewrite LS in I. cbn [fst rdme otrecv_new] in I.
    destruct I as [kp [EK I]]. injection I as -> ->.
    destruct (new_messy_rf dbg live c r1 r2 r3 r4 L) as [D' [E [_ [_ K]]]]. rewrite ED in E. apply Ok_inj in E. subst D'.
    destruct (same_drf _ _ _ _ _ _ _ K OS SC) as [c' K'].
    destruct (KeyGen_rf dbg live D c _ _ _ _ b r K Hb) as [kp' [EK' [X [Y SK]]]]. rewrite EK in EK'. apply Ok_inj in EK'. subst kp'.
    assert (Hb' : branch (1 - b)%Z) by (destruct Hb as [-> | ->]; [right|left]; reflexivity).
    assert (ND : mk r1 - mk r2 <> O) by (intros F; apply N12, (fsub0 _ _ F)).
    assert (M : forall x y : F, x <> O -> y <> O -> x * y <> O).
    { intros x y Hx Hy F. apply fmul_0 in F; [|exact Hn]. destruct F; contradiction. }
    refine (hides_core dbg live (sdme S) c' _ _ _ _ (pick (1 - b)%Z (mk r1) (mk r2)) (kpk kp) _ _ _ m m' s t K' Hb' _ _ X Y _ V V').
    - unfold pick; destruct (1 - b =? 0); assumption.
    - unfold pick; destruct (1 - b =? 0); reflexivity.
    - destruct Hb as [-> | ->]; unfold pick; cbn [Z.sub Z.opp Z.add Z.pos_sub Z.eqb Pos.eqb].
      + replace (mk r * (mk r1 * mk r3) - mk r2 * (mk r * mk r3)) with ((mk r1 - mk r2) * (mk r * mk r3)) by ring.
        apply M; [exact ND|]. apply M; assumption.
      + replace (mk r * (mk r2 * mk r4) - mk r1 * (mk r * mk r4)) with (fopp n ((mk r1 - mk r2) * (mk r * mk r4))) by ring.
        intros F. apply (M _ _ ND (M _ _ Nr N4)).
        match type of F with fopp _ ?x = _ => replace x with (fopp n (fopp n x)) by ring end. rewrite F. ring.
  Qed.

  (** ** C36 *)
  Fixpoint zsum (l : list F) : F := match l with [] => O | x :: l' => x + zsum l' end.

  Lemma total_rf ps zs : Forall2 rf ps zs -> exists T, rf T (zsum zs) /\ den CV T = total ps.
  Proof.
    induction 1 as [|P z ps zs HP _ [T [KT DT]]].
    - exists (pt_inf CV). split; [apply (rf_inf live CV good_CV)|reflexivity].
    - destruct (padd_rf dbg live CV good_CV _ _ _ _ HP KT) as [R [ER KR]]. exists R. split; [exact KR|].
      destruct (proj1 (L_C08 dbg live CV good_CV P T (rf_val _ _ HP) (rf_val _ _ KT))) as [R' [ER' [_ DR']]].
      rewrite ER in ER'. apply Ok_inj in ER'. subst R'. rewrite DR', DT. reflexivity.
  Qed.

  (** pairs of ciphertexts decrypting with [k] (in residues) *)
  Definition good_pair (k : F) (b : branch_t) (v : list ctxt) (zu : F * F) : Prop :=
    exists c0 c1 u0 u1 w0 w1, v = [c0; c1] /\ rf (cu c0) u0 /\ rf (cu c1) u1 /\ rf (cmv c0) w0 /\ rf (cmv c1) w1 /\
      pick b w0 w1 = k * pick b u0 u1 + fst zu /\ pick b u0 u1 = snd zu.
  Definition pairsum (z : F * F) (zs : list (F * F)) : F * F := (fst z + zsum (map fst zs), snd z + zsum (map snd zs)).

  Lemma Eval_rf ca cb ua ub wa wb : rf (cu ca) ua -> rf (cu cb) ub -> rf (cmv ca) wa -> rf (cmv cb) wb ->
    exists c, Eval dbg live ca cb = Ok c /\ rf (cu c) (ua + ub) /\ rf (cmv c) (wa + wb).
  Proof.
    intros A B A' B'. unfold Eval.
    destruct (padd_rf dbg live CV good_CV _ _ _ _ A B) as [u [-> U]]. cbn [bind].
    destruct (padd_rf dbg live CV good_CV _ _ _ _ A' B') as [w [-> W]]. cbn [bind].
    eexists; split; [reflexivity|]. split; assumption.
  Qed.

  Lemma agg_fold k b : branch b -> forall vs zs, Forall2 (good_pair k b) vs zs -> forall c0 c1 z, good_pair k b [c0; c1] z ->
    exists c, foldM (agg_step dbg live) vs (c0, c1) = Ok c /\ good_pair k b [fst c; snd c] (pairsum z zs).
  Proof.
    intros Hb vs zs H. induction H as [|v x vs zs Hv _ IH]; intros c0 c1 z G.
    - exists (c0, c1). split; [reflexivity|]. destruct G as [d0 [d1 [u0 [u1 [w0 [w1 [E [U0 [U1 [W0 [W1 [P Q]]]]]]]]]]]].
      exists d0, d1, u0, u1, w0, w1. unfold pairsum. cbn [fst snd map zsum]. repeat (split; [assumption|]). rewrite P, Q. split; ring.
    - destruct G as [d0 [d1 [u0 [u1 [w0 [w1 [E [U0 [U1 [W0 [W1 [P Q]]]]]]]]]]]]. injection E as <- <-.
      destruct Hv as [e0 [e1 [u0' [u1' [w0' [w1' [-> [U0' [U1' [W0' [W1' [P' Q']]]]]]]]]]]].
      cbn [foldM]. unfold agg_step at 1. change (vat [e0; e1] 0) with (@Ok ctxt e0). cbn [bind fst snd].
      destruct (Eval_rf _ _ _ _ _ _ U0 U0' W0 W0') as [f0 [E0 [A0 B0]]].
      destruct (Eval_rf _ _ _ _ _ _ U1 U1' W1 W1') as [f1 [E1 [A1 B1]]].
      rewrite E0. cbn [bind]. change (vat [e0; e1] 1) with (@Ok ctxt e1). cbn [bind]. rewrite E1. cbn [bind].
      destruct (IH f0 f1 (fst z + fst x, snd z + snd x)) as [c [Ec Gc]].
      + exists f0, f1, (u0 + u0'), (u1 + u1'), (w0 + w0'), (w1 + w1'). repeat (split; [try reflexivity; assumption|]). cbn [fst snd].
        rewrite <- Q, <- Q'. destruct Hb as [-> | ->]; unfold pick in *; cbn [Z.eqb] in *; rewrite P, P'; split; ring.
      + exists c. split; [exact Ec|]. unfold pairsum in *. cbn [fst snd map zsum] in *.
        replace (fst z + (fst x + zsum (map fst zs))) with (fst z + fst x + zsum (map fst zs)) by ring.
        replace (snd z + (snd x + zsum (map snd zs))) with (snd z + snd x + zsum (map snd zs)) by ring. exact Gc.
  Qed.

  Lemma zsum_mk ks : zsum (map mk ks) = mk (sumz ks).
  Proof. induction ks as [|k ks IH]; [reflexivity|]. cbn [map zsum sumz fold_right]. rewrite IH. apply mk_add. Qed.

  Lemma rf_list ps zs ks : Forall2 rf ps zs -> Forall2 (multiple live) ps ks -> zs = map mk ks.
  Proof.
    intros H. revert ks. induction H as [|P z ps zs HP _ IH]; intros ks M; inversion M as [|? k ? ks' Hk Mk]; subst; [reflexivity|].
    cbn [map]. f_equal; [|apply IH; exact Mk]. apply (multiple_rf live) in Hk. exact (rf_fun live CV good_CV _ _ _ HP Hk).
  Qed.

  Lemma L_C36 D R0 h R pk b r xs : dme_ok live D -> R0 = otrecv_new D ->
    recv_run (R0, None) h = Ok (R, Some pk) -> last_selection h = Some (Select b r) -> branch b ->
    xs <> [] -> Forall (sender_ok live D) xs ->
    exists vs c0 c1 us, mapM (send dbg live pk) xs = Ok vs /\ aggregate dbg live vs = Ok [c0; c1] /\
      let c := if b =? 0 then c0 else c1 in
      EccModel.pmul dbg live CV (cu c) (rsk R) = Ok us /\
      (pinf us = false -> pinf (cmv c) = false ->
       yields live CV (decryptMsg dbg live R [c0; c1]) (total (map (snd_msg b) xs))) /\
      (forall a e ks, multiple live (crs_g b (dcrs D)) a -> multiple live (crs_h b (dcrs D)) e ->
         Forall2 (multiple live) (map (snd_msg b) xs) ks ->
         let w := (r * (sumz (map (snd_s b) xs) * a + sumz (map (snd_t b) xs) * e))%Z in
         (pinf us = true <-> (order | w)) /\ (pinf (cmv c) = true <-> (order | (w + sumz ks)%Z))).
  Proof.
    intros OK -> ER LS Hb NE FS. destruct (run_state _ _ _ ER) as [_ I]. rewrite LS in I. cbn [fst rdme otrecv_new] in I.
    destruct I as [kp [EK I]]. injection I as -> ->.
    destruct (ok_drf live D OK) as [c [a0 [a1 [b0 [b1 K]]]]].
    destruct (KeyGen_rf dbg live D c _ _ _ _ b r K Hb) as [kp' [EK' [X [Y SK]]]]. rewrite EK in EK'. apply Ok_inj in EK'. subst kp'.
    set (A := pick b a0 a1) in *. set (B := pick b b0 b1) in *.
    assert (S : exists vs zs, mapM (send dbg live (kpk kp)) xs = Ok vs /\ Forall2 (good_pair (mk r) b) vs zs /\
        Forall2 rf (map (snd_msg b) xs) (map fst zs) /\
        zsum (map snd zs) = mk (sumz (map (snd_s b) xs)) * A + mk (sumz (map (snd_t b) xs)) * B).
    { clear NE. induction FS as [|x xs Hx _ [vs [zs [E [G [M U]]]]]].
      - exists [], []. split; [reflexivity|]. split; [constructor|]. split; [constructor|]. cbn [map zsum sumz fold_right]. change (mk 0) with O. ring.
      - destruct Hx as [OS [SC [V0 V1]]]. destruct (same_drf _ _ _ _ _ _ _ K OS SC) as [c' K'].
        destruct (val_rf _ V0) as [z0 M0], (val_rf _ V1) as [z1 M1].
        destruct (encMsgs_rf (snd_o x) c' _ _ _ _ _ _ _ _ _ z0 z1 (snd_s0 x) (snd_t0 x) (snd_s1 x) (snd_t1 x) K' X Y M0 M1)
          as [S' [c0 [c1 [EE [_ [_ [_ [U0 [W0 [U1 W1]]]]]]]]]].
        exists ([c0; c1] :: vs), ((pick b z0 z1, mk (snd_s b x) * A + mk (snd_t b x) * B) :: zs). split; [|split; [|split]].
        + cbn [mapM]. unfold send at 1. rewrite EE. cbn [bind snd]. rewrite E. reflexivity.
        + constructor; [|exact G]. do 6 eexists. split; [reflexivity|]. split; [exact U0|]. split; [exact U1|]. split; [exact W0|]. split; [exact W1|].
          cbn [fst snd]. unfold A, B, snd_s, snd_t. destruct Hb as [-> | ->]; unfold pick; cbn [Z.eqb]; split; ring.
        + constructor; [apply pick_branch; assumption|exact M].
        + cbn [map zsum sumz fold_right snd]. rewrite U, <- !mk_add. unfold sumz. ring. }
    destruct S as [vs [zs [E [G [M SU]]]]].
    destruct xs as [|x xs]; [contradiction|]. destruct zs as [|z zs']; [inversion M|]. inversion G as [|v ? vs' ? Hv Gv]; subst.
    pose proof Hv as [c0 [c1 [_ [_ [_ [_ [-> _]]]]]]].
    destruct (agg_fold (mk r) b Hb _ _ Gv c0 c1 z Hv) as [cc [Ec Gc]].
    destruct Gc as [d0 [d1 [u0 [u1 [w0 [w1 [Ed [U0 [U1 [W0 [W1 [P Q]]]]]]]]]]]]. injection Ed as Ed0 Ed1.
    change (fst (pairsum z zs')) with (zsum (map fst (z :: zs'))) in P.
    change (snd (pairsum z zs')) with (zsum (map snd (z :: zs'))) in Q.
    assert (UW : rf (cu (if b =? 0 then d0 else d1)) (zsum (map snd (z :: zs'))) /\
        rf (cmv (if b =? 0 then d0 else d1)) (mk r * zsum (map snd (z :: zs')) + zsum (map fst (z :: zs')))).
    { rewrite <- Q, <- P. destruct Hb as [-> | ->]; split; assumption. }
    destruct UW as [U W]. destruct (pmul_rf dbg live CV good_CV _ _ (mk r) U) as [us [Eu Ku]].
    exists ([c0; c1] :: vs'), d0, d1, us. split; [exact E|]. split.
    { unfold aggregate. change (vat ([c0; c1] :: vs') 0) with (@Ok (list ctxt) [c0; c1]). cbn [bind].
      change (vat [c0; c1] 0) with (@Ok ctxt c0). cbn [bind]. change (vat [c0; c1] 1) with (@Ok ctxt c1). cbn [bind tl].
      rewrite Ec. cbn [bind]. rewrite Ed0, Ed1. reflexivity. }
    cbv zeta. rewrite SK. cbn [rsk]. split; [exact Eu|]. split.
    - intros I1 I2.
      apply (rf_pinf_false live CV good_CV _ _ Ku) in I1. apply (rf_pinf_false live CV good_CV _ _ W) in I2.
      unfold decryptMsg, chosen. cbn [rbr rsk]. rewrite (vat_pick b d0 d1 Hb). cbn [bind].
      destruct (Dec_rf dbg live _ _ _ (mk r) U W I1 I2) as [R' [ER' KR]].
      destruct (total_rf _ _ M) as [T [KT DT]]. rewrite <- DT.
      apply (yields_rf live _ R' (zsum (map fst (z :: zs'))) T ER'); [|exact KT]. apply (rf_cong live CV _ _ _ KR). ring.
    - intros a e ks LA LB LM. apply (multiple_rf live) in LA, LB.
      assert (Pa : A = mk a /\ B = mk e).
      { destruct K as [_ _ K1 K2 K3 K4]. unfold A, B, pick, crs_g, crs_h in *. destruct (b =? 0); split; eapply (rf_fun live CV good_CV); eassumption. }
      destruct Pa as [Pa Pb].
      rewrite (rf_pinf live CV good_CV _ _ Ku), (rf_pinf live CV good_CV _ _ W), <- !mk_order_0.
      rewrite (rf_list _ _ _ M LM), zsum_mk, SU, Pa, Pb. rewrite <- !mk_add, <- !mk_mul, <- !mk_add, <- !mk_mul. split; reflexivity.
  Qed.

  Lemma L_C36_empty : aggregate dbg live [] = Err OutOfBounds.
  Proof. reflexivity. Qed.
  Lemma L_C36_short v vs : (length v < 2)%nat -> aggregate dbg live (v :: vs) = Err OutOfBounds.
  Proof. intros H. destruct v as [|a [|b v]]; cbn in H; try lia; reflexivity. Qed.

  (** ** Concrete cases *)
  Ltac small := apply ndiv; split; vm_compute; reflexivity.
  Definition case_crs (D : dme) (c : Z) : Prop :=
    dme_ok live D /\ multiple live (g0 (dcrs D)) 1 /\ multiple live (g1 (dcrs D)) 2 /\
    multiple live (h0 (dcrs D)) 2 /\ multiple live (h1 (dcrs D)) 6.

  Lemma case_new c : live c = true -> exists D, dme_new dbg live c messy 2 3 1 2 = Ok D /\ case_crs D c.
  Proof.
    intros L. destruct (L_C26_logs dbg live c messy 2 3 1 2 L) as [D [E [OK [A [B [A' B']]]]]].
    exists D. change (2 * 1)%Z with 2%Z in A'. change (3 * 2)%Z with 6%Z in B'.
    split; [exact E|]. split; [exact OK|]. split; [exact A|]. split; [exact B|]. split; [exact A'|exact B'].
  Qed.

  Lemma mult_finite P k : multiple live P k -> ~ (order | k) -> finite all_alive P.
  Proof.
    intros M N. apply (multiple_rf live) in M. assert (N' : mk k <> O) by (intros F; apply N, mk_order_0, F).
    pose proof (rf_finite live CV good_CV _ _ M N') as [I [A [B [[c [E _]] Q]]]].
    split; [exact I|]. split; [exact A|]. split; [exact B|]. split; [exists c; split; [exact E|reflexivity]|exact Q].
  Qed.

  Lemma case_copy D c c' : live c' = true -> case_crs D c ->
    dme_ok live (dme_new_crs c' (dcrs D)) /\ same_crs (dcrs (dme_new_crs c' (dcrs D))) (dcrs D).
  Proof.
    intros L [_ [A [B [A' B']]]]. apply (L_new_crs live c' (dcrs D) L).
    - apply (mult_finite _ _ A); small.
    - apply (mult_finite _ _ B); small.
    - apply (mult_finite _ _ A'); small.
    - apply (mult_finite _ _ B'); small.
  Qed.

  Lemma case_run D : dme_ok live D -> exists R pk,
    recv_run (otrecv_new D, None) [Select 1 5; Select 0 2] = Ok (R, Some pk).
  Proof.
    intros OK. destruct (ok_drf live D OK) as [c [a0 [a1 [b0 [b1 K]]]]].
    destruct (KeyGen_rf dbg live D c _ _ _ _ 1 5 K (or_intror eq_refl)) as [k1 [E1 _]].
    destruct (KeyGen_rf dbg live D c _ _ _ _ 0 2 K (or_introl eq_refl)) as [k0 [E0 _]].
    cbn [SpecOt.recv_run]. unfold selectMsg. cbn [fst snd rdme otrecv_new]. rewrite E1. cbn [bind fst snd rdme]. rewrite E0. cbn [bind fst snd].
    do 2 eexists. reflexivity.
  Qed.

  (** a receiver that first selects branch 1, then branch 0, gets message 0 of a sender with the same CRS *)
  Lemma L_C35_case c c' : live c = true -> live c' = true ->
    exists D R pk S' c0 c1, dme_new dbg live c messy 2 3 1 2 = Ok D /\
      recv_run (otrecv_new D, None) [Select 1 5; Select 0 2] = Ok (R, Some pk) /\
      encMsgs dbg live (otsndr_new (dme_new_crs c' (dcrs D))) pk (gen CV c') (pt_inf CV) 1 1 3 4 = Ok (S', [c0; c1]) /\
      yields live CV (decryptMsg dbg live R [c0; c1]) (ggen CV).
  Proof.
    intros L L'. destruct (case_new c L) as [D [E K]]. destruct (case_copy D c c' L' K) as [OS SC].
    pose proof K as [OK [A [B [A' B']]]]. pose proof (gen_rf live c' L') as G. destruct (case_run D OK) as [R [pk ER]].
    destruct (L_C35 D _ R pk 0 2 (otsndr_new (dme_new_crs c' (dcrs D))) (gen CV c') (pt_inf CV) 1 1 3 4 OK ER eq_refl (or_introl eq_refl) OS SC (proj1 G) (or_introl eq_refl))
      as [S' [c0 [c1 [us [EE [EU [H C]]]]]]].
    exists D, R, pk, S', c0, c1. split; [exact E|]. split; [exact ER|]. split; [exact EE|].
    destruct (C 1%Z 2%Z 1%Z A A' G) as [C1 C2]. apply H.
    - apply not_true_is_false. rewrite C1. small.
    - apply not_true_is_false. rewrite C2. small.
  Qed.

  (** three senders *)
  Lemma L_C36_case c c' : live c = true -> live c' = true ->
    exists D R pk vs c0 c1, dme_new dbg live c messy 2 3 1 2 = Ok D /\
      recv_run (otrecv_new D, None) [Select 1 5; Select 0 2] = Ok (R, Some pk) /\
      mapM (send dbg live pk) (map (fun i => mksender (otsndr_new (dme_new_crs c' (dcrs D))) (gen CV c') (pt_inf CV) i 1 i 2) [1; 2; 3]%Z) = Ok vs /\
      aggregate dbg live vs = Ok [c0; c1] /\
      yields live CV (decryptMsg dbg live R [c0; c1]) (total [gen CV c'; gen CV c'; gen CV c']).
  Proof.
    intros L L'. destruct (case_new c L) as [D [E K]]. destruct (case_copy D c c' L' K) as [OS SC].
    pose proof K as [OK [A [B [A' B']]]]. pose proof (gen_rf live c' L') as G. destruct (case_run D OK) as [R [pk ER]].
    set (xs := map (fun i => mksender (otsndr_new (dme_new_crs c' (dcrs D))) (gen CV c') (pt_inf CV) i 1 i 2) [1; 2; 3]%Z).
    destruct (L_C36 D _ _ R pk 0 2 xs OK eq_refl ER eq_refl (or_introl eq_refl)) as [vs [c0 [c1 [us [EM [EA [EU [H C]]]]]]]].
    { discriminate. }
    { assert (SO : forall i, sender_ok live D (mksender (otsndr_new (dme_new_crs c' (dcrs D))) (gen CV c') (pt_inf CV) i 1 i 2)).
      { intros i. split; [exact OS|]. split; [exact SC|]. split; [exact (proj1 G)|left; reflexivity]. }
      unfold xs. cbn [map]. constructor; [apply SO|]. constructor; [apply SO|]. constructor; [apply SO|]. constructor. }
    exists D, R, pk, vs, c0, c1. split; [exact E|]. split; [exact ER|]. split; [exact EM|]. split; [exact EA|].
    destruct (C 1%Z 2%Z [1; 1; 1]%Z A A') as [C1 C2]. { unfold xs. cbn [map]. constructor; [exact G|]. constructor; [exact G|]. constructor; [exact G|]. constructor. }
    apply H.
    - apply not_true_is_false. rewrite C1. small.
    - apply not_true_is_false. rewrite C2. small.
  Qed.
End Ot.
