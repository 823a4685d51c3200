(** Proofs about how many draws make decryption fail. *)
From Coq Require Import ZArith Znumtheory Bool List Lia Field.
From Verif Require Import Outcome FieldModel ZpField SpecField FieldProofs ECGroup ECOrder CurveParams CurveFacts EccModel EccProofs SpecEcc EccThms Emb RF DmeModel SpecDme DmeProofs OtModel SpecOt OtProofs SpecDraw ElgamalModel SpecElgamal ElgamalProofs.
Import ListNotations.
Open Scope Z_scope.

Section Draws.
  Variables (dbg : bool) (live : Z -> bool).
  Notation n := (fieldn CV).
  Let Hn : prime n := prime_n CV good_CV.
  Let HF := field_Fp n Hn.
  Add Field DrawField : HF.
  Notation F := (Fp n).
  Notation rf := (rf live CV).
  Notation em := (em n).
  Notation mk := (mk n).
  Notation drf := (drf live).
  Notation val_rf := (val_rf live).
  Notation rf_val := (rf_val live).
  Infix "+" := (fadd n).
  Infix "*" := (fmul n).
  Infix "-" := (fsub n).
  Notation "'O'" := (f0 n).

  (** ** When decryption is right *)
  Lemma Dec_bad c u k z P : rf (cu c) u -> rf (cmv c) (k * u + z) -> rf P z -> k * u = O \/ k * u + z = O ->
    ~ yields live CV (Dec dbg live (em k) c) (den CV P).
  Proof.
    intros U W M H [R [ER [VR DR]]]. revert ER. unfold Dec.
    destruct (pmul_rf dbg live CV good_CV _ _ k U) as [us [-> Ku]]. cbn [bind].
    assert (CI : forall Q, EccModel.psub dbg live CV (pt_inf CV) Q =
        if dbg then Err NullDeref else do ny <- fe_sub dbg (fieldp CV) (fe_new (fieldp CV) 0) (py Q);
           Ok (pt_fe (px Q) ny None)).
    { intros Q. unfold EccModel.psub, assert_same_curve. destruct dbg; [reflexivity|]. cbn [bind].
      destruct (fe_sub _ _ _ _); reflexivity. }
    destruct (pinf (cmv c)) eqn:Iw.
    - apply (rf_pinf live CV good_CV _ _ W) in Iw. rewrite Iw in W. apply (rf_zero live CV good_CV) in W. rewrite W, CI.
      destruct dbg; [discriminate|].
      assert (CY : canon (fieldp CV) (py us)).
      { destruct (rf_val _ _ Ku) as [-> | FV]; [apply canon_default; reflexivity|apply FV]. }
      rewrite fe_sub_ok; [|reflexivity|apply canon_new; reflexivity|exact CY]. cbn [bind]. intros E. apply Ok_inj in E. subst R.
      destruct VR as [F|F]; [discriminate F|]. destruct F as [_ [_ [_ [[c0 [F _]] _]]]]. discriminate F.
    - destruct H as [H|H]; [|apply (rf_pinf_false live CV good_CV _ _ W) in Iw; contradiction].
      rewrite H in Ku. apply (rf_zero live CV good_CV) in Ku. subst us.
      assert (W' : rf (cmv c) z) by (apply (rf_cong live CV _ _ _ W); rewrite H; ring).
      assert (FW : finite live (cmv c)).
      { apply (rf_finite live CV good_CV _ z W'). apply (rf_pinf_false live CV good_CV _ _ W'). exact Iw. }
      destruct dbg eqn:Ed.
      + rewrite (L_C14_minus_inf_debug true live CV good_CV (cmv c)); [discriminate|right; exact FW|reflexivity].
      + destruct (L_C14_minus_inf_release false live CV good_CV (cmv c) FW eq_refl) as [R' [ER NR]]. rewrite ER. intros E.
        apply Ok_inj in E. subst R'. apply NR. unfold same_point. rewrite DR.
        apply (same_rf live P (cmv c) z z M W'). reflexivity.
  Qed.

  Lemma Dec_exact c u k z P : rf (cu c) u -> rf (cmv c) (k * u + z) -> rf P z ->
    (yields live CV (Dec dbg live (em k) c) (den CV P) <-> k * u <> O /\ k * u + z <> O).
  Proof.
    intros U W M. split.
    - intros Y. split; intros H; revert Y; apply (Dec_bad c u k z P U W M); [left|right]; exact H.
    - intros [N1 N2]. destruct (Dec_rf dbg live _ _ _ k U W N1 N2) as [R [ER KR]].
      apply (yields_rf live _ R z P ER); [|exact M]. apply (rf_cong live CV _ _ _ KR). ring.
  Qed.

  (** ** One unknown *)
  Lemma solve_mul (a c e : F) : a <> O -> exists t0, draw t0 /\ forall t, draw t -> (mk t * a + c = e <-> t = t0).
  Proof.
    intros A. exists (val n ((e - c) * finv n a)). split; [apply val_draw|]. intros t T. split.
    - intros E. rewrite <- (draw_val t T). f_equal. rewrite <- E. field. exact A.
    - intros ->. assert (V : forall x, mk (val n x) = x) by (intros x; apply mk_val). rewrite V. field. exact A.
  Qed.

  (** the two values of a draw that spoil a ciphertext *)
  Lemma two_draws (k g h s z : F) : k <> O -> h <> O ->
    exists t0 t1, draw t0 /\ draw t1 /\ (t0 = t1 <-> z = O) /\
      forall t, draw t -> (k * (s * g + mk t * h) <> O /\ k * (s * g + mk t * h) + z <> O <-> t <> t0 /\ t <> t1).
  Proof.
    intros NK NH. assert (A : k * h <> O) by (intros E; apply fmul_0 in E; [destruct E; contradiction|exact Hn]).
    destruct (solve_mul (k * h) (k * (s * g)) O A) as [t0 [D0 H0]].
    destruct (solve_mul (k * h) (k * (s * g) + z) O A) as [t1 [D1 H1]].
    exists t0, t1. split; [exact D0|]. split; [exact D1|]. split.
    - pose proof (proj2 (H0 t0 D0) eq_refl) as E0. pose proof (proj2 (H1 t1 D1) eq_refl) as E1. split.
      + intros <-. replace z with (mk t0 * (k * h) + (k * (s * g) + z) - (mk t0 * (k * h) + k * (s * g))) by ring. rewrite E0, E1. ring.
      + intros Z. apply (H1 t0 D0). rewrite Z. transitivity (mk t0 * (k * h) + k * (s * g)); [ring|exact E0].
    - intros t T. rewrite <- (H0 t T), <- (H1 t T).
      replace (k * (s * g + mk t * h)) with (mk t * (k * h) + k * (s * g)) by ring.
      replace (mk t * (k * h) + (k * (s * g) + z)) with (mk t * (k * h) + k * (s * g) + z) by ring. reflexivity.
  Qed.

  (** ** Dual-mode encryption *)
  Lemma pick_h b D c a0 a1 b0 b1 : branch b -> drf D c a0 a1 b0 b1 -> rf (crs_h b (dcrs D)) (pick b b0 b1).
  Proof. intros [-> | ->] K; [exact (dr_h0 _ _ _ _ _ _ _ K)|exact (dr_h1 _ _ _ _ _ _ _ K)]. Qed.
  Lemma fin_nz P z : finite live P -> rf P z -> z <> O.
  Proof. intros FI K. destruct (fin_rf live P FI) as [z' [K' N]]. rewrite (rf_fun live CV good_CV _ _ _ K K'). exact N. Qed.
  Lemma nz r : ~ (order | r) -> mk r <> O.
  Proof. intros N E. apply N. apply mk_order_0. exact E. Qed.

  Lemma L_C90_dme D b r s m : dme_ok live D -> branch b -> finite live (crs_h b (dcrs D)) -> ~ (order | r) -> is_valid live m ->
    exists t0 t1, draw t0 /\ draw t1 /\ (t0 = t1 <-> pinf m = true) /\
      forall t, draw t -> exists kp c, KeyGen dbg live D b r = Ok kp /\ Enc dbg live D (kpk kp) b m s t = Ok c /\
        (yields live CV (Dec dbg live (ksk kp) c) (den CV m) <-> t <> t0 /\ t <> t1).
  Proof.
    intros OK Hb FH NR V. destruct (ok_drf live D OK) as [cc [a0 [a1 [b0 [b1 K]]]]]. destruct (val_rf m V) as [z M].
    destruct (two_draws (mk r) (pick b a0 a1) (pick b b0 b1) (mk s) z (nz r NR) (fin_nz _ _ FH (pick_h b D _ _ _ _ _ Hb K))) as [t0 [t1 [D0 [D1 [EQ H]]]]].
    exists t0, t1. split; [exact D0|]. split; [exact D1|]. split; [rewrite (rf_pinf live CV good_CV _ _ M); exact EQ|].
    intros t T. destruct (KeyGen_rf dbg live D cc a0 a1 b0 b1 b r K Hb) as [kp [E [X [Y SK]]]].
    destruct (Enc_rf dbg live D cc a0 a1 b0 b1 b (kpk kp) _ _ m z s t K Hb X Y M) as [c [E' [U W]]].
    exists kp, c. split; [exact E|]. split; [exact E'|]. rewrite SK.
    rewrite (Dec_exact c _ (mk r) z m U); [exact (H t T)| |exact M]. apply (rf_cong live CV _ _ _ W). ring.
  Qed.

  Lemma L_C90_key D b r s t m : dme_ok live D -> branch b -> (order | r) -> is_valid live m ->
    exists kp c, KeyGen dbg live D b r = Ok kp /\ Enc dbg live D (kpk kp) b m s t = Ok c /\
      ~ yields live CV (Dec dbg live (ksk kp) c) (den CV m).
  Proof.
    intros OK Hb NR V. destruct (ok_drf live D OK) as [cc [a0 [a1 [b0 [b1 K]]]]]. destruct (val_rf m V) as [z M].
    destruct (KeyGen_rf dbg live D cc a0 a1 b0 b1 b r K Hb) as [kp [E [X [Y SK]]]].
    destruct (Enc_rf dbg live D cc a0 a1 b0 b1 b (kpk kp) _ _ m z s t K Hb X Y M) as [c [E' [U W]]].
    exists kp, c. split; [exact E|]. split; [exact E'|]. rewrite SK. apply (Dec_bad c _ (mk r) z m U); [|exact M|].
    - apply (rf_cong live CV _ _ _ W). ring.
    - left. apply mk_order_0 in NR. rewrite NR. ring.
  Qed.

  (** ** Oblivious transfer *)
  Lemma L_C90_ot D h R pk b r S m0 m1 s0 s1 u : dme_ok live D -> finite live (crs_h b (dcrs D)) ->
    recv_run dbg live (otrecv_new D, None) h = Ok (R, Some pk) -> last_selection h = Some (Select b r) -> branch b -> ~ (order | r) ->
    dme_ok live (sdme S) -> same_crs (dcrs (sdme S)) (dcrs D) -> is_valid live m0 -> is_valid live m1 ->
    let m := if b =? 0 then m0 else m1 in
    exists t0 t1, draw t0 /\ draw t1 /\ (t0 = t1 <-> pinf m = true) /\
      forall t, draw t ->
        exists S' cs, encMsgs dbg live S pk m0 m1 s0 (if b =? 0 then t else u) s1 (if b =? 0 then u else t) = Ok (S', cs) /\
          (yields live CV (decryptMsg dbg live R cs) (den CV m) <-> t <> t0 /\ t <> t1).
  Proof.
    intros OK FH ER LS Hb NR OS SC V0 V1 m. destruct (run_state dbg live _ _ _ ER) as [_ I]. rewrite LS in I. cbn [fst rdme otrecv_new] in I.
    destruct I as [kp [EK I]]. injection I as -> ->.
    destruct (ok_drf live D OK) as [c [a0 [a1 [b0 [b1 K]]]]]. destruct (same_drf live _ _ _ _ _ _ _ K OS SC) as [c' K'].
    destruct (KeyGen_rf dbg live D c _ _ _ _ b r K Hb) as [kp' [EK' [X [Y SK]]]]. rewrite EK in EK'. apply Ok_inj in EK'. subst kp'.
    destruct (val_rf _ V0) as [z0 M0], (val_rf _ V1) as [z1 M1]. pose proof (pick_branch live b m0 m1 _ _ Hb M0 M1) as M. fold m in M.
    destruct (two_draws (mk r) (pick b a0 a1) (pick b b0 b1) (mk (if b =? 0 then s0 else s1)) (pick b z0 z1) (nz r NR) (fin_nz _ _ FH (pick_h b D _ _ _ _ _ Hb K)))
      as [t0 [t1 [D0 [D1 [EQ H]]]]].
    exists t0, t1. split; [exact D0|]. split; [exact D1|]. split; [rewrite (rf_pinf live CV good_CV _ _ M); exact EQ|].
    intros t T.
    destruct (encMsgs_rf dbg live S c' _ _ _ _ _ _ _ m0 m1 z0 z1 s0 (if b =? 0 then t else u) s1 (if b =? 0 then u else t) K' X Y M0 M1)
      as [S' [c0 [c1 [EE [_ [_ [_ [U0 [W0 [U1 W1]]]]]]]]]].
    exists S', [c0; c1]. split; [exact EE|]. unfold decryptMsg, chosen. cbn [rbr rsk]. rewrite (vat_pick b c0 c1 Hb). cbn [bind]. rewrite SK.
    rewrite (Dec_exact (if b =? 0 then c0 else c1) (mk (if b =? 0 then s0 else s1) * pick b a0 a1 + mk t * pick b b0 b1) (mk r) (pick b z0 z1) m); [exact (H t T)| | |exact M].
    - destruct Hb as [-> | ->]; unfold pick; cbn [Z.eqb] in *; assumption.
    - destruct Hb as [-> | ->]; unfold pick; cbn [Z.eqb] in *; [apply (rf_cong live CV _ _ _ W0)|apply (rf_cong live CV _ _ _ W1)]; unfold pick; cbn [Z.eqb]; ring.
  Qed.

  (** ** Distributed transfer *)
  Lemma agg_core D h R pk b r xs c a0 a1 b0 b1 : drf D c a0 a1 b0 b1 ->
    recv_run dbg live (otrecv_new D, None) h = Ok (R, Some pk) -> last_selection h = Some (Select b r) -> branch b ->
    xs <> [] -> Forall (sender_ok live D) xs -> forall T z, rf T z -> den CV T = total (map (snd_msg b) xs) ->
    exists vs cs ct, mapM (send dbg live pk) xs = Ok vs /\ aggregate dbg live vs = Ok cs /\ decryptMsg dbg live R cs = Dec dbg live (em (mk r)) ct /\
      let u := mk (sumz (map (snd_s b) xs)) * pick b a0 a1 + mk (sumz (map (snd_t b) xs)) * pick b b0 b1 in
      rf (cu ct) u /\ rf (cmv ct) (mk r * u + z).
  Proof.
    intros K ER LS Hb NE FS T z0 KT DT. destruct (run_state dbg live _ _ _ ER) as [_ I]. rewrite LS in I. cbn [fst rdme otrecv_new] in I.
    destruct I as [kp [EK I]]. injection I as -> ->.
    destruct (KeyGen_rf dbg live D c _ _ _ _ b r K Hb) as [kp' [EK' [X [Y SK]]]]. rewrite EK in EK'. apply Ok_inj in EK'. subst kp'.
    set (A := pick b a0 a1) in *. set (B := pick b b0 b1) in *.
    assert (S : exists vs zs, mapM (send dbg live (kpk kp)) xs = Ok vs /\ Forall2 (good_pair live (mk r) b) vs zs /\
        Forall2 rf (map (snd_msg b) xs) (map fst zs) /\
        zsum (map snd zs) = mk (sumz (map (snd_s b) xs)) * A + mk (sumz (map (snd_t b) xs)) * B).
    { clear NE DT KT. induction FS as [|x xs Hx _ [vs [zs [E [G [M U]]]]]].
      - exists [], []. split; [reflexivity|]. split; [constructor|]. split; [constructor|]. cbn [map zsum sumz fold_right]. change (mk 0) with O. ring.
      - destruct Hx as [OS [SC [V0 V1]]]. destruct (same_drf live _ _ _ _ _ _ _ K OS SC) as [c' K'].
        destruct (val_rf _ V0) as [z1 M0], (val_rf _ V1) as [z2 M1].
        destruct (encMsgs_rf dbg live (snd_o x) c' _ _ _ _ _ _ _ _ _ z1 z2 (snd_s0 x) (snd_t0 x) (snd_s1 x) (snd_t1 x) K' X Y M0 M1)
          as [S' [c0 [c1 [EE [_ [_ [_ [U0 [W0 [U1 W1]]]]]]]]]].
        exists ([c0; c1] :: vs), ((pick b z1 z2, mk (snd_s b x) * A + mk (snd_t b x) * B) :: zs). split; [|split; [|split]].
        + cbn [mapM]. unfold send at 1. rewrite EE. cbn [bind snd]. rewrite E. reflexivity.
        + constructor; [|exact G]. do 6 eexists. split; [reflexivity|]. split; [exact U0|]. split; [exact U1|]. split; [exact W0|]. split; [exact W1|].
          cbn [fst snd]. unfold A, B, snd_s, snd_t. destruct Hb as [-> | ->]; unfold pick; cbn [Z.eqb]; split; ring.
        + constructor; [apply pick_branch; assumption|exact M].
        + cbn [map zsum sumz fold_right snd]. rewrite U, <- !mk_add. unfold sumz. ring. }
    destruct S as [vs [zs [E [G [M SU]]]]].
    destruct (total_rf dbg live _ _ M) as [T' [KT' DT']].
    assert (EZ : zsum (map fst zs) = z0) by (apply (same_rf live T' T _ _ KT' KT); unfold same_point; rewrite DT, DT'; reflexivity).
    destruct xs as [|x xs]; [contradiction|]. destruct zs as [|z zs']; [inversion M|]. inversion G as [|v ? vs' ? Hv Gv]; subst.
    pose proof Hv as [c0 [c1 [_ [_ [_ [_ [-> _]]]]]]].
    destruct (agg_fold dbg live (mk r) b Hb _ _ Gv c0 c1 z Hv) as [cc [Ec Gc]].
    destruct Gc as [d0 [d1 [u0 [u1 [w0 [w1 [Ed [U0 [U1 [W0 [W1 [P Q]]]]]]]]]]]]. injection Ed as Ed0 Ed1.
    change (fst (pairsum z zs')) with (zsum (map fst (z :: zs'))) in P.
    change (snd (pairsum z zs')) with (zsum (map snd (z :: zs'))) in Q.
    exists ([c0; c1] :: vs'), [d0; d1], (if b =? 0 then d0 else d1). split; [exact E|]. split; [|split].
    { unfold aggregate. change (vat ([c0; c1] :: vs') 0) with (@Ok (list ctxt) [c0; c1]). cbn [bind].
      change (vat [c0; c1] 0) with (@Ok ctxt c0). cbn [bind]. change (vat [c0; c1] 1) with (@Ok ctxt c1). cbn [bind tl].
      rewrite Ec. cbn [bind]. rewrite Ed0, Ed1. reflexivity. }
    { unfold decryptMsg, chosen. cbn [rbr rsk]. rewrite (vat_pick b d0 d1 Hb). cbn [bind]. rewrite SK. reflexivity. }
    cbv zeta. rewrite <- SU, <- Q. destruct Hb as [-> | ->]; unfold pick in *; cbn [Z.eqb] in *; rewrite <- P; split; assumption.
  Qed.

  Lemma L_C90_dot D h R pk b r xs1 x xs2 : dme_ok live D -> finite live (crs_h b (dcrs D)) ->
    recv_run dbg live (otrecv_new D, None) h = Ok (R, Some pk) -> last_selection h = Some (Select b r) -> branch b -> ~ (order | r) ->
    Forall (sender_ok live D) (xs1 ++ x :: xs2) ->
    let all t := xs1 ++ with_draw b x t :: xs2 in let m := total (map (snd_msg b) (xs1 ++ x :: xs2)) in
    exists t0 t1, draw t0 /\ draw t1 /\ (t0 = t1 <-> m = None) /\
      forall t, draw t -> exists vs cs, mapM (send dbg live pk) (all t) = Ok vs /\ aggregate dbg live vs = Ok cs /\
        (yields live CV (decryptMsg dbg live R cs) m <-> t <> t0 /\ t <> t1).
  Proof.
    intros OK FH ER LS Hb NR FS all m. destruct (ok_drf live D OK) as [c [a0 [a1 [b0 [b1 K]]]]].
    assert (MM : forall t, map (snd_msg b) (all t) = map (snd_msg b) (xs1 ++ x :: xs2)).
    { intros t. unfold all. rewrite !map_app. cbn [map]. apply (f_equal (app (map (snd_msg b) xs1))). destruct Hb as [-> | ->]; reflexivity. }
    assert (TT : exists T z, rf T z /\ den CV T = m).
    { unfold m. clear MM. generalize dependent (xs1 ++ x :: xs2). induction l as [|y l IH]; intros FL.
      - exists (pt_inf CV), O. split; [apply (rf_inf live CV good_CV)|reflexivity].
      - inversion FL as [|? ? [_ [_ [V0 V1]]] FL']; subst. destruct (IH FL') as [T [z [KT DT]]].
        assert (VY : is_valid live (snd_msg b y)) by (destruct Hb as [-> | ->]; assumption).
        destruct (val_rf _ VY) as [w KY]. destruct (padd_rf dbg live CV good_CV _ _ _ _ KY KT) as [Q [EQ KQ]]. exists Q, (w + z). split; [exact KQ|].
        destruct (proj1 (L_C08 dbg live CV good_CV _ T VY (rf_val _ _ KT))) as [Q' [EQ' [_ DQ']]].
        rewrite EQ in EQ'. apply Ok_inj in EQ'. subst Q'. rewrite DQ', DT. reflexivity. }
    destruct TT as [T [z [KT DT]]].
    assert (SS : exists s, forall t, sumz (map (snd_s b) (all t)) = s).
    { exists (sumz (map (snd_s b) (xs1 ++ x :: xs2))). intros t. unfold all. rewrite !map_app. cbn [map]. do 2 f_equal. f_equal. destruct Hb as [-> | ->]; reflexivity. }
    destruct SS as [s SS].
    assert (ST : exists t', forall t, sumz (map (snd_t b) (all t)) = (t + t')%Z).
    { exists (sumz (map (snd_t b) (xs1 ++ xs2))). intros t. unfold all. rewrite !map_app. cbn [map].
      assert (SA : forall l l', sumz (l ++ l') = (sumz l + sumz l')%Z) by (induction l as [|y l IH]; intros l'; cbn [app sumz fold_right]; [reflexivity|]; change (fold_right Z.add 0 (l ++ l')) with (sumz (l ++ l')); rewrite IH; unfold sumz; lia).
      rewrite !SA. replace (snd_t b (with_draw b x t)) with t by (destruct Hb as [-> | ->]; reflexivity). unfold sumz. cbn [fold_right]. lia. }
    destruct ST as [t' ST].
    destruct (two_draws (mk r) (f1 n) (pick b b0 b1) (mk s * pick b a0 a1 + mk t' * pick b b0 b1) z (nz r NR) (fin_nz _ _ FH (pick_h b D _ _ _ _ _ Hb K))) as [t0 [t1 [D0 [D1 [EQ H]]]]].
    exists t0, t1. split; [exact D0|]. split; [exact D1|]. split.
    { rewrite EQ, <- DT, <- (rf_pinf live CV good_CV _ _ KT). unfold den. destruct (pinf T); split; intros; first [reflexivity|discriminate]. }
    intros t TD.
    destruct (agg_core D h R pk b r (all t) c a0 a1 b0 b1 K ER LS Hb) with (T := T) (z := z) as [vs [cs [ct [E1 [E2 [E3 [U W]]]]]]].
    - unfold all. destruct xs1; discriminate.
    - unfold all. apply Forall_app in FS. destruct FS as [F1 F2]. inversion F2 as [|? ? FX F3]; subst. apply Forall_app. split; [exact F1|]. constructor; [|exact F3].
      destruct Hb as [-> | ->]; exact FX.
    - exact KT.
    - rewrite DT, MM. reflexivity.
    - exists vs, cs. split; [exact E1|]. split; [exact E2|]. rewrite E3, <- DT. cbv zeta in U, W. rewrite SS, ST, <- mk_add in U, W.
      set (u := mk s * pick b a0 a1 + (mk t + mk t') * pick b b0 b1) in *. rewrite (Dec_exact ct u (mk r) z T U W KT).
      rewrite <- (H t TD). replace ((mk s * pick b a0 a1 + mk t' * pick b b0 b1) * f1 n + mk t * pick b b0 b1) with u by (unfold u; ring). reflexivity.
  Qed.

  (** ** ElGamal *)
  Lemma L_C90_elgamal E sk pk P : elgamal_ok live E -> scal sk -> multiple live pk (fval sk) -> fval sk <> 0 -> is_valid live P ->
    exists r1, draw r1 /\ (r1 = 0 <-> pinf P = true) /\
      forall r, draw r -> exists c, eg_encrypt dbg live E pk P r = Ok c /\
        (dbg = true -> (eg_decrypt dbg live sk c = Ok (fval (px P) / 1048576) <-> r <> 0 /\ r <> r1)) /\
        (dbg = false -> r <> 0 -> eg_decrypt dbg live sk c = Ok (fval (px P) / 1048576)).
  Proof.
    intros OK S K NS V. destruct (val_rf P V) as [z M].
    assert (A : mk (fval sk) <> O).
    { apply nz. intros DV. assert (B : 0 <= fval sk < order) by (rewrite order_eq; apply S). apply Z.divide_pos_le in DV; lia. }
    destruct (solve_mul (mk (fval sk)) z O A) as [r1 [D1 H1]]. exists r1. split; [exact D1|].
    assert (D0 : draw 0) by (unfold draw; split; [lia|reflexivity]). split.
    { rewrite (rf_pinf live CV good_CV _ _ M). split.
      - intros ->. pose proof (proj2 (H1 0 D0) eq_refl) as E0. rewrite <- E0. change (mk 0) with O. ring.
      - intros Z0. symmetry. apply (H1 0 D0). rewrite Z0. change (mk 0) with O. ring. }
    intros r DR. destruct (L_C55_decrypts dbg live E sk pk P r OK S K V) as [c [us [EE [CV' [EU [DC [C1 C2]]]]]]].
    destruct (L_C55_degenerate dbg live E sk pk P r c us OK S K V EE EU) as [G1 [G2 _]].
    exists c. split; [exact EE|].
    assert (I1 : pinf us = true <-> r = 0).
    { rewrite C1, <- (mk_order_0). rewrite <- mk_mul. split.
      - intros H. apply fmul_0 in H; [|exact Hn]. destruct H as [H|H]; [|contradiction]. apply mk_order_0 in H.
        destruct (Z.eq_dec r 0) as [->|N]; [reflexivity|]. apply Z.divide_pos_le in H; unfold draw in DR; lia.
      - intros ->. change (mk 0) with O. ring. }
    assert (I2 : pinf (cmv c) = true <-> r = r1).
    { rewrite <- (H1 r DR). assert (MV : multiple live P (val n z)).
      { apply multiple_rf. rewrite mk_val. exact M. }
      rewrite (C2 _ MV), <- mk_order_0, <- mk_add, <- mk_mul, mk_val. reflexivity. }
    split.
    - intros Dt. specialize (G1 Dt). split.
      + intros Y. split; intros Er; [apply I1 in Er|apply I2 in Er]; rewrite G1 in Y by (first [left; exact Er|right; exact Er]); discriminate Y.
      + intros [N0 N1]. apply DC.
        * destruct (pinf us); [exfalso; apply N0; apply I1; reflexivity|reflexivity].
        * destruct (pinf (cmv c)); [exfalso; apply N1; apply I2; reflexivity|reflexivity].
    - intros Df N0. destruct (pinf (cmv c)) eqn:Iw; [apply G2; [exact Df|reflexivity]|]. apply DC; [|reflexivity].
      destruct (pinf us); [exfalso; apply N0; apply I1; reflexivity|reflexivity].
  Qed.

  (** ** Reference strings *)
  Lemma mult_fin P k : multiple live P k -> (finite live P <-> ~ (order | k)).
  Proof.
    intros M. apply (multiple_rf live) in M. rewrite <- mk_order_0. split.
    - intros FI. exact (fin_nz P _ FI M).
    - intros N. exact (rf_finite live CV good_CV _ _ M N).
  Qed.
  Lemma div_mul a c : (order | (a * c)%Z) <-> (order | a) \/ (order | c).
  Proof.
    split; [|intros [H|H]; [apply Z.divide_mul_l|apply Z.divide_mul_r]; exact H].
    intros H. apply prime_mult in H; [exact H|]. rewrite order_eq. exact Hn.
  Qed.
  Lemma L_C90_crs c mu r1 r2 r3 r4 : live c = true -> exists D, dme_new dbg live c mu r1 r2 r3 r4 = Ok D /\
    (finite live (g0 (dcrs D)) /\ finite live (g1 (dcrs D)) /\ finite live (h0 (dcrs D)) /\ finite live (h1 (dcrs D)) <->
     ~ (order | r1) /\ ~ (order | r2) /\ ~ (order | r3) /\ (mu = messy -> ~ (order | r4))).
  Proof.
    intros L. destruct (L_C26_logs dbg live c mu r1 r2 r3 r4 L) as [D [E [_ H]]]. exists D. split; [exact E|]. destruct mu.
    - destruct H as [A [B [A' B']]]. rewrite (mult_fin _ _ A), (mult_fin _ _ B), (mult_fin _ _ A'), (mult_fin _ _ B'), !div_mul. intuition.
    - destruct H as [A [B [A' B']]]. rewrite (mult_fin _ _ A), (mult_fin _ _ B), (mult_fin _ _ A'), (mult_fin _ _ B'), !div_mul. intuition discriminate.
  Qed.

  (** ** Concrete cases *)
  Ltac small := apply ndiv; split; vm_compute; reflexivity.
  Lemma case90_dme c : live c = true ->
    exists D kp ct, dme_new dbg live c messy 2 3 1 2 = Ok D /\ dme_ok live D /\ finite live (crs_h 0 (dcrs D)) /\ ~ (order | 2) /\
      KeyGen dbg live D 0 2 = Ok kp /\ Enc dbg live D (kpk kp) 0 (gen CV c) 1 ((order - 1) / 2) = Ok ct /\
      ~ yields live CV (Dec dbg live (ksk kp) ct) (ggen CV).
  Proof.
    intros L. destruct (case_new dbg live c L) as [D [E [OK [A [B [A' B']]]]]]. pose proof (gen_rf live c L) as G.
    destruct (L_C26_condition dbg live D 0 2 1 ((order - 1) / 2) (gen CV c) _ _ _ _ _ OK (or_introl eq_refl) A B A' B' G) as [kp [ct [us [EK [EE [EU [C1 C2]]]]]]].
    exists D, kp, ct. split; [exact E|]. split; [exact OK|]. split; [apply (mult_fin _ _ A'); small|]. split; [small|]. split; [exact EK|]. split; [exact EE|].
    destruct (L_C27 dbg live D 0 2 1 ((order - 1) / 2) (gen CV c) kp ct us OK (or_introl eq_refl) (proj1 G) EK EE EU) as [_ H].
    assert (I : pinf us = true) by (apply C1; exists 2; vm_compute; reflexivity).
    specialize (H (or_introl I)). intros [R [ER [VR DR]]]. rewrite ER in H. destruct dbg; [discriminate H|].
    destruct H as [R' [E' N]]. apply Ok_inj in E'. subst R'. apply N. split; [exact VR|]. unfold same_point. rewrite DR. reflexivity.
  Qed.

  Lemma case90_transfer c c' : live c = true -> live c' = true ->
    exists D R pk, dme_new dbg live c messy 2 3 1 2 = Ok D /\ dme_ok live D /\ finite live (crs_h 0 (dcrs D)) /\ ~ (order | 2) /\
      recv_run dbg live (otrecv_new D, None) [Select 1 5; Select 0 2] = Ok (R, Some pk) /\
      last_selection [Select 1 5; Select 0 2] = Some (Select 0 2) /\
      sender_ok live D (mksender (otsndr_new (dme_new_crs c' (dcrs D))) (gen CV c') (pt_inf CV) 1 1 1 2).
  Proof.
    intros L L'. destruct (case_new dbg live c L) as [D [E K]]. destruct (case_copy live D c c' L' K) as [OS SC].
    pose proof K as [OK [A [B [A' B']]]]. destruct (case_run dbg live D OK) as [R [pk ER]].
    exists D, R, pk. split; [exact E|]. split; [exact OK|]. split; [apply (mult_fin _ _ A'); small|]. split; [small|]. split; [exact ER|]. split; [reflexivity|].
    split; [exact OS|]. split; [exact SC|]. split; [exact (proj1 (gen_rf live c' L'))|left; reflexivity].
  Qed.
End Draws.

Lemma case90_elgamal live a : live a = true ->
  exists pk c, pmulz true live CV (gen CV a) 3 = Ok pk /\ fval (fe_new FIELD_n 3) <> 0 /\
    eg_encrypt true live (eg_new a) pk (gen CV a) ((order - 1) / 3) = Ok c /\ eg_decrypt true live (fe_new FIELD_n 3) c = Err NullDeref.
Proof.
  intros L. destruct (L_C55_case true live a L) as [pk [_ [EP [S [M _]]]]]. pose proof (gen_rf live a L) as G.
  destruct (L_C55_decrypts true live (eg_new a) _ pk (gen CV a) ((order - 1) / 3) (eg_new_ok live a L) S M (proj1 G)) as [c [us [EE [_ [EU [_ [_ C2]]]]]]].
  exists pk, c. split; [exact EP|]. split; [discriminate|]. split; [exact EE|].
  apply (proj1 (L_C55_degenerate true live (eg_new a) _ pk (gen CV a) _ c us (eg_new_ok live a L) S M (proj1 G) EE EU)); [reflexivity|].
  right. apply (C2 1 G). exists 1. vm_compute. reflexivity.
Qed.
