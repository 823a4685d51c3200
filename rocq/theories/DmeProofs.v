(** Proofs about dual-mode encryption. *)
From Coq Require Import ZArith Znumtheory Bool List Lia Field.
From Verif Require Import Outcome FieldModel ZpField SpecField FieldProofs ECGroup ECOrder CurveParams CurveFacts EccModel EccProofs SpecEcc EccThms Emb RF DmeModel SpecDme.
Import ListNotations.
Open Scope Z_scope.

Lemma good_CV : good CV.
Proof. exact good_secp256r1. Qed.
Lemma order_eq : order = fieldn CV.
Proof. symmetry. apply (n_eq CV good_CV). Qed.

Section Dme.
  Variables (dbg : bool) (live : Z -> bool).
  Notation n := (fieldn CV).
  Let Hn : prime n := prime_n CV good_CV.
  Let HF := field_Fp n Hn.
  Add Field DmeField : HF.
  Notation F := (Fp n).
  Notation rf := (rf live CV).
  Notation em := (em n).
  Notation mk := (mk n).
  Infix "+" := (fadd n).
  Infix "*" := (fmul n).
  Infix "-" := (fsub n).
  Notation "'O'" := (f0 n).

  Lemma val_rf P : is_valid live P -> exists z, rf P z.
  Proof. apply (valid_rf live CV good_CV). Qed.
  Lemma rf_val P z : rf P z -> is_valid live P.
  Proof. intros H. apply (valid_rf live CV good_CV). exists z; exact H. Qed.
  Lemma fin_rf P : finite live P -> exists z, rf P z /\ z <> O.
  Proof. apply (finite_rf live CV good_CV). Qed.

  Lemma mk_order_0 r : mk r = O <-> (order | r).
  Proof. rewrite order_eq. apply (mk_0_iff n Hn). Qed.
  Lemma mk_order_eq r s : mk r = mk s <-> (order | (r - s)%Z).
  Proof. apply (mkn_eq CV good_CV). Qed.
  Lemma draw_val r : draw r -> val n (mk r) = r.
  Proof. intros H. unfold draw in H. rewrite order_eq in H. cbn. apply Z.mod_small. exact H. Qed.
  Lemma val_draw z : draw (val n z).
  Proof. unfold draw. rewrite order_eq. apply (val_range n Hn). Qed.

  Ltac step :=
    match goal with
    | |- context [getRandomScalar live CV (Some ?c) ?d] => rewrite (getRandomScalar_em live CV c d) by assumption
    | |- context [getRandomPoint dbg live CV (Some ?c) ?d] =>
        let R := fresh "R" in let K := fresh "K" in
        destruct (getRandomPoint_rf dbg live CV good_CV c d) as [R [-> K]]; [assumption|]
    | H : RF.rf live CV ?P ?x |- context [EccModel.pmul dbg live CV ?P (Emb.em _ ?s)] =>
        let R := fresh "R" in let K := fresh "K" in
        destruct (pmul_rf dbg live CV good_CV P x s H) as [R [-> K]]
    | H : RF.rf live CV ?P ?x, H' : RF.rf live CV ?Q ?y |- context [EccModel.padd dbg live CV ?P ?Q] =>
        let R := fresh "R" in let K := fresh "K" in
        destruct (padd_rf dbg live CV good_CV P Q x y H H') as [R [-> K]]
    end; cbn [bind].
  Ltac fin := eexists; split; [reflexivity|]; cbn [cu cmv kpk ksk pg ph].

  (** ** Residues of an object *)
  Record drf (D : dme) (c : Z) (a0 a1 b0 b1 : F) : Prop := mkdrf {
    dr_cur : dcurve D = Some c; dr_live : live c = true;
    dr_g0 : rf (g0 (dcrs D)) a0; dr_g1 : rf (g1 (dcrs D)) a1; dr_h0 : rf (h0 (dcrs D)) b0; dr_h1 : rf (h1 (dcrs D)) b1 }.

  Lemma ok_drf D : dme_ok live D -> exists c a0 a1 b0 b1, drf D c a0 a1 b0 b1.
  Proof.
    intros [[c [E L]] [A [B [A' B']]]]. apply val_rf in A, B, A', B'.
    destruct A as [a0 A], B as [a1 B], A' as [b0 A'], B' as [b1 B']. exists c, a0, a1, b0, b1. constructor; assumption.
  Qed.
  Lemma drf_ok D c a0 a1 b0 b1 : drf D c a0 a1 b0 b1 -> dme_ok live D.
  Proof.
    intros [E L A B A' B']. split; [exists c; split; assumption|].
    repeat split; eapply rf_val; eassumption.
  Qed.

  Definition pick (b : branch_t) (x y : F) : F := if b =? 0 then x else y.

  Lemma KeyGen_rf D c a0 a1 b0 b1 b r : drf D c a0 a1 b0 b1 -> branch b ->
    exists kp, KeyGen dbg live D b r = Ok kp /\ rf (pg (kpk kp)) (mk r * pick b a0 a1) /\
      rf (ph (kpk kp)) (mk r * pick b b0 b1) /\ ksk kp = em (mk r).
  Proof.
    intros [E L A B A' B'] Hb. unfold KeyGen. rewrite E. step.
    destruct Hb as [-> | ->]; cbn [Z.eqb Pos.eqb]; repeat step; fin; repeat split; assumption.
  Qed.

  Lemma Enc_rf D c a0 a1 b0 b1 b pk x y m z r1 r2 : drf D c a0 a1 b0 b1 -> branch b ->
    rf (pg pk) x -> rf (ph pk) y -> rf m z ->
    exists ct, Enc dbg live D pk b m r1 r2 = Ok ct /\
      rf (cu ct) (mk r1 * pick b a0 a1 + mk r2 * pick b b0 b1) /\ rf (cmv ct) (mk r1 * x + mk r2 * y + z).
  Proof.
    intros [E L A B A' B'] Hb X Y M. unfold Enc. rewrite E. repeat step.
    destruct Hb as [-> | ->]; cbn [Z.eqb Pos.eqb]; repeat step; fin; split; assumption.
  Qed.

  Lemma Dec_rf ct u w k : rf (cu ct) u -> rf (cmv ct) w -> k * u <> O -> w <> O ->
    exists R, Dec dbg live (em k) ct = Ok R /\ rf R (w - k * u).
  Proof.
    intros U W N1 N2. unfold Dec. step. destruct (psub_rf dbg live CV good_CV _ _ _ _ W K N2 N1) as [R' [-> K']].
    eexists; split; [reflexivity|exact K'].
  Qed.

  Lemma same_rf P Q x y : rf P x -> rf Q y -> (same_point P Q <-> x = y).
  Proof. apply (rf_den_eq live CV good_CV). Qed.

  Lemma yields_rf r R z P : r = Ok R -> rf R z -> rf P z -> yields live CV r (den CV P).
  Proof.
    intros -> K H. exists R; split; [reflexivity|]. split; [exact (rf_val _ _ K)|].
    apply (same_rf R P z z K H). reflexivity.
  Qed.

  (** ** Constructors *)
  Lemma new_messy_rf c r1 r2 r3 r4 : live c = true ->
    exists D, dme_new dbg live c messy r1 r2 r3 r4 = Ok D /\ e0 (tdm D) = em (mk r1) /\ e1 (tdm D) = em (mk r2) /\
      drf D c (mk r3) (mk r4) (mk r1 * mk r3) (mk r2 * mk r4).
  Proof. intros L. unfold dme_new. repeat step. fin. repeat split; cbn; assumption. Qed.

  Lemma new_dec_rf c r1 r2 r3 r4 : live c = true ->
    exists D, dme_new dbg live c dec r1 r2 r3 r4 = Ok D /\ ty (tdd D) = em (mk r1) /\
      drf D c (mk r2) (mk r1 * mk r2) (mk r3 * mk r2) (mk r3 * (mk r1 * mk r2)).
  Proof. intros L. unfold dme_new. repeat step. fin. repeat split; cbn; assumption. Qed.

  Lemma new_random_rf c r1 r2 r3 r4 : live c = true ->
    exists D, dme_new_random dbg live c r1 r2 r3 r4 = Ok D /\ drf D c (mk r1) (mk r3) (mk r2) (mk r4).
  Proof. intros L. unfold dme_new_random. repeat step. fin. repeat split; cbn; assumption. Qed.

  Lemma L_new_ok c mu r1 r2 r3 r4 : live c = true ->
    (exists D, dme_new dbg live c mu r1 r2 r3 r4 = Ok D /\ dme_ok live D) /\
    (exists D, dme_new_random dbg live c r1 r2 r3 r4 = Ok D /\ dme_ok live D).
  Proof.
    intros L. split.
    - destruct mu.
      + destruct (new_messy_rf c r1 r2 r3 r4 L) as [D [E [_ [_ K]]]]. exists D; split; [exact E|exact (drf_ok _ _ _ _ _ _ K)].
      + destruct (new_dec_rf c r1 r2 r3 r4 L) as [D [E [_ K]]]. exists D; split; [exact E|exact (drf_ok _ _ _ _ _ _ K)].
    - destruct (new_random_rf c r1 r2 r3 r4 L) as [D [E K]]. exists D; split; [exact E|exact (drf_ok _ _ _ _ _ _ K)].
  Qed.

  Lemma set_curve_finite P c : live c = true -> finite all_alive P ->
    finite live (set_curve P (Some c)) /\ same_point (set_curve P (Some c)) P.
  Proof.
    intros L [I [X [Y [_ E]]]]. split; [|reflexivity]. split; [exact I|]. split; [exact X|]. split; [exact Y|].
    split; [exists c; split; [reflexivity|exact L]|exact E].
  Qed.

  Lemma L_new_crs c k : live c = true -> finite all_alive (g0 k) -> finite all_alive (g1 k) ->
    finite all_alive (h0 k) -> finite all_alive (h1 k) ->
    dme_ok live (dme_new_crs c k) /\ same_crs (dcrs (dme_new_crs c k)) k.
  Proof.
    intros L A B A' B'.
    destruct (set_curve_finite _ c L A) as [A1 A2], (set_curve_finite _ c L B) as [B1 B2],
      (set_curve_finite _ c L A') as [A1' A2'], (set_curve_finite _ c L B') as [B1' B2'].
    split.
    - split; [exists c; split; [reflexivity|exact L]|]. repeat split; right; assumption.
    - repeat split; assumption.
  Qed.

  (** ** C26, C27 *)
  Lemma L_C26 D b r r1 r2 m : dme_ok live D -> branch b -> is_valid live m ->
    exists kp c us, KeyGen dbg live D b r = Ok kp /\ Enc dbg live D (kpk kp) b m r1 r2 = Ok c /\
      EccModel.pmul dbg live CV (cu c) (ksk kp) = Ok us /\ pk_valid live (kpk kp) /\ ct_valid live c /\
      (pinf us = false -> pinf (cmv c) = false -> yields live CV (Dec dbg live (ksk kp) c) (den CV m)).
  Proof.
    intros OK Hb V. destruct (ok_drf D OK) as [c [a0 [a1 [b0 [b1 K]]]]]. destruct (val_rf m V) as [z M].
    destruct (KeyGen_rf D c a0 a1 b0 b1 b r K Hb) as [kp [E [X [Y S]]]].
    destruct (Enc_rf D c a0 a1 b0 b1 b (kpk kp) _ _ m z r1 r2 K Hb X Y M) as [ct [E' [U W]]].
    exists kp, ct. rewrite S. destruct (pmul_rf dbg live CV good_CV _ _ (mk r) U) as [us [Eu Ku]].
    exists us. split; [exact E|]. split; [exact E'|]. split; [exact Eu|].
    split; [split; [exact (rf_val _ _ X)|exact (rf_val _ _ Y)]|]. split; [split; [exact (rf_val _ _ U)|exact (rf_val _ _ W)]|].
    intros N1 N2. apply (rf_pinf_false live CV good_CV _ _ Ku) in N1. apply (rf_pinf_false live CV good_CV _ _ W) in N2.
    destruct (Dec_rf ct _ _ (mk r) U W N1 N2) as [R [ER KR]].
    apply (yields_rf _ R z m ER); [|exact M]. apply (rf_cong live CV _ _ _ KR). ring.
  Qed.

  (** ** Discrete logarithms, for concrete cases *)
  Lemma multiple_rf P k : multiple live P k <-> rf P (mk k).
  Proof.
    split.
    - intros [V E]. destruct (val_rf P V) as [z K]. apply (rf_cong live CV _ _ _ K).
      rewrite (rf_den live CV P z K) in E. apply (gk_eq CV good_CV) in E. apply (mkn_eq CV good_CV) in E.
      rewrite mk_val in E. exact E.
    - intros K. split; [exact (rf_val _ _ K)|]. rewrite (rf_den live CV P _ K). apply (gk_eq CV good_CV).
      apply (mkn_eq CV good_CV). apply mk_val.
  Qed.

  Lemma L_C26_logs c mu r1 r2 r3 r4 : live c = true ->
    exists D, dme_new dbg live c mu r1 r2 r3 r4 = Ok D /\ dme_ok live D /\
      match mu with
      | messy => multiple live (g0 (dcrs D)) r3 /\ multiple live (g1 (dcrs D)) r4 /\
                 multiple live (h0 (dcrs D)) (r1 * r3)%Z /\ multiple live (h1 (dcrs D)) (r2 * r4)%Z
      | dec => multiple live (g0 (dcrs D)) r2 /\ multiple live (g1 (dcrs D)) (r1 * r2)%Z /\
               multiple live (h0 (dcrs D)) (r3 * r2)%Z /\ multiple live (h1 (dcrs D)) (r3 * (r1 * r2))%Z
      end.
  Proof.
    intros L. destruct mu.
    - destruct (new_messy_rf c r1 r2 r3 r4 L) as [D [E [_ [_ K]]]]. exists D. split; [exact E|]. split; [exact (drf_ok _ _ _ _ _ _ K)|].
      destruct K as [_ _ A B A' B']. rewrite !multiple_rf. rewrite !mk_mul in *. repeat split; assumption.
    - destruct (new_dec_rf c r1 r2 r3 r4 L) as [D [E [_ K]]]. exists D. split; [exact E|]. split; [exact (drf_ok _ _ _ _ _ _ K)|].
      destruct K as [_ _ A B A' B']. rewrite !multiple_rf. rewrite !mk_mul in *. repeat split; assumption.
  Qed.

  Lemma L_C26_condition D b r s t m a0 a1 b0 b1 k : dme_ok live D -> branch b ->
    multiple live (g0 (dcrs D)) a0 -> multiple live (g1 (dcrs D)) a1 ->
    multiple live (h0 (dcrs D)) b0 -> multiple live (h1 (dcrs D)) b1 -> multiple live m k ->
    exists kp c us, KeyGen dbg live D b r = Ok kp /\ Enc dbg live D (kpk kp) b m s t = Ok c /\
      EccModel.pmul dbg live CV (cu c) (ksk kp) = Ok us /\
      let w := if b =? 0 then (s * a0 + t * b0)%Z else (s * a1 + t * b1)%Z in
      (pinf us = true <-> (order | (r * w)%Z)) /\ (pinf (cmv c) = true <-> (order | (r * w + k)%Z)).
  Proof.
    intros OK Hb A B A' B' M. destruct OK as [[cc [Ec L]] _].
    apply multiple_rf in A, B, A', B', M.
    assert (K : drf D cc (mk a0) (mk a1) (mk b0) (mk b1)) by (constructor; assumption).
    destruct (KeyGen_rf D cc _ _ _ _ b r K Hb) as [kp [E [X [Y SK]]]].
    destruct (Enc_rf D cc _ _ _ _ b (kpk kp) _ _ m _ s t K Hb X Y M) as [ct [E' [U W]]].
    destruct (pmul_rf dbg live CV good_CV _ _ (mk r) U) as [us [Eu Ku]].
    exists kp, ct, us. rewrite SK. split; [exact E|]. split; [exact E'|]. split; [exact Eu|]. cbv zeta.
    rewrite (rf_pinf live CV good_CV _ _ Ku), (rf_pinf live CV good_CV _ _ W), <- !mk_order_0.
    destruct Hb as [-> | ->]; cbn [pick Z.eqb Pos.eqb]; rewrite <- !mk_add, <- !mk_mul, <- !mk_add, <- !mk_mul.
    - split; [reflexivity|]. unfold pick; cbn [Z.eqb]. 
      replace (mk r * (mk s * mk a0 + mk t * mk b0) + mk k) with (mk s * (mk r * mk a0) + mk t * (mk r * mk b0) + mk k) by ring. reflexivity.
    - split; [reflexivity|]. unfold pick; cbn [Z.eqb Pos.eqb].
      replace (mk r * (mk s * mk a1 + mk t * mk b1) + mk k) with (mk s * (mk r * mk a1) + mk t * (mk r * mk b1) + mk k) by ring. reflexivity.
  Qed.

  Lemma gen_rf c : live c = true -> multiple live (gen CV c) 1.
  Proof. intros L. apply multiple_rf. exact (rf_gen live CV good_CV c L). Qed.
  Lemma ndiv z : 0 < Z.abs z < order -> ~ (order | z).
  Proof. intros H D. apply Z.divide_abs_r in D. apply Z.divide_pos_le in D; lia. Qed.

  Lemma L_C27 D b r r1 r2 m kp c us : dme_ok live D -> branch b -> is_valid live m ->
    KeyGen dbg live D b r = Ok kp -> Enc dbg live D (kpk kp) b m r1 r2 = Ok c ->
    EccModel.pmul dbg live CV (cu c) (ksk kp) = Ok us ->
    (pinf us = true <-> (order | r) \/ pinf (cu c) = true) /\
    (pinf us = true \/ pinf (cmv c) = true ->
     if dbg then Dec dbg live (ksk kp) c = Err NullDeref
     else exists R, Dec dbg live (ksk kp) c = Ok R /\ ~ (is_valid live R /\ same_point R m)).
  Proof.
    intros OK Hb V EK EE EU. destruct (ok_drf D OK) as [cc [a0 [a1 [b0 [b1 K]]]]]. destruct (val_rf m V) as [z M].
    destruct (KeyGen_rf D cc a0 a1 b0 b1 b r K Hb) as [kp' [E [X [Y SK]]]].
    rewrite EK in E. apply Ok_inj in E. subst kp'.
    destruct (Enc_rf D cc a0 a1 b0 b1 b (kpk kp) _ _ m z r1 r2 K Hb X Y M) as [ct [E' [U W]]].
    rewrite EE in E'. apply Ok_inj in E'. subst ct.
    rewrite SK in EU. destruct (pmul_rf dbg live CV good_CV _ _ (mk r) U) as [us' [Eu Ku]].
    rewrite EU in Eu. apply Ok_inj in Eu. subst us'. split.
    - rewrite (rf_pinf live CV good_CV _ _ Ku), (rf_pinf live CV good_CV _ _ U), <- mk_order_0. split.
      + intros Z0. apply fmul_0 in Z0; [exact Z0|exact Hn].
      + intros [Z0|Z0]; rewrite Z0; ring.
    - intros H. unfold Dec. rewrite SK, EU. cbn [bind].
      assert (CI : forall Q, EccModel.psub dbg live CV (pt_inf CV) Q =
        if dbg then Err NullDeref else do ny <- fe_sub dbg (fieldp CV) (fe_new (fieldp CV) 0) (py Q);
           Ok (pt_fe (px Q) ny None)).
      { intros Q. unfold EccModel.psub, assert_same_curve. destruct dbg; [reflexivity|]. cbn [bind].
        destruct (fe_sub _ _ _ _); reflexivity. }
      destruct (pinf (cmv c)) eqn:Iw.
      + apply (rf_pinf live CV good_CV _ _ W) in Iw. rewrite Iw in W. apply (rf_zero live CV good_CV) in W. rewrite W, CI.
        destruct dbg; [reflexivity|].
        assert (CY : canon (fieldp CV) (py us)).
        { destruct (rf_val _ _ Ku) as [-> | FV]; [apply canon_default; reflexivity|apply FV]. }
        rewrite fe_sub_ok; [|reflexivity|apply canon_new; reflexivity|exact CY]. cbn [bind].
        eexists; split; [reflexivity|]. intros [[F|F] _]; [discriminate F|].
        destruct F as [_ [_ [_ [[c0 [F _]] _]]]]. discriminate F.
      + destruct H as [H|H]; [|discriminate].
        apply (rf_pinf live CV good_CV _ _ Ku) in H.
        assert (Z1 : mk r1 * (mk r * pick b a0 a1) + mk r2 * (mk r * pick b b0 b1) = O).
        { rewrite <- H. ring. }
        rewrite H in Ku. apply (rf_zero live CV good_CV) in Ku. subst us.
        rewrite Z1 in W. assert (W' : rf (cmv c) z) by (apply (rf_cong live CV _ _ _ W); ring).
        assert (FW : finite live (cmv c)).
        { apply (rf_finite live CV good_CV _ z W'). apply (rf_pinf_false live CV good_CV _ _ W'). exact Iw. }
        destruct dbg eqn:Ed.
        * apply (L_C14_minus_inf_debug true live CV good_CV (cmv c)); [right; exact FW|reflexivity].
        * destruct (L_C14_minus_inf_release false live CV good_CV (cmv c) FW eq_refl) as [R [ER NR]].
          exists R; split; [exact ER|]. intros [_ SR]. apply NR. unfold same_point in SR. rewrite SR.
          apply (same_rf m (cmv c) z z M W'). reflexivity.
  Qed.

  (** ** C28, C29 *)
  Lemma FindMessy_rf D e pk x y : e0 (tdm D) = em e -> rf (pg pk) x -> rf (ph pk) y ->
    exists b, FindMessy dbg live D pk = Ok b /\ (b = 1 /\ y = e * x \/ b = 0 /\ y <> e * x).
  Proof.
    intros E X Y. unfold FindMessy. rewrite E. step.
    destruct (peq_rf live CV good_CV _ _ _ _ Y K) as [b [-> I]]. cbn [bind]. eexists; split; [reflexivity|].
    destruct b; [left|right]; split; try reflexivity; [apply I; reflexivity|].
    intros F. apply I in F. discriminate.
  Qed.

  Lemma L_C28 c r1 r2 r3 r4 b r : live c = true -> branch b ->
    ~ (order | (r1 - r2)%Z) -> ~ (order | r3) -> ~ (order | r4) -> ~ (order | r) ->
    exists D kp, dme_new dbg live c messy r1 r2 r3 r4 = Ok D /\ KeyGen dbg live D b r = Ok kp /\
      FindMessy dbg live D (kpk kp) = Ok (1 - b)%Z.
  Proof.
    intros L Hb N12 N3 N4 Nr. rewrite <- mk_order_eq in N12. rewrite <- mk_order_0 in N3, N4, Nr.
    destruct (new_messy_rf c r1 r2 r3 r4 L) as [D [E [T0 [T1 K]]]].
    destruct (KeyGen_rf D c _ _ _ _ b r K Hb) as [kp [EK [X [Y SK]]]].
    exists D, kp. split; [exact E|]. split; [exact EK|].
    destruct (FindMessy_rf D _ _ _ _ T0 X Y) as [b' [-> H]]. f_equal.
    destruct Hb as [-> | ->]; cbn [pick Z.eqb] in H; destruct H as [[-> H]|[-> H]]; try reflexivity; exfalso.
    - apply H. ring.
    - assert (Z0 : mk r * ((mk r1 - mk r2) * mk r4) = O).
      { transitivity (mk r1 * (mk r * mk r4) - mk r * (mk r2 * mk r4)); [ring|]. rewrite H. ring. }
      apply fmul_0 in Z0; [|exact Hn]. destruct Z0 as [Z0|Z0]; [contradiction|].
      apply fmul_0 in Z0; [|exact Hn]. destruct Z0 as [Z0|Z0]; [|contradiction].
      apply N12. replace (mk r1) with (mk r1 - mk r2 + mk r2) by ring. rewrite Z0. ring.
  Qed.

  Lemma fsub0 (x y : F) : x - y = O -> x = y.
  Proof. intros H. replace x with (x - y + y) by ring. rewrite H. ring. Qed.

  (** ciphertexts on a branch whose exponent differs from the key's *)
  Lemma hides_core D c a0 a1 b0 b1 e pk x y b m m' s t : drf D c a0 a1 b0 b1 -> branch b ->
    pick b a0 a1 <> O -> pick b b0 b1 = e * pick b a0 a1 -> rf (pg pk) x -> rf (ph pk) y -> y - e * x <> O ->
    is_valid live m -> is_valid live m' ->
    exists ct s' t', Enc dbg live D pk b m s t = Ok ct /\ draw s' /\ draw t' /\
      (exists ct', Enc dbg live D pk b m' s' t' = Ok ct' /\ same_ctxt ct' ct) /\
      (forall s2 t2, draw s2 -> draw t2 ->
        (exists ct', Enc dbg live D pk b m' s2 t2 = Ok ct' /\ same_ctxt ct' ct) -> s2 = s' /\ t2 = t').
  Proof.
    intros K Hb Na Ea X Y Nd VM VM'. destruct (val_rf _ VM) as [z M], (val_rf _ VM') as [z' M'].
    set (a := pick b a0 a1) in *.
    assert (Pa : forall u v, u * a + v * pick b b0 b1 = (u + v * e) * a) by (intros u v; rewrite Ea; ring).
    destruct (Enc_rf D c _ _ _ _ b pk x y m z s t K Hb X Y M) as [ct [Ect [U W]]]. fold a in U. rewrite Pa in U.
    set (dt := fdiv n (z - z') (y - e * x)).
    exists ct, (val n (mk s - e * dt)), (val n (mk t + dt)).
    split; [exact Ect|]. split; [apply val_draw|]. split; [apply val_draw|]. split.
    - destruct (Enc_rf D c _ _ _ _ b pk x y m' z' (val n (mk s - e * dt)) (val n (mk t + dt)) K Hb X Y M') as [ct' [Ect' [U' W']]].
      fold a in U'. rewrite Pa in U'. rewrite !mk_val in U', W'. exists ct'; split; [exact Ect'|]. split.
      + apply (same_rf _ _ _ _ U' U). ring.
      + apply (same_rf _ _ _ _ W' W). unfold dt. field. exact Nd.
    - intros s2 t2 Ds Dt [ct' [Ect' [SU SW]]].
      destruct (Enc_rf D c _ _ _ _ b pk x y m' z' s2 t2 K Hb X Y M') as [ct2 [E2 [U2 W2]]].
      fold a in U2. rewrite Pa in U2. rewrite Ect' in E2. apply Ok_inj in E2. subst ct2.
      apply (same_rf _ _ _ _ U2 U) in SU. apply (same_rf _ _ _ _ W2 W) in SW.
      assert (U3 : mk s2 + mk t2 * e = mk s + mk t * e).
      { apply fsub0. assert (Z0 : (mk s2 + mk t2 * e - (mk s + mk t * e)) * a = O).
        { transitivity ((mk s2 + mk t2 * e) * a - (mk s + mk t * e) * a); [ring|]. rewrite SU. ring. }
        apply fmul_0 in Z0; [|exact Hn]. destruct Z0 as [Z0|Z0]; [exact Z0|contradiction]. }
      assert (T3 : mk t2 = mk t + dt).
      { assert (Z0 : (mk t2 - mk t) * (y - e * x) = z - z').
        { transitivity (mk s2 * x + mk t2 * y + z' - (mk s2 + mk t2 * e) * x - (mk t * (y - e * x) + z')); [ring|].
          rewrite SW, U3. ring. }
        unfold dt. rewrite <- Z0. field. exact Nd. }
      assert (S3 : mk s2 = mk s - e * dt).
      { transitivity (mk s2 + mk t2 * e - mk t2 * e); [ring|]. rewrite U3, T3. ring. }
      rewrite <- S3, <- T3. split; symmetry; apply draw_val; assumption.
  Qed.

  Lemma L_C29 c r1 r2 r3 r4 D pk b m m' s t : live c = true ->
    ~ (order | (r1 - r2)%Z) -> ~ (order | r3) -> ~ (order | r4) ->
    dme_new dbg live c messy r1 r2 r3 r4 = Ok D ->
    pk_valid live pk -> FindMessy dbg live D pk = Ok b -> (b = 1 -> pinf (pg pk) = false) ->
    is_valid live m -> is_valid live m' ->
    exists ct s' t', Enc dbg live D pk b m s t = Ok ct /\ draw s' /\ draw t' /\
      (exists ct', Enc dbg live D pk b m' s' t' = Ok ct' /\ same_ctxt ct' ct) /\
      (forall s2 t2, draw s2 -> draw t2 ->
        (exists ct', Enc dbg live D pk b m' s2 t2 = Ok ct' /\ same_ctxt ct' ct) -> s2 = s' /\ t2 = t').
  Proof.
    intros L N12 N3 N4 ED [VX VY] EF Nx VM VM'. rewrite <- mk_order_eq in N12. rewrite <- mk_order_0 in N3, N4.
    destruct (new_messy_rf c r1 r2 r3 r4 L) as [D' [E [T0 [T1 K]]]]. rewrite ED in E. apply Ok_inj in E. subst D'.
    destruct (val_rf _ VX) as [x X], (val_rf _ VY) as [y Y].
    destruct (FindMessy_rf D _ _ _ _ T0 X Y) as [b' [EF' H]]. rewrite EF in EF'. apply Ok_inj in EF'. subst b'.
    assert (Hb : branch b) by (destruct H as [[-> _]|[-> _]]; [right|left]; reflexivity).
    refine (hides_core D c _ _ _ _ (pick b (mk r1) (mk r2)) pk x y b m m' s t K Hb _ _ X Y _ VM VM').
    - unfold pick; destruct (b =? 0); assumption.
    - unfold pick; destruct (b =? 0); reflexivity.
    - intros F. apply fsub0 in F. destruct H as [[-> H]|[-> H]]; cbn [pick Z.eqb] in F; [|exact (H F)].
      assert (NX : x <> O) by (apply (rf_pinf_false live CV good_CV _ _ X), Nx; reflexivity).
      assert (Z0 : (mk r1 - mk r2) * x = O). { transitivity (mk r1 * x - mk r2 * x); [ring|]. unfold pick in F; cbn [Z.eqb] in F. rewrite <- F, <- H. ring. }
      apply fmul_0 in Z0; [|exact Hn]. destruct Z0 as [Z0|Z0]; [apply N12, fsub0, Z0|exact (NX Z0)].
  Qed.

  (** the key of two infinities: FindMessy answers 1 but branch 1 carries the message in the clear *)
  Lemma L_C29_infinity c r1 r2 r3 r4 m s t : live c = true -> is_valid live m ->
    exists D ct, dme_new dbg live c messy r1 r2 r3 r4 = Ok D /\
      pk_valid live pkey_default /\ FindMessy dbg live D pkey_default = Ok 1 /\ Enc dbg live D pkey_default 1 m s t = Ok ct /\ same_point (cmv ct) m.
  Proof.
    intros L VM. destruct (new_messy_rf c r1 r2 r3 r4 L) as [D [E [T0 [T1 K]]]]. destruct (val_rf _ VM) as [z M].
    pose proof (rf_inf live CV good_CV) as I.
    destruct (Enc_rf D c _ _ _ _ 1 pkey_default _ _ m z s t K (or_intror eq_refl) I I M) as [ct [Ect [U W]]].
    destruct (FindMessy_rf D _ pkey_default _ _ T0 I I) as [b [EF H]].
    exists D, ct. split; [exact E|]. split; [split; left; reflexivity|]. split.
    - rewrite EF. destruct H as [[-> _]|[_ H]]; [reflexivity|]. exfalso. apply H. ring.
    - split; [exact Ect|]. apply (same_rf _ _ _ _ W M). ring.
  Qed.

  (** ** C30, C31 *)
  Lemma L_C30 c r1 r2 r3 r4 r b m s t : live c = true -> ~ (order | r1) -> branch b -> is_valid live m ->
    exists D pk sk0 sk1 ct us, dme_new dbg live c dec r1 r2 r3 r4 = Ok D /\ TrapKeyGen dbg live D r = Ok (pk, sk0, sk1) /\
      Enc dbg live D pk b m s t = Ok ct /\
      let sk := if b =? 0 then sk0 else sk1 in
      EccModel.pmul dbg live CV (cu ct) sk = Ok us /\
      (pinf us = false -> pinf (cmv ct) = false -> yields live CV (Dec dbg live sk ct) (den CV m)) /\
      let w := (r * (r2 * (s + t * r3)))%Z in
      (pinf us = true <-> (order | w)) /\
      (forall k, multiple live m k -> (pinf (cmv ct) = true <-> (order | (w + k)%Z))).
  Proof.
    intros L N1 Hb VM. rewrite <- mk_order_0 in N1.
    destruct (new_dec_rf c r1 r2 r3 r4 L) as [D [E [T0 K]]]. destruct (val_rf _ VM) as [z M]. pose proof K as K0.
    destruct K0 as [Ec _ A B A' B'].
    assert (TK : exists a h, TrapKeyGen dbg live D r = Ok (mkpk a h, em (mk r), em (fdiv n (mk r) (mk r1))) /\
        rf a (mk r * mk r2) /\ rf h (mk r * (mk r3 * mk r2))).
    { unfold TrapKeyGen. rewrite Ec. repeat step. rewrite T0. rewrite (em_div dbg n Hn) by exact N1. cbn [bind].
      eexists _, _. split; [reflexivity|]. split; assumption. }
    destruct TK as [pa [ph [ET [X Y]]]].
    destruct (Enc_rf D c _ _ _ _ b (mkpk pa ph) _ _ m z s t K Hb X Y M) as [ct [Ect [U W]]].
    set (k := pick b (mk r) (fdiv n (mk r) (mk r1))).
    destruct (pmul_rf dbg live CV good_CV _ _ k U) as [us [Eu Ku]].
    exists D, (mkpk pa ph), (em (mk r)), (em (fdiv n (mk r) (mk r1))), ct, us.
    split; [exact E|]. split; [exact ET|]. split; [exact Ect|]. cbv zeta.
    replace (if b =? 0 then em (mk r) else em (fdiv n (mk r) (mk r1))) with (em k) by (unfold k, pick; destruct (b =? 0); reflexivity).
    split; [exact Eu|]. split; [|cbv zeta; split].
    - intros I1 I2. apply (rf_pinf_false live CV good_CV _ _ Ku) in I1. apply (rf_pinf_false live CV good_CV _ _ W) in I2.
      destruct (Dec_rf ct _ _ k U W I1 I2) as [R [ER KR]].
      apply (yields_rf _ R z m ER); [|exact M]. apply (rf_cong live CV _ _ _ KR).
      unfold k. destruct Hb as [-> | ->]; cbn [pick Z.eqb]; [ring|]. field. exact N1.
    - rewrite (rf_pinf live CV good_CV _ _ Ku), <- mk_order_0, <- !mk_mul, <- mk_add, <- mk_mul.
      match goal with |- ?x = _ <-> ?y = _ => replace x with y; [reflexivity|] end.
      unfold k. destruct Hb as [-> | ->]; unfold pick; cbn [Z.eqb Pos.eqb]; [ring|]. field. exact N1.
    - intros l M'. apply multiple_rf in M'. assert (Ez : z = mk l) by exact (rf_fun live CV good_CV _ _ _ M M').
      rewrite (rf_pinf live CV good_CV _ _ W), <- mk_order_0, <- mk_add, <- !mk_mul, <- mk_add, <- mk_mul, Ez.
      match goal with |- ?x = _ <-> ?y = _ => replace x with y; [reflexivity|] end. ring.
  Qed.

  Lemma L_C30_zero c r1 r2 r3 r4 r : live c = true -> (order | r1) ->
    exists D, dme_new dbg live c dec r1 r2 r3 r4 = Ok D /\ TrapKeyGen dbg live D r = Err NoInverse.
  Proof.
    intros L Z1. rewrite <- mk_order_0 in Z1. destruct (new_dec_rf c r1 r2 r3 r4 L) as [D [E [T0 K]]].
    exists D. split; [exact E|]. destruct K as [Ec _ A B A' B']. unfold TrapKeyGen. rewrite Ec. repeat step.
    rewrite T0, Z1. rewrite (em_div0 dbg n Hn). reflexivity.
  Qed.

  Lemma L_C31 c r1 r2 r3 r4 D b r kp : live c = true -> ~ (order | r1) -> ~ (order | r2) -> branch b ->
    dme_new dbg live c dec r1 r2 r3 r4 = Ok D -> KeyGen dbg live D b r = Ok kp ->
    exists r', draw r' /\ (exists kp', KeyGen dbg live D (1 - b)%Z r' = Ok kp' /\ same_pkey (kpk kp') (kpk kp)) /\
      (forall r2, draw r2 -> (exists kp', KeyGen dbg live D (1 - b)%Z r2 = Ok kp' /\ same_pkey (kpk kp') (kpk kp)) -> r2 = r').
  Proof.
    intros L N1 N2 Hb ED EK. rewrite <- mk_order_0 in N1, N2.
    destruct (new_dec_rf c r1 r2 r3 r4 L) as [D' [E [T0 K]]]. rewrite ED in E. apply Ok_inj in E. subst D'.
    destruct (KeyGen_rf D c _ _ _ _ b r K Hb) as [kp' [EK' [X [Y _]]]]. rewrite EK in EK'. apply Ok_inj in EK'. subst kp'.
    assert (Hb' : branch (1 - b)%Z) by (destruct Hb as [-> | ->]; [right|left]; reflexivity).
    set (k := pick b (fdiv n (mk r) (mk r1)) (mk r * mk r1)).
    exists (val n k). split; [apply val_draw|]. split.
    - destruct (KeyGen_rf D c _ _ _ _ (1 - b)%Z (val n k) K Hb') as [kp' [EK' [X' [Y' _]]]].
      exists kp'. split; [exact EK'|]. rewrite mk_val in X', Y'. split.
      + apply (same_rf _ _ _ _ X' X). unfold k. destruct Hb as [-> | ->]; unfold pick; cbn [Z.sub Z.opp Z.add Z.pos_sub Z.eqb Pos.eqb]; [field; exact N1|ring].
      + apply (same_rf _ _ _ _ Y' Y). unfold k. destruct Hb as [-> | ->]; unfold pick; cbn [Z.sub Z.opp Z.add Z.pos_sub Z.eqb Pos.eqb]; [field; exact N1|ring].
    - intros r' Dr [kp' [EK' [SX _]]].
      destruct (KeyGen_rf D c _ _ _ _ (1 - b)%Z r' K Hb') as [kp2 [E2 [X2 [Y2 _]]]].
      rewrite EK' in E2. apply Ok_inj in E2. subst kp2.
      apply (same_rf _ _ _ _ X2 X) in SX. rewrite <- (draw_val r' Dr). f_equal.
      unfold k. destruct Hb as [-> | ->]; unfold pick in *; cbn [Z.sub Z.opp Z.add Z.pos_sub Z.eqb Pos.eqb] in *.
      + transitivity (fdiv n (fdiv n (mk r' * (mk r1 * mk r2)) (mk r2)) (mk r1)); [field; split; assumption|]. rewrite SX. field. split; assumption.
      + transitivity (fdiv n (mk r' * mk r2) (mk r2)); [field; assumption|]. rewrite SX. field. assumption.
  Qed.

  (** ** C33 *)
  Lemma L_C33 D b r m1 m2 s1 t1 s2 t2 : dme_ok live D -> branch b -> is_valid live m1 -> is_valid live m2 ->
    exists kp c1 c2 ct us, KeyGen dbg live D b r = Ok kp /\ Enc dbg live D (kpk kp) b m1 s1 t1 = Ok c1 /\
      Enc dbg live D (kpk kp) b m2 s2 t2 = Ok c2 /\ Eval dbg live c1 c2 = Ok ct /\
      EccModel.pmul dbg live CV (cu ct) (ksk kp) = Ok us /\
      (pinf us = false -> pinf (cmv ct) = false ->
       yields live CV (Dec dbg live (ksk kp) ct) (gadd CV (den CV m1) (den CV m2))) /\
      (forall a e k1 k2, multiple live (if b =? 0 then g0 (dcrs D) else g1 (dcrs D)) a ->
         multiple live (if b =? 0 then h0 (dcrs D) else h1 (dcrs D)) e -> multiple live m1 k1 -> multiple live m2 k2 ->
         let w := (r * ((s1 + s2) * a + (t1 + t2) * e))%Z in
         (pinf us = true <-> (order | w)) /\ (pinf (cmv ct) = true <-> (order | (w + (k1 + k2))%Z))).
  Proof.
    intros OK Hb V1 V2. destruct (ok_drf D OK) as [c [a0 [a1 [b0 [b1 K]]]]].
    destruct (val_rf m1 V1) as [z1 M1], (val_rf m2 V2) as [z2 M2].
    destruct (KeyGen_rf D c a0 a1 b0 b1 b r K Hb) as [kp [E [X [Y SK]]]].
    destruct (Enc_rf D c a0 a1 b0 b1 b (kpk kp) _ _ m1 z1 s1 t1 K Hb X Y M1) as [ct1 [E1 [U1 W1]]].
    destruct (Enc_rf D c a0 a1 b0 b1 b (kpk kp) _ _ m2 z2 s2 t2 K Hb X Y M2) as [ct2 [E2 [U2 W2]]].
    destruct (padd_rf dbg live CV good_CV _ _ _ _ U1 U2) as [u [Eu U]].
    destruct (padd_rf dbg live CV good_CV _ _ _ _ W1 W2) as [w [Ew W]].
    destruct (padd_rf dbg live CV good_CV _ _ _ _ M1 M2) as [mm [Em MM]].
    destruct (pmul_rf dbg live CV good_CV _ _ (mk r) U) as [us [Eus Kus]].
    exists kp, ct1, ct2, (mkct u w), us. rewrite SK. split; [exact E|]. split; [exact E1|]. split; [exact E2|].
    split; [unfold Eval; rewrite Eu; cbn [bind]; rewrite Ew; reflexivity|]. split; [exact Eus|]. cbn [cu cmv]. split; cycle 1.
    { intros a e k1 k2 A A' L1 L2. apply multiple_rf in A, A', L1, L2. cbv zeta.
      pose proof (rf_fun live CV good_CV _ _ _ M1 L1) as Ez1. pose proof (rf_fun live CV good_CV _ _ _ M2 L2) as Ez2.
      assert (Pa : pick b a0 a1 = mk a /\ pick b b0 b1 = mk e).
      { destruct K as [_ _ K1 K2 K3 K4]. unfold pick. destruct (b =? 0); split; eapply (rf_fun live CV good_CV); eassumption. }
      destruct Pa as [Pa Pb]. rewrite (rf_pinf live CV good_CV _ _ Kus), (rf_pinf live CV good_CV _ _ W), Pa, Pb, Ez1, Ez2, <- !mk_order_0.
      rewrite <- !mk_add, <- !mk_mul, <- !mk_add, <- !mk_mul, <- !mk_add. split.
      - match goal with |- ?x = _ <-> ?y = _ => replace x with y; [reflexivity|] end. ring.
      - match goal with |- ?x = _ <-> ?y = _ => replace x with y; [reflexivity|] end. ring. }
    intros N1 N2. apply (rf_pinf_false live CV good_CV _ _ Kus) in N1. apply (rf_pinf_false live CV good_CV _ _ W) in N2.
    destruct (Dec_rf (mkct u w) _ _ (mk r) U W N1 N2) as [R [ER KR]].
    assert (DM : den CV mm = gadd CV (den CV m1) (den CV m2)).
    { destruct (proj1 (L_C08 dbg live CV good_CV m1 m2 V1 V2)) as [R' [ER' [_ DR']]].
      rewrite Em in ER'. apply Ok_inj in ER'. subst R'. exact DR'. }
    rewrite <- DM. apply (yields_rf _ R (z1 + z2) mm ER); [|exact MM]. apply (rf_cong live CV _ _ _ KR). ring.
  Qed.

  (** ** Concrete cases: exponents 2 and 3, g0 = G, g1 = 2G *)
  Ltac small := apply ndiv; split; vm_compute; reflexivity.
  Lemma L_C26_case c : live c = true ->
    exists D kp ct us, dme_new dbg live c messy 2 3 1 2 = Ok D /\ KeyGen dbg live D 0 2 = Ok kp /\
      Enc dbg live D (kpk kp) 0 (gen CV c) 1 1 = Ok ct /\ EccModel.pmul dbg live CV (cu ct) (ksk kp) = Ok us /\
      pinf us = false /\ pinf (cmv ct) = false /\ yields live CV (Dec dbg live (ksk kp) ct) (ggen CV).
  Proof.
    intros L. destruct (L_C26_logs c messy 2 3 1 2 L) as [D [E [OK [A [B [A' B']]]]]]. pose proof (gen_rf c L) as G.
    destruct (L_C26_condition D 0 2 1 1 (gen CV c) _ _ _ _ _ OK (or_introl eq_refl) A B A' B' G) as [kp [ct [us [EK [EE [EU [C1 C2]]]]]]].
    destruct (L_C26 D 0 2 1 1 (gen CV c) OK (or_introl eq_refl) (proj1 G)) as [kp' [ct' [us' [EK' [EE' [EU' [_ [_ H]]]]]]]].
    rewrite EK in EK'. apply Ok_inj in EK'. subst kp'. rewrite EE in EE'. apply Ok_inj in EE'. subst ct'.
    rewrite EU in EU'. apply Ok_inj in EU'. subst us'.
    assert (I1 : pinf us = false) by (apply not_true_is_false; rewrite C1; small).
    assert (I2 : pinf (cmv ct) = false) by (apply not_true_is_false; rewrite C2; small).
    exists D, kp, ct, us. repeat (split; [assumption|]). exact (H I1 I2).
  Qed.

  Lemma L_C27_case c : live c = true ->
    exists D kp ct, dme_new dbg live c messy 2 3 1 2 = Ok D /\ KeyGen dbg live D 0 0 = Ok kp /\
      Enc dbg live D (kpk kp) 0 (gen CV c) 1 1 = Ok ct /\
      if dbg then Dec dbg live (ksk kp) ct = Err NullDeref
      else exists R, Dec dbg live (ksk kp) ct = Ok R /\ ~ (is_valid live R /\ same_point R (gen CV c)).
  Proof.
    intros L. destruct (L_C26_logs c messy 2 3 1 2 L) as [D [E [OK _]]]. pose proof (gen_rf c L) as G.
    destruct (L_C26 D 0 0 1 1 (gen CV c) OK (or_introl eq_refl) (proj1 G)) as [kp [ct [us [EK [EE [EU _]]]]]].
    exists D, kp, ct. repeat (split; [assumption|]).
    destruct (L_C27 D 0 0 1 1 (gen CV c) kp ct us OK (or_introl eq_refl) (proj1 G) EK EE EU) as [H1 H2].
    apply H2. left. apply H1. left. exists 0%Z. reflexivity.
  Qed.

  Lemma L_C28_case c : live c = true ->
    exists D kp, dme_new dbg live c messy 2 3 1 2 = Ok D /\ KeyGen dbg live D 0 2 = Ok kp /\
      FindMessy dbg live D (kpk kp) = Ok 1%Z.
  Proof. intros L. apply (L_C28 c 2 3 1 2 0 2 L (or_introl eq_refl)); small. Qed.

  (** G and infinity hidden on branch 1 of a branch-0 key *)
  Lemma L_C29_case c : live c = true ->
    exists D kp, dme_new dbg live c messy 2 3 1 2 = Ok D /\ KeyGen dbg live D 0 2 = Ok kp /\
      pk_valid live (kpk kp) /\ FindMessy dbg live D (kpk kp) = Ok 1%Z /\ pinf (pg (kpk kp)) = false /\
      ~ (order | (2 - 3)%Z) /\ ~ (order | 1) /\ ~ (order | 2) /\
      is_valid live (gen CV c) /\ is_valid live (pt_inf CV).
  Proof.
    intros L. destruct (L_C28_case c L) as [D [kp [E [EK EF]]]]. exists D, kp.
    destruct (new_messy_rf c 2 3 1 2 L) as [D' [E' [_ [_ K]]]]. rewrite E in E'. apply Ok_inj in E'. subst D'.
    destruct (KeyGen_rf D c _ _ _ _ 0 2 K (or_introl eq_refl)) as [kp' [EK' [X [Y _]]]]. rewrite EK in EK'. apply Ok_inj in EK'. subst kp'.
    split; [exact E|]. split; [exact EK|]. split; [split; eapply rf_val; eassumption|]. split; [exact EF|].
    split. { apply (rf_pinf_false live CV good_CV _ _ X). unfold pick; cbn [Z.eqb]. rewrite mk_mul. intros F. apply mk_order_0 in F. revert F. small. }
    split; [small|]. split; [small|]. split; [small|]. split; [apply (gen_rf c L)|left; reflexivity].
  Qed.

  Lemma L_C30_case c : live c = true ->
    exists D pk sk0 sk1 ct, dme_new dbg live c dec 2 1 3 0 = Ok D /\ TrapKeyGen dbg live D 4 = Ok (pk, sk0, sk1) /\
      Enc dbg live D pk 1 (gen CV c) 1 1 = Ok ct /\ yields live CV (Dec dbg live sk1 ct) (ggen CV).
  Proof.
    intros L. pose proof (gen_rf c L) as G.
    destruct (L_C30 c 2 1 3 0 4 1 (gen CV c) 1 1 L) as [D [pk [sk0 [sk1 [ct [us [E [ET [EE [EU [H [C1 C2]]]]]]]]]]]];
      [small|right; reflexivity|apply G|].
    exists D, pk, sk0, sk1, ct. repeat (split; [assumption|]). apply H.
    - apply not_true_is_false. rewrite C1. small.
    - apply not_true_is_false. rewrite (C2 _ G). small.
  Qed.

  Lemma L_C31_case c : live c = true ->
    exists D k0 k1, dme_new dbg live c dec 2 1 3 0 = Ok D /\ KeyGen dbg live D 0 4 = Ok k0 /\
      KeyGen dbg live D 1 2 = Ok k1 /\ same_pkey (kpk k1) (kpk k0).
  Proof.
    intros L. destruct (new_dec_rf c 2 1 3 0 L) as [D [E [_ K]]].
    destruct (KeyGen_rf D c _ _ _ _ 0 4 K (or_introl eq_refl)) as [k0 [EK [X [Y _]]]].
    destruct (KeyGen_rf D c _ _ _ _ 1 2 K (or_intror eq_refl)) as [k1 [EK1 [X1 [Y1 _]]]].
    exists D, k0, k1. repeat (split; [assumption|]). unfold pick in *. cbn [Z.eqb] in *. rewrite !mk_mul in *. split.
    - apply (same_rf _ _ _ _ X1 X). reflexivity.
    - apply (same_rf _ _ _ _ Y1 Y). reflexivity.
  Qed.

  Lemma L_C33_case c : live c = true ->
    exists D kp c1 c2 ct, dme_new dbg live c messy 2 3 1 2 = Ok D /\ KeyGen dbg live D 0 1 = Ok kp /\
      Enc dbg live D (kpk kp) 0 (gen CV c) 1 1 = Ok c1 /\ Enc dbg live D (kpk kp) 0 (gen CV c) 2 0 = Ok c2 /\
      Eval dbg live c1 c2 = Ok ct /\ yields live CV (Dec dbg live (ksk kp) ct) (gmul CV 2 (ggen CV)).
  Proof.
    intros L. destruct (L_C26_logs c messy 2 3 1 2 L) as [D [E [OK [A [_ [A' _]]]]]]. pose proof (gen_rf c L) as G.
    destruct (L_C33 D 0 1 (gen CV c) (gen CV c) 1 1 2 0 OK (or_introl eq_refl) (proj1 G) (proj1 G))
      as [kp [c1 [c2 [ct [us [EK [E1 [E2 [EV [EU [H C]]]]]]]]]]].
    exists D, kp, c1, c2, ct. repeat (split; [assumption|]).
    destruct (C _ _ _ _ A A' G G) as [C1 C2]. apply H.
    - apply not_true_is_false. rewrite C1. small.
    - apply not_true_is_false. rewrite C2. small.
  Qed.

  (** ** C34 *)
  Lemma peq_same P Q : is_valid live P -> is_valid live Q ->
    exists b, EccModel.peq live CV P Q = Ok b /\ (b = true <-> same_point P Q).
  Proof. apply (L_C18 live CV good_CV). Qed.

  Lemma andthen_spec a b (A B : Prop) : (exists x, a = Ok x /\ (x = true <-> A)) -> (exists y, b = Ok y /\ (y = true <-> B)) ->
    exists z, andthen a b = Ok z /\ (z = true <-> A /\ B).
  Proof.
    intros [x [-> HA]] [y [-> HB]]. unfold andthen. cbn [bind]. destruct x.
    - exists y. split; [reflexivity|]. rewrite HB. split; [intros H; split; [apply HA; reflexivity|exact H]|intros [_ H]; exact H].
    - exists false. split; [reflexivity|]. split; [discriminate|]. intros [H _]. apply HA in H. exact H.
  Qed.

  Lemma L_C34_ctxt c c' : ct_valid live c -> ctxt_eq live c c' = Ok true.
  Proof.
    intros [U W]. unfold ctxt_eq.
    destruct (peq_same _ _ U U) as [x [-> Hx]]. destruct (peq_same _ _ W W) as [y [-> Hy]].
    assert (x = true) as -> by (apply Hx; reflexivity). assert (y = true) as -> by (apply Hy; reflexivity). reflexivity.
  Qed.

  Lemma L_C34_refuted c : live c = true ->
    let x := mkct (gen CV c) (pt_inf CV) in let y := mkct (pt_inf CV) (gen CV c) in
    ct_valid live x /\ ct_valid live y /\ ctxt_eq live x y = Ok true /\ ~ same_ctxt x y.
  Proof.
    intros L x y. assert (G : is_valid live (gen CV c)).
    { right. split; [reflexivity|]. split; [apply canon_new; reflexivity|]. split; [apply canon_new; reflexivity|].
      split; [exists c; split; [reflexivity|exact L]|]. vm_compute. reflexivity. }
    assert (I : is_valid live (pt_inf CV)) by (left; reflexivity).
    split; [split; assumption|]. split; [split; assumption|]. split; [apply L_C34_ctxt; split; assumption|].
    intros [F _]. discriminate F.
  Qed.

  Lemma L_C34_pkey a b : pk_valid live a -> pk_valid live b ->
    exists x, pkey_eq live a b = Ok x /\ (x = true <-> same_pkey a b).
  Proof. intros [A1 A2] [B1 B2]. apply andthen_spec; apply peq_same; assumption. Qed.

  Lemma L_C34_keypair a b : pk_valid live (kpk a) -> pk_valid live (kpk b) -> scal (ksk a) -> scal (ksk b) ->
    exists x, keypair_eq live a b = Ok x /\ (x = true <-> same_pkey (kpk a) (kpk b) /\ ksk a = ksk b).
  Proof.
    intros A B SA SB. apply andthen_spec; [apply L_C34_pkey; assumption|]. eexists; split; [reflexivity|].
    apply (fe_eq_spec FIELD_n); assumption.
  Qed.

  Lemma L_C34_crs a b : crs_valid live a -> crs_valid live b ->
    exists x, crs_eq live a b = Ok x /\ (x = true <-> same_crs a b).
  Proof.
    intros [A1 [A2 [A3 A4]]] [B1 [B2 [B3 B4]]]. unfold crs_eq, same_crs.
    apply andthen_spec; [apply peq_same; assumption|]. apply andthen_spec; [apply peq_same; assumption|].
    apply andthen_spec; apply peq_same; assumption.
  Qed.

  Lemma L_C34_td a b a' b' : scal (e0 a) -> scal (e0 b) -> scal (e1 a) -> scal (e1 b) -> scal (ty a') -> scal (ty b') ->
    (tdm_eq a b = true <-> a = b) /\ (tdd_eq a' b' = true <-> a' = b').
  Proof.
    intros A B A1 B1 C D. unfold tdm_eq, tdd_eq. rewrite andb_true_iff, !(fe_eq_spec FIELD_n) by assumption.
    destruct a, b, a', b'; cbn. split; split; intros H; [destruct H; congruence|injection H; auto|congruence|injection H; auto].
  Qed.
End Dme.

(** ** C32: a loop that looks for the first integer with a property *)
Section Search.
  Context {R : Type} (step : Z -> Z + R) (found : Z -> Prop) (good : Z -> R -> Prop).
  Hypothesis Hstep : forall x, (~ found x /\ step x = inl (x + 1)) \/ (found x /\ exists r, step x = inr r /\ good x r).

  Lemma loop_search k : forall x,
    (loop_upto k step x = inl (x + Zpos k) /\ forall i, 0 <= i < Zpos k -> ~ found (x + i)) \/
    (exists i r, 0 <= i < Zpos k /\ found (x + i) /\ (forall j, 0 <= j < i -> ~ found (x + j)) /\
       loop_upto k step x = inr r /\ good (x + i) r).
  Proof.
    assert (TWO : forall k, (forall x,
        (loop_upto k step x = inl (x + Zpos k) /\ forall i, 0 <= i < Zpos k -> ~ found (x + i)) \/
        (exists i r, 0 <= i < Zpos k /\ found (x + i) /\ (forall j, 0 <= j < i -> ~ found (x + j)) /\
           loop_upto k step x = inr r /\ good (x + i) r)) -> forall x,
        let L := match loop_upto k step x with inl s' => loop_upto k step s' | inr r => inr r end in
        (L = inl (x + 2 * Zpos k) /\ forall i, 0 <= i < 2 * Zpos k -> ~ found (x + i)) \/
        (exists i r, 0 <= i < 2 * Zpos k /\ found (x + i) /\ (forall j, 0 <= j < i -> ~ found (x + j)) /\
           L = inr r /\ good (x + i) r)).
    { intros k0 IH x. cbv zeta. destruct (IH x) as [[-> N]|[i [r [Hi [Fi [Ni [-> Gi]]]]]]].
      - destruct (IH (x + Z.pos k0)) as [[-> N']|[i [r [Hi [Fi [Ni [-> Gi]]]]]]].
        + left. split; [f_equal; lia|]. intros i Hi. destruct (Z.lt_ge_cases i (Z.pos k0)) as [H|H]; [apply N; lia|].
          replace (x + i) with (x + Z.pos k0 + (i - Z.pos k0)) by lia. apply N'. lia.
        + right. exists (Z.pos k0 + i), r. rewrite Z.add_assoc. split; [lia|]. split; [exact Fi|]. split; [|split; [reflexivity|exact Gi]].
          intros j Hj. destruct (Z.lt_ge_cases j (Z.pos k0)) as [H|H]; [apply N; lia|].
          replace (x + j) with (x + Z.pos k0 + (j - Z.pos k0)) by lia. apply Ni. lia.
      - right. exists i, r. split; [lia|]. split; [exact Fi|]. split; [exact Ni|]. split; [reflexivity|exact Gi]. }
    induction k as [k IH|k IH|]; intros x.
    - cbn [loop_upto]. destruct (Hstep x) as [[Nx ->]|[Fx [r [-> Gx]]]].
      + destruct (TWO k IH (x + 1)) as [[-> N]|[i [r [Hi [Fi [Ni [-> Gi]]]]]]].
        * left. split; [f_equal; lia|]. intros i Hi. destruct (Z.eq_dec i 0) as [->|Ne]; [rewrite Z.add_0_r; exact Nx|].
          replace (x + i) with (x + 1 + (i - 1)) by lia. apply N. lia.
        * right. exists (1 + i), r. rewrite Z.add_assoc. split; [lia|]. split; [exact Fi|]. split; [|split; [reflexivity|exact Gi]].
          intros j Hj. destruct (Z.eq_dec j 0) as [->|Ne]; [rewrite Z.add_0_r; exact Nx|].
          replace (x + j) with (x + 1 + (j - 1)) by lia. apply Ni. lia.
      + right. exists 0, r. rewrite Z.add_0_r. split; [lia|]. split; [exact Fx|]. split; [intros j Hj; lia|]. split; [reflexivity|exact Gx].
    - cbn [loop_upto]. rewrite (Pos2Z.inj_xO k). exact (TWO k IH x).
    - cbn [loop_upto]. destruct (Hstep x) as [[Nx ->]|[Fx [r [-> Gx]]]].
      + left. split; [reflexivity|]. intros i Hi. replace i with 0 by lia. rewrite Z.add_0_r. exact Nx.
      + right. exists 0, r. rewrite Z.add_0_r. split; [lia|]. split; [exact Fx|]. split; [intros j Hj; lia|]. split; [reflexivity|exact Gx].
  Qed.
End Search.

Section Encode.
  Variables (dbg : bool) (live : Z -> bool).

  Lemma rhs_mod_gen q x a b : ((x mod q) * (x mod q) * (x mod q) + a * (x mod q) + b) mod q = (x * x * x + a * x + b) mod q.
  Proof.
    rewrite <- (Zplus_mod_idemp_l (_ + _) b), <- (Zplus_mod_idemp_l (x * x * x + _) b). f_equal. f_equal.
    rewrite (Zplus_mod (_ * _ * _)), (Zplus_mod (x * x * x)). f_equal. f_equal.
    - rewrite (Zmult_mod (_ * _)), Zmod_mod, <- (Zmult_mod x x), <- Zmult_mod. reflexivity.
    - apply Zmult_mod_idemp_r.
  Qed.

  Lemma on_curve_x_mod x : on_curve_x (x mod FIELD_p) <-> on_curve_x x.
  Proof.
    unfold on_curve_x, equation. split; intros [y H]; exists y; rewrite H.
    - apply rhs_mod_gen.
    - symmetry. apply rhs_mod_gen.
  Qed.

  Lemma L_C32_encode c D m : dcurve D = Some c -> live c = true ->
    exists i R, 0 <= i < FIELD_p /\ encode dbg live D m = Ok R /\ finite live R /\ pcur R = Some c /\
      fval (px R) = (1024 * m + i) mod FIELD_p /\ on_curve_x (1024 * m + i) /\
      (forall j, 0 <= j < i -> ~ on_curve_x (1024 * m + j)).
  Proof.
    intros Ec L. unfold encode. rewrite Ec. change (2 ^ ENCODING_SHIFT) with 1024. rewrite (Z.mul_comm m).
    destruct (loop_search (encode_step dbg live (Some c)) on_curve_x
      (fun x r => exists R, r = Ok R /\ finite live R /\ pcur R = Some c /\ fval (px R) = x mod FIELD_p)) with
      (k := Z.to_pos FIELD_p) (x := 1024 * m) as [[_ N]|[i [r [Hi [Fi [Ni [-> [R [-> [FR [CR XR]]]]]]]]]]].
    - intros x. unfold encode_step.
      destruct (L_C15 dbg live CV good_CV c (fe_new FIELD_p x) (canon_new FIELD_p x eq_refl) L) as [R [-> [H|H]]].
      + right. destruct H as [F [FV [X [PC _]]]]. split; [apply on_curve_x_mod; exact F|].
        destruct FV as [I FV]. rewrite I. eexists; split; [reflexivity|]. exists R. split; [reflexivity|]. split; [split; assumption|]. split; [exact PC|]. rewrite X. reflexivity.
      + left. destruct H as [F [-> _]]. split; [|reflexivity]. intros O. apply F. apply on_curve_x_mod in O. exact O.
    - exfalso. change (Z.pos (Z.to_pos FIELD_p)) with FIELD_p in N.
      apply (N ((c_gx CV - 1024 * m) mod FIELD_p)); [apply Z.mod_pos_bound; reflexivity|].
      apply on_curve_x_mod. rewrite Zplus_mod_idemp_r. replace (1024 * m + (c_gx CV - 1024 * m)) with (c_gx CV) by ring.
      apply on_curve_x_mod. exists (c_gy CV). vm_compute. reflexivity.
    - exists i, R. split; [exact Hi|]. split; [reflexivity|]. repeat split; try assumption; try apply FR.
  Qed.

  Lemma L_C32_roundtrip c D m R : dcurve D = Some c -> live c = true -> encode dbg live D m = Ok R ->
    (decode R = m <-> 0 <= m /\ exists i, 0 <= i < 1024 /\ 1024 * m + i < FIELD_p /\ on_curve_x (1024 * m + i)).
  Proof.
    intros Ec L E. destruct (L_C32_encode c D m Ec L) as [i [R' [Hi [E' [_ [_ [X [Oi Ni]]]]]]]].
    rewrite E in E'. apply Ok_inj in E'. subst R'. unfold decode. change (2 ^ ENCODING_SHIFT) with 1024. rewrite X.
    assert (Pp : 0 < FIELD_p) by reflexivity.
    pose proof (Z.mod_pos_bound (1024 * m + i) FIELD_p Pp) as B. split.
    - intros H. pose proof (Z.div_mod ((1024 * m + i) mod FIELD_p) 1024 ltac:(lia)) as Q.
      pose proof (Z.mod_pos_bound ((1024 * m + i) mod FIELD_p) 1024 ltac:(lia)) as BQ. rewrite H in Q.
      set (k := ((1024 * m + i) mod FIELD_p) mod 1024) in *.
      split; [apply Z.nlt_ge; intros Neg; lia|]. exists k. split; [exact BQ|]. split; [lia|]. rewrite <- Q. apply on_curve_x_mod. exact Oi.
    - intros [Hm [k [Hk [Lk Ok]]]].
      assert (i <= k). { apply Z.nlt_ge. intros Lt. exact (Ni k (conj (proj1 Hk) Lt) Ok). }
      rewrite Z.mod_small by lia. rewrite (Z.mul_comm 1024 m), Z.div_add_l by lia. rewrite (Z.div_small i 1024) by lia. ring.
  Qed.

  Lemma decode_den P Q : finite live Q -> is_valid live P -> den CV P = den CV Q -> decode P = decode Q.
  Proof.
    intros FR V' DR. unfold decode. f_equal. destruct FR as [FI [CX [_ _]]].
    destruct V' as [-> | [FI' [CX' _]]].
    - exfalso. unfold den in DR. rewrite FI in DR. discriminate DR.
    - unfold den in DR. rewrite FI, FI' in DR. injection DR as X _.
      destruct CX as [_ CX], CX' as [_ CX']. change (fieldp CV) with (c_prime CV) in CX, CX'.
      rewrite <- (Z.mod_small _ _ CX), <- (Z.mod_small _ _ CX'). exact X.
  Qed.

  (** the integer interface on both ends of C26 *)
  Lemma L_C26_integer D b r m s t : dme_ok live D -> branch b ->
    exists kp ct us R, KeyGen dbg live D b r = Ok kp /\ encode dbg live D m = Ok R /\ EncZ dbg live D (kpk kp) b m s t = Ok ct /\
      EccModel.pmul dbg live CV (cu ct) (ksk kp) = Ok us /\
      (pinf us = false -> pinf (cmv ct) = false -> DecDecode dbg live (ksk kp) ct = Ok (decode R)).
  Proof.
    intros OK Hb. destruct OK as [[c [Ec L]] CV']. assert (OK : dme_ok live D) by (split; [exists c; split; assumption|exact CV']).
    destruct (L_C32_encode c D m Ec L) as [i [R [_ [ER [FR _]]]]].
    destruct (L_C26 dbg live D b r s t R OK Hb (or_intror FR)) as [kp [ct [us [EK [EE [EU [_ [_ H]]]]]]]].
    exists kp, ct, us, R. split; [exact EK|]. split; [exact ER|]. split; [unfold EncZ; rewrite ER; exact EE|]. split; [exact EU|].
    intros I1 I2. destruct (H I1 I2) as [R' [ED [V' DR]]]. unfold DecDecode. rewrite ED. cbn [bind]. f_equal.
    apply decode_den; assumption.
  Qed.
End Encode.
