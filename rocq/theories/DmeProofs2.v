(** Proofs about decryption on the other branch and about arbitrary common reference strings. *)
From Coq Require Import ZArith Znumtheory Bool List Lia Field.
From Verif Require Import Outcome FieldModel ZpField SpecField FieldProofs ECGroup ECOrder CurveParams CurveFacts EccModel EccProofs SpecEcc EccThms Emb RF DmeModel SpecDme DmeProofs.
Import ListNotations.
Open Scope Z_scope.

Section Dme2.
  Variables (dbg : bool) (live : Z -> bool).
  Notation n := (fieldn CV).
  Let Hn : prime n := prime_n CV good_CV.
  Let HF := field_Fp n Hn.
  Add Field DmeField2 : HF.
  Notation F := (Fp n).
  Notation rf := (rf live CV).
  Notation em := (em n).
  Notation mk := (mk n).
  Infix "+" := (fadd n).
  Infix "*" := (fmul n).
  Infix "-" := (fsub n).
  Notation "'O'" := (f0 n).

  Lemma mult_drf D a0 a1 b0 b1 : dme_ok live D -> crs_logs live (dcrs D) a0 a1 b0 b1 ->
    exists c, drf live D c (mk a0) (mk a1) (mk b0) (mk b1).
  Proof.
    intros [[c [Ec L]] _] [A [B [A' B']]]. apply (multiple_rf live) in A, B, A', B'. exists c. constructor; assumption.
  Qed.
  Lemma branch_other b : branch b -> branch (1 - b)%Z.
  Proof. intros [-> | ->]; [right|left]; reflexivity. Qed.
  Lemma pick_other b (x y : F) : branch b -> pick (1 - b)%Z x y = pick b y x.
  Proof. intros [-> | ->]; reflexivity. Qed.
  Lemma pick_mk b x y : branch b -> pick b (mk x) (mk y) = mk (if b =? 0 then x else y).
  Proof. intros [-> | ->]; reflexivity. Qed.

  (** ** C66 *)
  Lemma L_C66 D b r s t m a0 a1 b0 b1 k : dme_ok live D -> branch b -> crs_logs live (dcrs D) a0 a1 b0 b1 -> multiple live m k ->
    exists kp c us, KeyGen dbg live D b r = Ok kp /\ Enc dbg live D (kpk kp) (1 - b)%Z m s t = Ok c /\
      EccModel.pmul dbg live CV (cu c) (ksk kp) = Ok us /\
      let e := (if b =? 0 then r * (s * (a0 - a1) + t * (b0 - b1)) else r * (s * (a1 - a0) + t * (b1 - b0)))%Z in
      let w := (if b =? 0 then s * a1 + t * b1 else s * a0 + t * b0)%Z in
      (pinf us = true <-> (order | (r * w)%Z)) /\ (pinf (cmv c) = true <-> (order | (r * w + e + k)%Z)) /\
      (pinf us = false -> pinf (cmv c) = false ->
       exists R, Dec dbg live (ksk kp) c = Ok R /\ multiple live R (k + e)%Z /\ (same_point R m <-> (order | e))).
  Proof.
    intros OK Hb A M. apply (multiple_rf live) in M. destruct (mult_drf _ _ _ _ _ OK A) as [cc K].
    destruct (KeyGen_rf dbg live D cc _ _ _ _ b r K Hb) as [kp [E [X [Y SK]]]].
    destruct (Enc_rf dbg live D cc _ _ _ _ (1 - b)%Z (kpk kp) _ _ m _ s t K (branch_other b Hb) X Y M) as [ct [E' [U W]]].
    rewrite !(pick_other b _ _ Hb) in U.
    destruct (pmul_rf dbg live CV good_CV _ _ (mk r) U) as [us [Eu Ku]].
    exists kp, ct, us. rewrite SK. split; [exact E|]. split; [exact E'|]. split; [exact Eu|]. cbv zeta.
    set (w := if b =? 0 then (s * a1 + t * b1)%Z else _). set (e := if b =? 0 then (r * (s * (a0 - a1) + t * (b0 - b1)))%Z else _).
    assert (Ew : mk s * pick b (mk a1) (mk a0) + mk t * pick b (mk b1) (mk b0) = mk w).
    { unfold w. destruct Hb as [-> | ->]; unfold pick; cbn [Z.eqb]; rewrite <- mk_add, <- !mk_mul; reflexivity. }
    assert (Ee : mk s * (mk r * pick b (mk a0) (mk a1)) + mk t * (mk r * pick b (mk b0) (mk b1)) = mk r * mk w + mk e).
    { unfold w, e. destruct Hb as [-> | ->]; unfold pick; cbn [Z.eqb]; repeat (rewrite <- ?mk_add, <- ?mk_mul, <- ?mk_sub); ring. }
    rewrite Ew in U, Ku. rewrite Ee in W.
    split. { rewrite (rf_pinf live CV good_CV _ _ Ku), <- mk_order_0, <- mk_mul. reflexivity. }
    split. { rewrite (rf_pinf live CV good_CV _ _ W), <- mk_order_0, <- !mk_add, <- mk_mul. reflexivity. }
    intros N1 N2. apply (rf_pinf_false live CV good_CV _ _ Ku) in N1. apply (rf_pinf_false live CV good_CV _ _ W) in N2.
    destruct (Dec_rf dbg live ct _ _ (mk r) U W N1 N2) as [R [ER KR]]. exists R. split; [exact ER|].
    assert (KR' : rf R (mk k + mk e)) by (apply (rf_cong live CV _ _ _ KR); ring).
    split. { apply (multiple_rf live). rewrite <- mk_add. exact KR'. }
    rewrite (same_rf live _ _ _ _ KR' M), <- mk_order_0. split; intros H.
    - transitivity (mk k + mk e - mk k); [ring|]. rewrite H. ring.
    - rewrite H. ring.
  Qed.

  (** ** C67 *)
  Lemma det_iff a0 a1 b0 b1 : (order | (a0 * b1 - a1 * b0)%Z) <-> mk a0 * mk b1 = mk a1 * mk b0.
  Proof. rewrite !mk_mul. symmetry. apply mk_order_eq. Qed.

  Lemma L_C67_key D b r kp a0 a1 b0 b1 : dme_ok live D -> branch b -> crs_logs live (dcrs D) a0 a1 b0 b1 ->
    ~ (order | a0) -> ~ (order | a1) -> ~ (order | r) -> KeyGen dbg live D b r = Ok kp ->
    ((exists r' kp', KeyGen dbg live D (1 - b)%Z r' = Ok kp' /\ same_pkey (kpk kp') (kpk kp)) <-> (order | (a0 * b1 - a1 * b0)%Z)).
  Proof.
    intros OK Hb A N0 N1 Nr E. rewrite <- mk_order_0 in N0, N1, Nr. rewrite det_iff.
    destruct (mult_drf _ _ _ _ _ OK A) as [cc K].
    destruct (KeyGen_rf dbg live D cc _ _ _ _ b r K Hb) as [kp1 [E1 [X [Y _]]]]. rewrite E in E1. apply Ok_inj in E1. subst kp1.
    assert (P0 : pick b (mk a0) (mk a1) <> O) by (destruct Hb as [-> | ->]; assumption).
    assert (P1 : pick b (mk a1) (mk a0) <> O) by (destruct Hb as [-> | ->]; assumption).
    assert (DD : mk a0 * mk b1 = mk a1 * mk b0 <->
      pick b (mk a0) (mk a1) * pick b (mk b1) (mk b0) = pick b (mk a1) (mk a0) * pick b (mk b0) (mk b1)).
    { destruct Hb as [-> | ->]; unfold pick; cbn [Z.eqb]; [reflexivity|]. split; intros H; symmetry; exact H. }
    rewrite DD. clear DD. split.
    - intros [r' [kp' [E' [SX SY]]]].
      destruct (KeyGen_rf dbg live D cc _ _ _ _ (1 - b)%Z r' K (branch_other b Hb)) as [kp1 [E1 [X' [Y' _]]]].
      rewrite E' in E1. apply Ok_inj in E1. subst kp1. rewrite (pick_other b _ _ Hb) in X'. rewrite (pick_other b _ _ Hb) in Y'.
      apply (same_rf live _ _ _ _ X' X) in SX. apply (same_rf live _ _ _ _ Y' Y) in SY.
      set (x := pick b (mk a0) (mk a1)) in *. set (y := pick b (mk b0) (mk b1)) in *.
      set (x' := pick b (mk a1) (mk a0)) in *. set (y' := pick b (mk b1) (mk b0)) in *. clearbody x y x' y'.
      apply fsub0. assert (Z0 : mk r * (x * y' - x' * y) = O).
      { transitivity ((mk r * x) * y' - x' * (mk r * y)); [ring|]. rewrite <- SX, <- SY. ring. }
      apply fmul_0 in Z0; [|exact Hn]. destruct Z0; [contradiction|assumption].
    - intros DD. set (x := pick b (mk a0) (mk a1)) in *. set (y := pick b (mk b0) (mk b1)) in *.
      set (x' := pick b (mk a1) (mk a0)) in *. set (y' := pick b (mk b1) (mk b0)) in *.
      set (z := fdiv n (mk r * x) x'). exists (val n z).
      destruct (KeyGen_rf dbg live D cc _ _ _ _ (1 - b)%Z (val n z) K (branch_other b Hb)) as [kp1 [E1 [X' [Y' _]]]].
      rewrite mk_val, (pick_other b _ _ Hb) in X'. rewrite mk_val, (pick_other b _ _ Hb) in Y'. fold x' in X'. fold y' in Y'.
      exists kp1. split; [exact E1|]. split.
      + apply (same_rf live _ _ _ _ X' X). unfold z. field. exact P1.
      + apply (same_rf live _ _ _ _ Y' Y). unfold z. transitivity (fdiv n (mk r * (x * y')) x'); [field; exact P1|].
        rewrite DD. field. exact P1.
  Qed.

  Lemma L_C67_hides D b r kp a0 a1 b0 b1 m m' s t : dme_ok live D -> branch b -> crs_logs live (dcrs D) a0 a1 b0 b1 ->
    ~ (order | a0) -> ~ (order | a1) -> ~ (order | r) -> ~ (order | (a0 * b1 - a1 * b0)%Z) ->
    KeyGen dbg live D b r = Ok kp -> is_valid live m -> is_valid live m' ->
    exists ct s' t', Enc dbg live D (kpk kp) (1 - b)%Z m s t = Ok ct /\ draw s' /\ draw t' /\
      (exists ct', Enc dbg live D (kpk kp) (1 - b)%Z m' s' t' = Ok ct' /\ same_ctxt ct' ct) /\
      (forall s2 t2, draw s2 -> draw t2 ->
        (exists ct', Enc dbg live D (kpk kp) (1 - b)%Z m' s2 t2 = Ok ct' /\ same_ctxt ct' ct) -> s2 = s' /\ t2 = t').
  Proof.
    intros OK Hb A N0 N1 Nr ND E VM VM'. rewrite <- mk_order_0 in N0, N1, Nr. rewrite det_iff in ND.
    destruct (mult_drf _ _ _ _ _ OK A) as [cc K].
    destruct (KeyGen_rf dbg live D cc _ _ _ _ b r K Hb) as [kp1 [E1 [X [Y _]]]]. rewrite E in E1. apply Ok_inj in E1. subst kp1.
    assert (P1 : pick b (mk a1) (mk a0) <> O) by (destruct Hb as [-> | ->]; assumption).
    assert (DD : pick b (mk a0) (mk a1) * pick b (mk b1) (mk b0) <> pick b (mk a1) (mk a0) * pick b (mk b0) (mk b1)).
    { destruct Hb as [-> | ->]; unfold pick; cbn [Z.eqb]; intros H; apply ND; [exact H|symmetry; exact H]. }
    set (x := pick b (mk a0) (mk a1)) in *. set (y := pick b (mk b0) (mk b1)) in *.
    set (x' := pick b (mk a1) (mk a0)) in *. set (y' := pick b (mk b1) (mk b0)) in *.
    refine (hides_core dbg live D cc _ _ _ _ (fdiv n y' x') (kpk kp) _ _ (1 - b)%Z m m' s t
      K (branch_other b Hb) _ _ X Y _ VM VM').
    - rewrite (pick_other b _ _ Hb). exact P1.
    - rewrite !(pick_other b _ _ Hb). fold x' y'. field. exact P1.
    - intros H. apply DD. apply fsub0. apply fsub0 in H.
      assert (Z0 : mk r * (x * y' - x' * y) = O).
      { transitivity (mk r * x * y' - x' * (mk r * y)); [ring|]. rewrite H. field. exact P1. }
      apply fmul_0 in Z0; [|exact Hn]. destruct Z0; [contradiction|assumption].
  Qed.

  (** ** Concrete cases *)
  Ltac small := apply ndiv; split; vm_compute; reflexivity.
  Lemma logs_rf D c a0 a1 b0 b1 : drf live D c (mk a0) (mk a1) (mk b0) (mk b1) -> crs_logs live (dcrs D) a0 a1 b0 b1.
  Proof.
    intros [_ _ A B A' B']. split; [apply (multiple_rf live); exact A|]. split; [apply (multiple_rf live); exact B|].
    split; apply (multiple_rf live); [exact A'|exact B'].
  Qed.
  Lemma messy_logs c r1 r2 r3 r4 : live c = true -> exists D, dme_new dbg live c messy r1 r2 r3 r4 = Ok D /\
    dme_ok live D /\ crs_logs live (dcrs D) r3 r4 (r1 * r3)%Z (r2 * r4)%Z.
  Proof.
    intros L. destruct (new_messy_rf dbg live c r1 r2 r3 r4 L) as [D [E [_ [_ K]]]]. rewrite !mk_mul in K.
    exists D. split; [exact E|]. split; [exact (drf_ok live _ _ _ _ _ _ K)|exact (logs_rf _ _ _ _ _ _ K)].
  Qed.
  Lemma random_logs c r1 r2 r3 r4 : live c = true -> exists D, dme_new_random dbg live c r1 r2 r3 r4 = Ok D /\
    dme_ok live D /\ crs_logs live (dcrs D) r1 r3 r2 r4.
  Proof.
    intros L. destruct (new_random_rf dbg live c r1 r2 r3 r4 L) as [D [E K]].
    exists D. split; [exact E|]. split; [exact (drf_ok live _ _ _ _ _ _ K)|exact (logs_rf _ _ _ _ _ _ K)].
  Qed.

  Lemma L_C66_case c : live c = true ->
    exists D kp ct R, dme_new dbg live c messy 2 3 1 2 = Ok D /\ KeyGen dbg live D 0 2 = Ok kp /\
      Enc dbg live D (kpk kp) 1 (gen CV c) 1 1 = Ok ct /\ Dec dbg live (ksk kp) ct = Ok R /\
      multiple live R (-9) /\ ~ same_point R (gen CV c).
  Proof.
    intros L. destruct (messy_logs c 2 3 1 2 L) as [D [E [OK A]]].
    destruct (L_C66 D 0 2 1 1 (gen CV c) _ _ _ _ 1 OK (or_introl eq_refl) A (gen_rf live c L)) as [kp [ct [us [E1 [E2 [E3 H]]]]]].
    cbv zeta in H. cbn [Z.eqb] in H. destruct H as [H1 [H2 H3]]. 
    destruct H3 as [R [ER [MR HR]]].
    - apply not_true_iff_false. rewrite H1. small.
    - apply not_true_iff_false. rewrite H2. small.
    - exists D, kp, ct, R. split; [exact E|]. split; [exact E1|]. split; [exact E2|]. split; [exact ER|]. split; [exact MR|]. rewrite HR. small.
  Qed.

  (** a random common reference string, neither messy nor decryptable by construction *)
  Lemma L_C67_case c : live c = true ->
    exists D kp, dme_new_random dbg live c 1 2 3 4 = Ok D /\ dme_ok live D /\ crs_logs live (dcrs D) 1 3 2 4 /\
      KeyGen dbg live D 0 2 = Ok kp /\ ~ (order | 1) /\ ~ (order | 3) /\ ~ (order | 2) /\ ~ (order | (1 * 4 - 3 * 2)%Z) /\
      ~ (exists r' kp', KeyGen dbg live D 1 r' = Ok kp' /\ same_pkey (kpk kp') (kpk kp)).
  Proof.
    intros L. destruct (random_logs c 1 2 3 4 L) as [D [E [OK A]]].
    destruct (mult_drf _ _ _ _ _ OK A) as [cc K].
    destruct (KeyGen_rf dbg live D cc _ _ _ _ 0 2 K (or_introl eq_refl)) as [kp [E1 _]].
    exists D, kp. split; [exact E|]. split; [exact OK|]. split; [exact A|]. split; [exact E1|].
    assert (N1 : ~ (order | 1)) by small. assert (N3 : ~ (order | 3)) by small. assert (N2 : ~ (order | 2)) by small.
    assert (ND : ~ (order | (1 * 4 - 3 * 2)%Z)) by small.
    split; [exact N1|]. split; [exact N3|]. split; [exact N2|]. split; [exact ND|].
    intros H. apply ND. apply (L_C67_key D 0 2 kp 1 3 2 4 OK (or_introl eq_refl) A N1 N3 N2 E1). exact H.
  Qed.
End Dme2.
