(** The test programs for fields, points, secret sharing, aggregation, CRC and AES. *)
From Coq Require Import ZArith Znumtheory Bool String List Lia.
From Verif Require Import Outcome FieldModel ZpField SpecField FieldProofs ECGroup ECOrder CurveParams CurveFacts EccModel EccProofs
  SpecEcc EccThms EccThms2 Emb RF ECCert TestCert
  ShamirModel SpecShamir ShamirProofs ShamirProofs2 DmeModel SpecDme DmeProofs OtModel SpecOt OtProofs PudaModel SpecPuda PudaProofs
  CrcModel SpecCrc CrcProofs CrcProofs2 CrcProofs3 CrcProofs4 AesModel SpecAes AesProofs AesProofs2 TextModel OpprfModel TestModel.
Import ListNotations.
Open Scope Z_scope.

Lemma tally_0 l : forall s, tally l s = Ok 0 <-> s = 0 /\ Forall (eq (Ok true)) l.
Proof.
  induction l as [|t l IH]; intros s; cbn [tally].
  - split; [intros E; injection E as ->; auto|intros [-> _]; reflexivity].
  - destruct t as [[|]|f]; cbn [bind].
    + rewrite IH. split; intros [H F]; (split; [exact H|]); [constructor; [reflexivity|exact F]|inversion F; assumption].
    + rewrite IH. split; [intros [H _]; discriminate H|intros [_ F]; inversion F; discriminate].
    + split; [discriminate|intros [_ F]; inversion F; discriminate].
Qed.
Lemma tally_all l : Forall (eq (Ok true)) l -> tally l 0 = Ok 0.
Proof. intros H. apply tally_0. split; [reflexivity|exact H]. Qed.

(** ** Fields *)
Lemma L_main_fields dbg : main_fields dbg = Ok 0.
Proof. destruct dbg; vm_compute; reflexivity. Qed.

(** ** Points *)
Section Points.
  Variables (dbg : bool) (live : Z -> bool) (c : Z).
  Hypothesis L : live c = true.
  Let C := secp256r1.
  Notation p := (c_prime secp256r1).
  Let HC : good C := good_secp256r1.
  Let N : nice p (c_a C) (c_b C) := isnice C HC.

  Definition inr (x y : Z) : bool := (0 <=? x) && (x <? p) && (0 <=? y) && (y <? p) && ((y * y) mod p =? (x * x * x + c_a C * x + c_b C) mod p).
  Lemma known x y : inr x y = true -> finite_valid live C (pt_z C x y (Some c)) /\ den C (pt_z C x y (Some c)) = Some (mk p x, mk p y).
  Proof.
    unfold inr. rewrite !andb_true_iff, !Z.leb_le, !Z.ltb_lt, Z.eqb_eq. intros [[[[Hx Hx'] Hy] Hy'] E].
    assert (Q : fieldp C = p) by reflexivity.
    assert (Vx : fe_new (fieldp C) x = mkfe x p) by (rewrite Q; unfold fe_new; rewrite (Z.mod_small x); [reflexivity|lia]).
    assert (Vy : fe_new (fieldp C) y = mkfe y p) by (rewrite Q; unfold fe_new; rewrite (Z.mod_small y); [reflexivity|lia]).
    unfold pt_z. rewrite Vx, Vy. split; [|reflexivity].
    split; [reflexivity|]. cbn [px py pcur fval]. rewrite Q.
    split; [split; [reflexivity|exact (conj Hx Hx')]|]. split; [split; [reflexivity|exact (conj Hy Hy')]|].
    split; [exists c; split; [reflexivity|exact L]|]. exact E.
  Qed.

  Lemma psame_yields r s E : yields live C r E -> yields live C s E -> psame live r s = Ok true.
  Proof.
    intros [R [-> [V D]]] [T [-> [V' D']]]. unfold psame. cbn [bind].
    destruct (L_C18 live C HC R T V V') as [b [E1 H]]. change secp256r1 with C. rewrite E1. f_equal. apply H. congruence.
  Qed.
  Lemma ok_yields P : valid live C P -> yields live C (Ok P) (den C P).
  Proof. intros V. exists P. split; [reflexivity|]. split; [exact V|reflexivity]. Qed.

  Let Px := 84977697328889810205905983495378814169915355456656637049711992216827273875390.
  Let Py := 113984765640120748176992606851862342793053973752254499151000631165261995767165.
  Let Qx := 63697252059872284381272932401874909409951463282505777844481084789510570568792.
  Let Qy := 42108181942940304799197775515120260512991621230487422734550324972312644964859.

  Lemma times_chain l k x y : run p (c_a C) Px Py 270 (16 * (p * p)) l 1 Px Py = Some (k, x, y) -> inr Px Py = true ->
    gmul C k (Some (mk p Px, mk p Py)) = Some (mk p x, mk p y).
  Proof.
    intros R I. unfold gmul. assert (Rx : 0 <= Px < p) by (unfold inr in I; rewrite !andb_true_iff, !Z.leb_le, !Z.ltb_lt in I; tauto).
    eapply (run_spec p (c_a C) (c_b C) Px Py 270 N (16 * (p * p))); [| | | | |exact R].
    - exists (16 * p). ring.
    - exact Rx.
    - apply (equation_on C). unfold inr in I. rewrite !andb_true_iff, Z.eqb_eq in I. apply I.
    - exact Rx.
    - rewrite ezmul_1. reflexivity.
  Qed.

  Lemma lookup x y z : inr x y = true -> y = (z * z) mod p ->
    psame live (Ok (pt_z C x y (Some c))) (evaluateP dbg live C (Some c) (px (pt_z C x y (Some c)))) = Ok true.
  Proof.
    intros I Ez. destruct (known x y I) as [V _]. destruct (L_C15_root dbg live C HC _ c V L) as [[E _]|[_ [_ F]]].
    - rewrite E. apply (psame_yields _ _ (den C (pt_z C x y (Some c)))); apply ok_yields; right; exact V.
    - exfalso. apply F. exists z. change (y mod p = (z * z) mod p). rewrite Ez, Z.mod_mod by discriminate. reflexivity.
  Qed.

  Let Ax := 101186946395279644513138790537604879293941435118431328907674518710966683828402.
  Let Ay := 6816289991419636437079674250297745566237099260731735769842810406514765603894.
  Let Tx := 21353238564127361844413850988930366307036826902481189565622865528243313548234.
  Let Ty := 19693254829710921034570991117370582129849796669680234808809542666479612482892.
  Let Nx := 7351186338741311390390579546112325810531162022156291610136117810248366013335.
  Let Ny := 20620688547460148735246365938363003834064651421739100004113374821348606164774.
  Let Mx := 39713820183789898512483171409752538453383718839221188993776377142904537596963.
  Let My := 48365718026147700096726340623511188595478532931695481815446315261246227175991.
  Let Sx := 17495055239713755065764498232777582223458639405056673754653767594082808961074.
  Let Sy := 114881897483998757494520577973324734261879933230870480577216288699002102291593.

  Lemma all_in : inr Px Py = true /\ inr Qx Qy = true /\ inr Ax Ay = true /\ inr Tx Ty = true /\ inr Nx Ny = true /\
    inr Mx My = true /\ inr Sx Sy = true.
  Proof. vm_compute. repeat split. Qed.

  Lemma sum_PQ : gadd C (Some (mk p Px, mk p Py)) (Some (mk p Qx, mk p Qy)) = Some (mk p Ax, mk p Ay).
  Proof.
    unfold gadd. apply (chord_step p (c_a C) (c_b C) 270 N (16 * (p * p))) with (s := slope_add).
    - exists (16 * p). ring.
    - split; vm_compute; [discriminate|reflexivity].
    - split; vm_compute; [discriminate|reflexivity].
    - vm_compute; reflexivity.
    - vm_compute; reflexivity.
    - vm_compute; reflexivity.
  Qed.
  Lemma diff_PQ : gadd C (Some (mk p Px, mk p Py)) (gneg C (Some (mk p Qx, mk p Qy))) = Some (mk p Sx, mk p Sy).
  Proof.
    unfold gadd, gneg, eneg, neg. rewrite mk_opp.
    apply (chord_step p (c_a C) (c_b C) 270 N (16 * (p * p))) with (s := slope_sub).
    - exists (16 * p). ring.
    - split; vm_compute; [discriminate|reflexivity].
    - split; vm_compute; [discriminate|reflexivity].
    - vm_compute; reflexivity.
    - vm_compute; reflexivity.
    - vm_compute; reflexivity.
  Qed.
  Lemma multiples : gmul C 10 (Some (mk p Px, mk p Py)) = Some (mk p Tx, mk p Ty) /\
    gmul C 99 (Some (mk p Px, mk p Py)) = Some (mk p Nx, mk p Ny) /\
    gmul C 90912389 (Some (mk p Px, mk p Py)) = Some (mk p Mx, mk p My).
  Proof.
    destruct all_in as [I _]. split; [|split].
    - apply (times_chain chain10); [vm_compute; reflexivity|exact I].
    - apply (times_chain chain99); [vm_compute; reflexivity|exact I].
    - apply (times_chain chain90912389); [vm_compute; reflexivity|exact I].
  Qed.

  (** the tests after the first *)
  Definition ecc_rest (P Q PplusQ Ptimes10 Ptimes99 Ptimes90912389 PminusQ : point) : list (res bool) :=
    let Inf := pt_inf C in [
      (do G <- getDefaultGen live C (Some c); isValid dbg live C G);
      isValid dbg live C P;
      isValid dbg live C Q;
      psame live (padd dbg live C Inf P) (Ok P);
      psame live (padd dbg live C P Inf) (Ok P);
      psame live (padd dbg live C P P) (pdouble dbg live C P);
      psame live (psub dbg live C P P) (Ok Inf);
      psame live (pmulz dbg live C Inf 1000) (Ok Inf);
      psame live (padd dbg live C P Q) (Ok PplusQ);
      psame live (Ok Ptimes10) (pmulz dbg live C P 10);
      psame live (Ok Ptimes99) (pmulz dbg live C P 99);
      psame live (Ok Ptimes90912389) (pmulz dbg live C P 90912389);
      psame live (psub dbg live C P Q) (Ok PminusQ);
      psame live (Ok P) (evaluateP dbg live C (Some c) (px P));
      psame live (Ok Q) (evaluateP dbg live C (Some c) (px Q)) ].

  Lemma rest_ok : Forall (eq (Ok true)) (ecc_rest (pt_z C Px Py (Some c)) (pt_z C Qx Qy (Some c)) (pt_z C Ax Ay (Some c))
    (pt_z C Tx Ty (Some c)) (pt_z C Nx Ny (Some c)) (pt_z C Mx My (Some c)) (pt_z C Sx Sy (Some c))).
  Proof.
    destruct all_in as [Ip [Iq [Ia [It [In [Im Is]]]]]].
    destruct (known _ _ Ip) as [Vp Dp], (known _ _ Iq) as [Vq Dq], (known _ _ Ia) as [Va Da], (known _ _ It) as [Vt Dt],
      (known _ _ In) as [Vn Dn], (known _ _ Im) as [Vm Dm], (known _ _ Is) as [Vs Ds].
    pose proof (lookup Px Py root_P Ip ltac:(vm_compute; reflexivity)) as Lp.
    pose proof (lookup Qx Qy root_Q Iq ltac:(vm_compute; reflexivity)) as Lq.
    destruct multiples as [M1 [M2 M3]].
    unfold ecc_rest. cbv zeta.
    set (P := pt_z C Px Py (Some c)) in *. set (Q := pt_z C Qx Qy (Some c)) in *. set (PA := pt_z C Ax Ay (Some c)) in *.
    set (PT := pt_z C Tx Ty (Some c)) in *. set (PN := pt_z C Nx Ny (Some c)) in *. set (PM := pt_z C Mx My (Some c)) in *.
    set (PS := pt_z C Sx Sy (Some c)) in *.
    assert (V0 : valid live C (pt_inf C)) by (left; reflexivity).
    assert (D0 : den C (pt_inf C) = None) by reflexivity.
    assert (Neu : gadd C (den C P) (gneg C (den C P)) = None).
    { apply (eadd_neg_r p (c_a C) (c_b C) N). rewrite Dp. apply (equation_on C).
      unfold inr in Ip. rewrite !andb_true_iff, Z.eqb_eq in Ip. apply Ip. }
    constructor.
    { symmetry. unfold getDefaultGen. rewrite L. cbn [bind]. apply (isValid_rf dbg live C HC _ (f1 (fieldn C))). apply (rf_gen live C HC c L). }
    constructor; [symmetry; apply (valid_isValid dbg live C HC); right; exact Vp|].
    constructor; [symmetry; apply (valid_isValid dbg live C HC); right; exact Vq|].
    constructor.
    { symmetry. change (padd dbg live C (pt_inf C) P) with (Ok P). apply (psame_yields _ _ (den C P)); apply ok_yields; right; exact Vp. }
    constructor.
    { symmetry. apply (psame_yields _ _ (den C P)); [|apply ok_yields; right; exact Vp].
      destruct (L_C08 dbg live C HC P (pt_inf C) (or_intror Vp) V0) as [Y _]. rewrite D0 in Y.
      destruct Y as [R [E [V D]]]. exists R. split; [exact E|]. split; [exact V|]. rewrite D. rewrite Dp. reflexivity. }
    constructor.
    { symmetry. destruct (L_C10 dbg live C HC P Vp) as [R [E1 [E2 [VR _]]]]. rewrite E1, E2.
      apply (psame_yields _ _ (den C R)); apply ok_yields; right; exact VR. }
    constructor.
    { symmetry. apply (psame_yields _ _ None); [|apply (ok_yields (pt_inf C)), V0].
      destruct (L_C14 dbg live C HC P P Vp Vp) as [_ [_ Y]]. rewrite Neu in Y. exact Y. }
    constructor; [reflexivity|].
    constructor.
    { symmetry. apply (psame_yields _ _ (den C PA)); [|apply ok_yields; right; exact Va].
      destruct (L_C08 dbg live C HC P Q (or_intror Vp) (or_intror Vq)) as [Y _]. rewrite Dp, Dq, sum_PQ in Y. rewrite Da. exact Y. }
    constructor.
    { symmetry. apply (psame_yields _ _ (den C PT)); [apply ok_yields; right; exact Vt|].
      pose proof (L_C11_den dbg live C HC P 10 (or_intror Vp)) as Y. rewrite Dp, M1 in Y. rewrite Dt. exact Y. }
    constructor.
    { symmetry. apply (psame_yields _ _ (den C PN)); [apply ok_yields; right; exact Vn|].
      pose proof (L_C11_den dbg live C HC P 99 (or_intror Vp)) as Y. rewrite Dp, M2 in Y. rewrite Dn. exact Y. }
    constructor.
    { symmetry. apply (psame_yields _ _ (den C PM)); [apply ok_yields; right; exact Vm|].
      pose proof (L_C11_den dbg live C HC P 90912389 (or_intror Vp)) as Y. rewrite Dp, M3 in Y. rewrite Dm. exact Y. }
    constructor.
    { symmetry. apply (psame_yields _ _ (den C PS)); [|apply ok_yields; right; exact Vs].
      destruct (L_C14 dbg live C HC P Q Vp Vq) as [_ [_ Y]]. rewrite Dp, Dq, diff_PQ in Y. rewrite Ds. exact Y. }
    constructor; [symmetry; exact Lp|].
    constructor; [symmetry; exact Lq|].
    constructor.
  Qed.

  Lemma parse_P : ecc_point c "84977697328889810205905983495378814169915355456656637049711992216827273875390" "113984765640120748176992606851862342793053973752254499151000631165261995767165" = Ok (pt_z C Px Py (Some c)).
  Proof. vm_compute. reflexivity. Qed.
  Lemma parse_Q : ecc_point c "63697252059872284381272932401874909409951463282505777844481084789510570568792" "42108181942940304799197775515120260512991621230487422734550324972312644964859" = Ok (pt_z C Qx Qy (Some c)).
  Proof. vm_compute. reflexivity. Qed.
  Lemma parse_A : ecc_point c "101186946395279644513138790537604879293941435118431328907674518710966683828402" "6816289991419636437079674250297745566237099260731735769842810406514765603894" = Ok (pt_z C Ax Ay (Some c)).
  Proof. vm_compute. reflexivity. Qed.
  Lemma parse_T : ecc_point c "21353238564127361844413850988930366307036826902481189565622865528243313548234" " 19693254829710921034570991117370582129849796669680234808809542666479612482892" = Ok (pt_z C Tx Ty (Some c)).
  Proof. vm_compute. reflexivity. Qed.
  Lemma parse_N : ecc_point c "7351186338741311390390579546112325810531162022156291610136117810248366013335" " 20620688547460148735246365938363003834064651421739100004113374821348606164774" = Ok (pt_z C Nx Ny (Some c)).
  Proof. vm_compute. reflexivity. Qed.
  Lemma parse_M : ecc_point c "39713820183789898512483171409752538453383718839221188993776377142904537596963" " 48365718026147700096726340623511188595478532931695481815446315261246227175991" = Ok (pt_z C Mx My (Some c)).
  Proof. vm_compute. reflexivity. Qed.
  Lemma parse_S : ecc_point c "17495055239713755065764498232777582223458639405056673754653767594082808961074" "114881897483998757494520577973324734261879933230870480577216288699002102291593" = Ok (pt_z C Sx Sy (Some c)).
  Proof. vm_compute. reflexivity. Qed.
  Lemma main_ecc_eq r1 r2 : main_ecc dbg live c r1 r2 =
    do R1 <- getRandomPoint dbg live C (Some c) r1;
    do R2 <- getRandomPoint dbg live C (Some c) r2;
    tally ((do e <- getEncodedX dbg live C R1; do R2 <- setEncodedX dbg live C R2 e; peq live C R2 R1) ::
      ecc_rest (pt_z C Px Py (Some c)) (pt_z C Qx Qy (Some c)) (pt_z C Ax Ay (Some c))
        (pt_z C Tx Ty (Some c)) (pt_z C Nx Ny (Some c)) (pt_z C Mx My (Some c)) (pt_z C Sx Sy (Some c))) 0.
  Proof.
    unfold main_ecc. cbv zeta.
    rewrite parse_P, parse_Q, parse_A, parse_T, parse_N, parse_M, parse_S. cbn [bind].
    reflexivity.
  Qed.
  
  Lemma L_main_ecc r1 r2 :
    (~ (c_order secp256r1 | r1) -> ~ (c_order secp256r1 | r2) -> main_ecc dbg live c r1 r2 = Ok 0) /\
    ((c_order secp256r1 | r1) \/ (c_order secp256r1 | r2) -> main_ecc dbg live c r1 r2 = Err NullDeref).
  Proof.
    rewrite main_ecc_eq.
    destruct (getRandomPoint_rf dbg live C HC c r1 L) as [R1 [E1 K1]]. rewrite E1. cbn [bind].
    destruct (getRandomPoint_rf dbg live C HC c r2 L) as [R2 [E2 K2]]. rewrite E2. cbn [bind].
    pose proof rest_ok as RO.
    match type of RO with Forall _ ?l => set (rest := l) in * end.
    assert (Z1 : mk (fieldn C) r1 = f0 (fieldn C) <-> (c_order secp256r1 | r1)) by apply mk_order_0.
    assert (Z2 : mk (fieldn C) r2 = f0 (fieldn C) <-> (c_order secp256r1 | r2)) by apply mk_order_0.
    split.
    - intros N1 N2. apply tally_all. constructor; [|exact RO]. symmetry.
      assert (F1 : finite_valid live C R1) by (apply (rf_finite live C HC _ _ K1); rewrite Z1; exact N1).
      assert (F2 : finite_valid live C R2) by (apply (rf_finite live C HC _ _ K2); rewrite Z2; exact N2).
      destruct (L_C16_total dbg live C HC R1 F1) as [e [Ee _]]. rewrite Ee. cbn [bind].
      destruct F2 as [_ [_ [_ [[c2 [P2 L2]] _]]]].
      destruct (L_C16_roundtrip dbg live C HC R1 R2 e c2 F1 P2 L2 Ee) as [R [ER [FR [D _]]]]. rewrite ER. cbn [bind].
      destruct (L_C18 live C HC R R1 (or_intror FR) (or_intror F1)) as [b [Eb Hb]]. rewrite Eb. f_equal. apply Hb. exact D.
    - intros [D|D].
      + assert (R1 = pt_inf C) as -> by (apply (rf_zero live C HC), (rf_cong live C _ _ _ K1), Z1, D).
        destruct (L_C19_null dbg live C (px (pt_inf C)) 0 (pt_inf C) eq_refl) as [_ [_ [X _]]]. cbn [tally]. rewrite X. reflexivity.
      + assert (R2 = pt_inf C) as -> by (apply (rf_zero live C HC), (rf_cong live C _ _ _ K2), Z2, D).
        cbn [tally]. destruct (eqFp (fieldn C) (mk (fieldn C) r1) (f0 (fieldn C))) as [Q|Q].
        * assert (R1 = pt_inf C) as -> by (apply (rf_zero live C HC), (rf_cong live C _ _ _ K1), Q).
          destruct (L_C19_null dbg live C (px (pt_inf C)) 0 (pt_inf C) eq_refl) as [_ [_ [X _]]]. rewrite X. reflexivity.
        * assert (F1 : finite_valid live C R1) by (apply (rf_finite live C HC _ _ K1); exact Q).
          destruct (L_C16_total dbg live C HC R1 F1) as [e [Ee _]]. rewrite Ee. cbn [bind].
          destruct (L_C19_null dbg live C (px (pt_inf C)) e (pt_inf C) eq_refl) as [_ [_ [_ X]]]. rewrite X. reflexivity.
  Qed.
End Points.

(** ** Secret sharing *)
Lemma main_shamirss_ext dbg cap rnd rnd' : (forall i, (i < 6)%nat -> rnd i = rnd' i) ->
  main_shamirss dbg cap rnd = main_shamirss dbg cap rnd'.
Proof.
  intros H. unfold main_shamirss, getShares. change ((7 - 1) mod SIZE) with 6. cbv zeta.
  change (Z.to_nat 6) with 6%nat. cbn [seq mapM].
  rewrite !H by lia. reflexivity.
Qed.

Lemma L_main_shamirss dbg cap rnd : 10 <= cap -> rand_range rnd ->
  ((forall i, (i < 6)%nat -> rnd i <> 2 ^ 31 - 1) -> main_shamirss dbg cap rnd = Ok 0) /\
  ((exists i, (i < 6)%nat /\ rnd i = 2 ^ 31 - 1) -> main_shamirss dbg cap rnd = Err SignedOverflow).
Proof.
  intros Cp R. split.
  - intros H. set (rnd' := fun i => if Nat.ltb i 6 then rnd i else 0).
    rewrite (main_shamirss_ext dbg cap rnd rnd').
    2: { intros i Hi. unfold rnd'. apply Nat.ltb_lt in Hi. rewrite Hi. reflexivity. }
    assert (NO : no_overflow rnd').
    { intros i. unfold rnd', INT_MAX. destruct (Nat.ltb_spec i 6) as [Hi|_]; [|lia].
      pose proof (R i) as Ri. pose proof (H i Hi). unfold INT_MAX in Ri. lia. }
    assert (Sc : scalar (fe_new FIELD 11)) by (split; [reflexivity|vm_compute; split; [discriminate|reflexivity]]).
    unfold main_shamirss. cbv zeta.
    destruct (L_C24_shape dbg cap rnd' 7 10 (fe_new FIELD 11) Sc ltac:(unfold SIZE; lia) ltac:(lia) ltac:(lia) NO) as [sh [E [Len NTH]]].
    rewrite E. cbn [bind].
    assert (ND : NoDup sh).
    { apply NoDup_nth_error. intros i j Hi Eq.
      assert (Hi' : (i < 10)%nat) by lia.
      assert (Hj : (j < length sh)%nat) by (apply nth_error_Some; rewrite <- Eq; apply nth_error_Some; exact Hi).
      pose proof (NTH (Z.of_nat i + 1) ltac:(lia)) as A. pose proof (NTH (Z.of_nat j + 1) ltac:(lia)) as B.
      replace (Z.to_nat (Z.of_nat i + 1 - 1)) with i in A by lia. replace (Z.to_nat (Z.of_nat j + 1 - 1)) with j in B by lia.
      rewrite Eq, B in A. injection A as A _. 
      assert (FB : 2 ^ 64 < FIELD) by (vm_compute; reflexivity).
      rewrite !Z.mod_small in A by lia. lia. }
    assert (RR : rand_range rnd') by (intros i; pose proof (NO i); lia).
    rewrite (L_C20 dbg cap rnd' 7 10 (fe_new FIELD 11) sh sh ltac:(lia) ltac:(unfold SIZE; lia) RR Sc E ND (incl_refl _) ltac:(lia)).
    cbn [bind]. vm_compute. reflexivity.
  - intros [i [Hi E]]. unfold main_shamirss. cbv zeta.
    rewrite (L_C24_overflow dbg cap rnd 7 10 (fe_new FIELD 11) (Z.of_nat i) ltac:(unfold SIZE; lia) ltac:(lia) ltac:(lia) ltac:(lia));
      [reflexivity|]. rewrite Nat2Z.id. exact E.
Qed.

(** ** Aggregation *)
Section Puda.
  Variables (dbg : bool) (live : Z -> bool).

  Lemma vat_mid {A} (pre : list A) x post : vat (pre ++ x :: post) (Z.of_nat (length pre)) = Ok x.
  Proof.
    unfold vat. destruct (Z.ltb_spec (Z.of_nat (length pre)) 0); [lia|]. rewrite Nat2Z.id, nth_error_app2, Nat.sub_diag by lia. reflexivity.
  Qed.

  Lemma users_loop pp m t ekv' : forall ekv skv pe ps skv' cs ts c0 t0, length pe = length ps ->
    ekv = pe ++ ekv' -> skv = ps ++ skv' -> length ekv' = length skv' ->
    mapM (fun x => PEnc dbg live pp (fst x) (snd x) t) (combine ekv' (repeat m (length ekv'))) = Ok cs ->
    mapM (fun x => PTag dbg live pp (fst x) (snd x) t) (combine skv' (repeat m (length ekv'))) = Ok ts ->
    foldM (puda_user dbg live pp ekv skv m t) (seq (length pe) (length ekv')) (c0, t0) = Ok (c0 ++ cs, t0 ++ ts).
  Proof.
    induction ekv' as [|ek ekv' IH]; intros ekv skv pe ps skv' cs ts c0 t0 HL -> -> HL' EC ET.
    - destruct skv'; [|discriminate HL']. cbn in EC, ET. injection EC as <-. injection ET as <-. rewrite !app_nil_r. reflexivity.
    - destruct skv' as [|sk skv']; [discriminate HL'|]. cbn [length repeat combine mapM fst snd] in EC, ET.
      apply bind_Ok in EC. destruct EC as [c [E1 EC]]. apply bind_Ok in EC. destruct EC as [cs' [E2 EC]]. injection EC as <-.
      apply bind_Ok in ET. destruct ET as [g [G1 ET]]. apply bind_Ok in ET. destruct ET as [ts' [G2 ET]]. injection ET as <-.
      cbn [length seq foldM]. unfold puda_user at 1. rewrite vat_mid. cbn [bind]. rewrite E1. cbn [bind].
      rewrite HL, vat_mid. cbn [bind]. rewrite G1. cbn [bind fst snd]. 
      replace (S (length ps)) with (length (pe ++ [ek])) by (rewrite app_length; cbn; lia).
      rewrite (IH (pe ++ ek :: ekv') (ps ++ sk :: skv') (pe ++ [ek]) (ps ++ [sk]) skv' cs' ts').
      + rewrite <- !app_assoc. reflexivity.
      + rewrite !app_length, HL. reflexivity.
      + rewrite <- app_assoc. reflexivity.
      + rewrite <- app_assoc. reflexivity.
      + cbn in HL'. lia.
      + exact E2.
      + exact G2.
  Qed.

  Lemma L_main_puda c1 c2 rh ra d : live c1 = true -> live c2 = true -> main_puda dbg live c1 c2 rh ra d = Ok 0.
  Proof.
    intros L1 L2. set (ds := map d (seq 0 10)). set (ms := repeat 2 10).
    destruct (Setup_rf dbg live c1 c2 rh ra ds L1 L2) as [pp [vk [ES _]]].
    destruct (L_C37 dbg live c1 c2 rh ra ds ms 99 L1 L2 eq_refl) as [o [E [Sm _]]].
    { repeat constructor; lia. }
    { vm_compute; reflexivity. }
    unfold SpecPuda.session in E. rewrite ES in E. cbn [bind] in E.
    apply bind_Ok in E. destruct E as [cs [EC E]]. apply bind_Ok in E. destruct E as [ts [ET E]].
    apply bind_Ok in E. destruct E as [r [EA E]]. injection E as <-. cbn [o_sum] in Sm.
    unfold main_puda. cbv zeta. fold ds. rewrite ES. cbn [bind].
    match type of EC with context [combine ?a ms] => set (ekv := a) in * end.
    match type of ET with context [combine ?a ms] => set (skv := a) in * end.
    assert (Le : length ekv = 10%nat) by (unfold ekv; rewrite map_length; reflexivity).
    assert (Ls : length skv = 10%nat) by (unfold skv; rewrite map_length; reflexivity).
    pose proof (users_loop pp 2 99 ekv ekv skv [] [] skv cs ts [] [] eq_refl eq_refl eq_refl) as UL.
    rewrite Le, Ls in UL. cbn [length] in UL. rewrite (UL eq_refl EC ET). cbn [bind fst snd app]. rewrite EA. cbn [bind].
    rewrite Sm. reflexivity.
  Qed.
End Puda.

(** ** Checks *)
Lemma L_main_crc room p1 p2 a : 0 <= a -> nbytes a + 4 < 2 ^ 64 ->
  main_crc false room p1 p2 a =
  if a =? 0 then Err NullDeref else if room (nbytes a) <? nbytes a + 4 then Err OutOfBounds else Ok 0.
Proof.
  intros A B. unfold main_crc. destruct (Z.eqb_spec a 0) as [->|NZ]; [reflexivity|].
  destruct (Z.ltb_spec (room (nbytes a)) (nbytes a + 4)) as [H|H].
  - rewrite (proj2 (L_C43_append_any false room p1 a NZ) H). reflexivity.
  - destruct (L_C42 room p1 p2 a ltac:(lia) B H) as [r [-> [E1 E2]]]. cbn [bind]. rewrite E1. cbn [bind]. rewrite E2. cbn [bind].
    rewrite Z.eqb_refl. reflexivity.
Qed.

Lemma L_main_crc_big room p1 p2 a : 0 < a -> nbytes a < 2 ^ 32 -> nbytes a + 4 <= room (nbytes a) ->
  forall c0 c1 c2 c3, Forall byte [c0; c1; c2; c3] -> crc 0 (getRawMpz a) = little_endian [c0; c1; c2; c3] ->
  main_crc true room p1 p2 a = Ok (if (c0 =? c3) && (c1 =? c2) then 0 else -1).
Proof.
  intros A B R c0 c1 c2 c3 F E. unfold main_crc.
  destruct (L_C42_big room p1 p2 a A B R) as [r [Ea V]]. specialize (V c0 c1 c2 c3 F E).
  rewrite Ea. cbn [bind].
  apply append_checked in Ea; [|lia]. destruct Ea as [_ [-> _]].
  pose proof (nbytes_append true a A) as NA.
  assert (T : 2 ^ 24 <= Z.abs (checked true a)).
  { rewrite Z.abs_eq by apply checked_nonneg. pose proof (checked_nonneg true a). pose proof (nbytes_nonneg a).
    unfold checked in *. set (w := big_endian _) in *. destruct (Z_lt_dec w (2 ^ 24)) as [Lt|]; [|lia]. exfalso.
    unfold nbytes in NA at 1. destruct (w =? 0) eqn:E0; [lia|]. rewrite Z.abs_eq in NA by lia.
    assert (Z.log2 w < 24) by (apply Z.log2_lt_pow2; [apply Z.eqb_neq in E0; lia|exact Lt]).
    assert (Z.log2 w / 8 < 3) by (apply Z.div_lt_upper_bound; lia).
    assert (nbytes a <> 0) by (unfold nbytes; destruct (Z.eqb_spec a 0); [lia|]; pose proof (Z.log2_nonneg (Z.abs a)); pose proof (Z.div_pos (Z.log2 (Z.abs a)) 8); lia).
    lia. }
  destruct (proj2 (L_C43_validate true p2 (checked true a)) T) as [v Ev]. rewrite Ev in *. cbn [bind].
  assert (RM : removeCRC (checked true a) = Ok a).
  { pose proof (append_shortest true a A) as S. cbv zeta in S. apply getRaw_unique in S.
    unfold checked. rewrite (remove_eq _ _ _ S (obj32_length _ _)).
    - f_equal. pose proof (L_getRaw a) as [_ [X _]]. lia.
    - unfold checked in NA. rewrite NA. lia. }
  rewrite RM. cbn [bind]. rewrite Z.eqb_refl. f_equal.
  destruct v.
  - destruct (proj1 V eq_refl) as [-> ->]. rewrite !Z.eqb_refl. reflexivity.
  - destruct (Z.eqb_spec c0 c3) as [->|]; [|reflexivity]. destruct (Z.eqb_spec c1 c2) as [->|]; [|reflexivity].
    pose proof (proj2 V (conj eq_refl eq_refl)). discriminate.
Qed.

(** ** AES *)
Lemma L_main_aes e key m : block_cipher (block e) -> big_endian_host e = false -> 0 <= m < 2 ^ 128 ->
  main_aes e key m = Ok 0 <->
  0 < m /\ nbytes m + 4 <= room e (nbytes m) /\
  exists v k, iv_block e [] = Ok v /\ leading16 (getRawMpz key) k /\
    Z.lxor (m / 256 ^ (nbytes m - 1)) (stream_byte (block e) k v 0) <> 0.
Proof.
  intros B H M.
  assert (T : nbytes m <= 124).
  { unfold nbytes. destruct (Z.eqb_spec m 0); [lia|]. rewrite Z.abs_eq by lia.
    assert (Z.log2 m < 128) by (apply Z.log2_lt_pow2; lia). assert (Z.log2 m / 8 < 16) by (apply Z.div_lt_upper_bound; lia). lia. }
  rewrite <- (L_C49_exact e [] key m B H ltac:(lia) T). unfold main_aes. cbv zeta. change (init iv_start) with (@nil Z).
  destruct (encryptCRC e [] key m) as [c|f]; cbn [bind]; [|split; discriminate].
  destruct (decryptCRC e [] key c) as [x|f]; cbn [bind]; [|split; discriminate].
  destruct (Z.eqb_spec x m) as [->|N]; split; try reflexivity; intros E; try discriminate E. injection E as ->. contradiction.
Qed.

Lemma L_main_crc_glibc p1 p2 a : 0 < a -> nbytes a + 4 < 2 ^ 64 ->
  main_crc false glibc p1 p2 a = (if (20 <? nbytes a) && (5 <=? nbytes a mod 16) && (nbytes a mod 16 <=? 8) then Err OutOfBounds else Ok 0).
Proof.
  intros A B. rewrite L_main_crc by lia. rewrite (proj2 (Z.eqb_neq a 0)) by lia.
  pose proof (L_C43_glibc false p1 a ltac:(lia)) as G. pose proof (L_C43_append_any false glibc p1 a ltac:(lia)) as X.
  destruct (Z.ltb_spec (glibc (nbytes a)) (nbytes a + 4)) as [H|H].
  - apply X in H. apply G in H. destruct H as [H1 [H2 H3]].
    rewrite (proj2 (Z.ltb_lt _ _) H1), (proj2 (Z.leb_le _ _) H2), (proj2 (Z.leb_le _ _) H3). reflexivity.
  - destruct (_ && _) eqn:E; [|reflexivity]. exfalso. apply andb_prop in E. destruct E as [E E3]. apply andb_prop in E. destruct E as [E1 E2].
    apply Z.ltb_lt in E1. apply Z.leb_le in E2, E3. assert (H' := proj1 X (proj2 G (conj E1 (conj E2 E3)))). lia.
Qed.
