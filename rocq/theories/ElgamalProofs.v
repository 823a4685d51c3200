(** Proofs about ElGamal encryption. *)
From Coq Require Import ZArith Znumtheory Bool List Lia Field.
From Verif Require Import Outcome FieldModel ZpField SpecField FieldProofs ECGroup ECOrder CurveParams CurveFacts EccModel EccProofs SpecEcc EccThms Emb RF DmeModel SpecDme DmeProofs ElgamalModel SpecElgamal.
Import ListNotations.
Open Scope Z_scope.

Section Elgamal.
  Variables (dbg : bool) (live : Z -> bool).
  Notation n := (fieldn CV).
  Let Hn : prime n := prime_n CV good_CV.
  Let HF := field_Fp n Hn.
  Add Field EgField : HF.
  Notation rf := (rf live CV).
  Notation em := (em n).
  Notation mk := (mk n).

  Lemma eg_new_ok a : live a = true -> elgamal_ok live (eg_new a).
  Proof. intros L. split; [exact L|]. exists a. split; [reflexivity|exact L]. Qed.
  Lemma eg_copy_ok E a : elgamal_ok live E -> live a = true -> elgamal_ok live (eg_copy E a).
  Proof. intros [_ H] L. split; [exact L|exact H]. Qed.

  Lemma scal_em x : scal x -> x = em (mk (fval x)).
  Proof. intros S. apply em_surj; exact S. Qed.

  Lemma encrypt_rf E pk P r k z : elgamal_ok live E -> rf pk k -> rf P z ->
    exists c, eg_encrypt dbg live E pk P r = Ok c /\ rf (cu c) (mk r) /\ rf (cmv c) (fadd n (fmul n (mk r) k) z).
  Proof.
    intros [L [a [EG La]]] K M. unfold eg_encrypt. rewrite (getRandomScalar_em live CV (eaddr E) r L). cbn [bind]. rewrite EG.
    destruct (pmul_rf dbg live CV good_CV _ _ (mk r) (rf_gen live CV good_CV a La)) as [u [-> U]]. cbn [bind].
    destruct (pmul_rf dbg live CV good_CV _ _ (mk r) K) as [t [-> T]]. cbn [bind].
    destruct (padd_rf dbg live CV good_CV _ _ _ _ T M) as [mv [-> MV]]. cbn [bind].
    eexists; split; [reflexivity|]. cbn [cu cmv]. split; [|exact MV].
    apply (rf_cong live CV _ _ _ U). ring.
  Qed.

  Lemma eg_decode_rf P Q z : rf P z -> rf Q z -> eg_decode P = eg_decode Q.
  Proof.
    intros A B. destruct (pinf P) eqn:IP; [apply (rf_pinf live CV good_CV _ _ A) in IP; subst z|apply (rf_pinf_false live CV good_CV _ _ A) in IP; rename IP into N].
    - rewrite (rf_zero live CV good_CV _ A), (rf_zero live CV good_CV _ B). reflexivity.
    - assert (D : den CV P = den CV Q) by (apply (rf_den_eq live CV good_CV _ _ _ _ A B); reflexivity).
      destruct (rf_finite live CV good_CV _ _ A N) as [FI [CX _]], (rf_finite live CV good_CV _ _ B N) as [FI' [CX' _]].
      unfold eg_decode. f_equal. unfold den in D. rewrite FI, FI' in D. injection D as X _.
      destruct CX as [_ CX], CX' as [_ CX']. change (fieldp CV) with (c_prime CV) in CX, CX'.
      rewrite <- (Z.mod_small _ _ CX), <- (Z.mod_small _ _ CX'). exact X.
  Qed.

  Lemma L_C55_decrypts E sk pk P r : elgamal_ok live E -> scal sk -> multiple live pk (fval sk) -> is_valid live P ->
    exists c us, eg_encrypt dbg live E pk P r = Ok c /\ ct_valid live c /\ EccModel.pmul dbg live CV (cu c) sk = Ok us /\
      (pinf us = false -> pinf (cmv c) = false -> eg_decrypt dbg live sk c = Ok (eg_decode P)) /\
      (pinf us = true <-> (order | r * fval sk)) /\
      (forall m, multiple live P m -> (pinf (cmv c) = true <-> (order | r * fval sk + m))).
  Proof.
    intros OK S K V. apply multiple_rf in K. destruct (val_rf live P V) as [z M].
    destruct (encrypt_rf E pk P r _ _ OK K M) as [c [EE [U W]]].
    rewrite (scal_em sk S). rewrite (scal_em sk S) in W. set (s := mk (fval sk)) in *.
    assert (Es : fval (em s) = fval sk) by (unfold s; rewrite <- (scal_em sk S); reflexivity).
    destruct (pmul_rf dbg live CV good_CV _ _ s U) as [us [EU Ku]].
    exists c, us. split; [exact EE|]. split; [split; [exact (rf_val _ _ _ U)|exact (rf_val _ _ _ W)]|]. split; [exact EU|].
    rewrite Es in *. fold s in W.
    split; [|split].
    - intros I1 I2. apply (rf_pinf_false live CV good_CV _ _ Ku) in I1. apply (rf_pinf_false live CV good_CV _ _ W) in I2.
      unfold eg_decrypt. rewrite EU. cbn [bind].
      destruct (psub_rf dbg live CV good_CV _ _ _ _ W Ku I2 I1) as [R [-> KR]]. cbn [bind]. f_equal.
      apply (eg_decode_rf R P z); [|exact M]. apply (rf_cong live CV _ _ _ KR). ring.
    - rewrite (rf_pinf live CV good_CV _ _ Ku), <- mk_order_0, Z.mul_comm, <- mk_mul. reflexivity.
    - intros m Mm. apply multiple_rf in Mm. rewrite <- (rf_fun live CV good_CV _ _ _ Mm M) in W.
      rewrite (rf_pinf live CV good_CV _ _ W), <- mk_order_0, <- mk_add, <- mk_mul. reflexivity.
  Qed.

  Lemma L_C55_encode E m : live (eaddr E) = true ->
    exists i R, 0 <= i < FIELD_p /\ eg_encode dbg live E m = Ok R /\ finite live R /\
      fval (px R) = (1048576 * m + i) mod FIELD_p /\ on_curve_x (1048576 * m + i) /\
      (forall j, 0 <= j < i -> ~ on_curve_x (1048576 * m + j)).
  Proof.
    intros L. unfold eg_encode. change (2 ^ EG_SHIFT) with 1048576. rewrite (Z.mul_comm m). set (c := eaddr E) in *.
    destruct (loop_search (encode_step dbg live (Some c)) on_curve_x
      (fun x r => exists R, r = Ok R /\ finite live R /\ fval (px R) = x mod FIELD_p)) with
      (k := Z.to_pos FIELD_p) (x := 1048576 * m) as [[_ N]|[i [r [Hi [Fi [Ni [-> [R [-> [FR XR]]]]]]]]]].
    - intros x. unfold encode_step.
      destruct (L_C15 dbg live CV good_CV c (fe_new FIELD_p x) (canon_new FIELD_p x eq_refl) L) as [R [-> [H|H]]].
      + right. destruct H as [F [FV [X [PC _]]]]. split; [apply on_curve_x_mod; exact F|].
        destruct FV as [I FV]. rewrite I. eexists; split; [reflexivity|]. exists R. split; [reflexivity|]. split; [split; assumption|]. rewrite X. reflexivity.
      + left. destruct H as [F [-> _]]. split; [|reflexivity]. intros O. apply F. apply on_curve_x_mod in O. exact O.
    - exfalso. change (Z.pos (Z.to_pos FIELD_p)) with FIELD_p in N.
      apply (N ((c_gx CV - 1048576 * m) mod FIELD_p)); [apply Z.mod_pos_bound; reflexivity|].
      apply on_curve_x_mod. rewrite Zplus_mod_idemp_r. replace (1048576 * m + (c_gx CV - 1048576 * m)) with (c_gx CV) by ring.
      apply on_curve_x_mod. exists (c_gy CV). vm_compute. reflexivity.
    - exists i, R. split; [exact Hi|]. split; [reflexivity|]. repeat split; try assumption; try apply FR.
  Qed.

  Lemma L_C55_roundtrip E m R : live (eaddr E) = true -> eg_encode dbg live E m = Ok R ->
    (eg_decode R = m <-> 0 <= m /\ exists i, 0 <= i < 1048576 /\ 1048576 * m + i < FIELD_p /\ on_curve_x (1048576 * m + i)).
  Proof.
    intros L H0. destruct (L_C55_encode E m L) as [i [R' [Hi [E' [_ [X [Oi Ni]]]]]]].
    rewrite H0 in E'. apply Ok_inj in E'. subst R'. unfold eg_decode. change (2 ^ EG_SHIFT) with 1048576. rewrite X.
    assert (Pp : 0 < FIELD_p) by reflexivity.
    pose proof (Z.mod_pos_bound (1048576 * m + i) FIELD_p Pp) as B. split.
    - intros H. pose proof (Z.div_mod ((1048576 * m + i) mod FIELD_p) 1048576 ltac:(lia)) as Q.
      pose proof (Z.mod_pos_bound ((1048576 * m + i) mod FIELD_p) 1048576 ltac:(lia)) as BQ. rewrite H in Q.
      set (k := ((1048576 * m + i) mod FIELD_p) mod 1048576) in *.
      split; [apply Z.nlt_ge; intros Neg; lia|]. exists k. split; [exact BQ|]. split; [lia|]. rewrite <- Q. apply on_curve_x_mod. exact Oi.
    - intros [Hm [k [Hk [Lk Ok]]]].
      assert (i <= k). { apply Z.nlt_ge. intros Lt. exact (Ni k (conj (proj1 Hk) Lt) Ok). }
      rewrite Z.mod_small by lia. rewrite (Z.mul_comm 1048576 m), Z.div_add_l by lia. rewrite (Z.div_small i 1048576) by lia. ring.
  Qed.

  (** decrypt (encrypt m) = m for encodable m and draws that are not degenerate *)
  Lemma L_C55_integer E sk pk m r : elgamal_ok live E -> scal sk -> multiple live pk (fval sk) ->
    0 <= m -> (exists i, 0 <= i < 1048576 /\ 1048576 * m + i < FIELD_p /\ on_curve_x (1048576 * m + i)) ->
    exists c us, eg_encryptZ dbg live E pk m r = Ok c /\ EccModel.pmul dbg live CV (cu c) sk = Ok us /\
      (pinf us = false -> pinf (cmv c) = false -> eg_decrypt dbg live sk c = Ok m).
  Proof.
    intros OK S K Hm Hi. destruct (L_C55_encode E m (proj1 OK)) as [_ [R [_ [ER [FR _]]]]].
    destruct (L_C55_decrypts E sk pk R r OK S K (or_intror FR)) as [c [us [EE [_ [EU [H _]]]]]].
    exists c, us. split; [unfold eg_encryptZ; rewrite ER; exact EE|]. split; [exact EU|].
    intros A B. rewrite (H A B). f_equal. apply (L_C55_roundtrip E m R (proj1 OK) ER). split; assumption.
  Qed.

  (** what happens otherwise *)
  Lemma opposite_x P Q z : rf P z -> rf Q (fopp n z) -> fval (px P) = fval (px Q).
  Proof.
    intros A B. destruct (padd_rf dbg live CV good_CV _ _ _ _ A B) as [R [ER KR]].
    assert (E0 : fadd n z (fopp n z) = f0 n) by ring. rewrite E0 in KR. apply (rf_zero live CV good_CV) in KR. subst R.
    destruct (pinf P) eqn:IP.
    { apply (rf_pinf live CV good_CV _ _ A) in IP. rewrite IP in A, B. assert (E1 : fopp n (f0 n) = f0 n) by ring. rewrite E1 in B.
      rewrite (rf_zero live CV good_CV _ A), (rf_zero live CV good_CV _ B). reflexivity. }
    destruct (pinf Q) eqn:IQ.
    { unfold EccModel.padd in ER. rewrite IP, IQ in ER. apply Ok_inj in ER. subst P. discriminate IP. }
    unfold EccModel.padd in ER. rewrite IP, IQ in ER. apply bind_Ok in ER. destruct ER as [u [_ ER]].
    destruct (fe_eq (px P) (px Q)) eqn:Ex.
    - unfold fe_eq in Ex. apply andb_prop in Ex. apply Z.eqb_eq. apply Ex.
    - exfalso. do 9 (apply bind_Ok in ER; let v := fresh "v" in destruct ER as [v [_ ER]]). discriminate ER.
  Qed.

  Lemma L_C55_degenerate E sk pk P r c us : elgamal_ok live E -> scal sk -> multiple live pk (fval sk) -> is_valid live P ->
    eg_encrypt dbg live E pk P r = Ok c -> EccModel.pmul dbg live CV (cu c) sk = Ok us ->
    (dbg = true -> pinf us = true \/ pinf (cmv c) = true -> eg_decrypt dbg live sk c = Err NullDeref) /\
    (dbg = false -> pinf (cmv c) = true -> eg_decrypt dbg live sk c = Ok (eg_decode P)) /\
    (dbg = false -> pinf us = true -> pinf (cmv c) = false ->
       same_point (cmv c) P /\ exists R, EccModel.psub dbg live CV (cmv c) us = Ok R /\ ~ same_point R P /\
         eg_decrypt dbg live sk c = Ok (eg_decode R)).
  Proof.
    intros OK S K V EE EU. apply multiple_rf in K. destruct (val_rf live P V) as [z M].
    destruct (encrypt_rf E pk P r _ _ OK K M) as [c' [EE' [U W]]]. rewrite EE in EE'. apply Ok_inj in EE'. subst c'.
    pose proof EU as EU0. rewrite (scal_em sk S) in EU. destruct (pmul_rf dbg live CV good_CV _ _ (mk (fval sk)) U) as [us' [EU' Ku]].
    rewrite EU in EU'. apply Ok_inj in EU'. subst us'. set (s := mk (fval sk)) in *.
    assert (CI : forall Q, EccModel.psub dbg live CV (pt_inf CV) Q =
        if dbg then Err NullDeref else do ny <- fe_sub dbg (fieldp CV) (fe_new (fieldp CV) 0) (py Q);
           Ok (pt_fe (px Q) ny None)).
    { intros Q. unfold EccModel.psub, assert_same_curve. destruct dbg; [reflexivity|]. cbn [bind].
      destruct (fe_sub _ _ _ _); reflexivity. }
    split; [|split].
    - intros D H. unfold eg_decrypt. rewrite EU0. cbn [bind]. destruct (pinf (cmv c)) eqn:Iw.
      + apply (rf_pinf live CV good_CV _ _ W) in Iw. rewrite Iw in W. apply (rf_zero live CV good_CV) in W.
        rewrite W, CI, D. reflexivity.
      + destruct H as [H|H]; [|discriminate H]. apply (rf_pinf live CV good_CV _ _ Ku) in H. rewrite H in Ku.
        apply (rf_zero live CV good_CV) in Ku. rewrite Ku.
        rewrite (L_C14_minus_inf_debug dbg live CV good_CV (cmv c) (rf_val _ _ _ W) D). reflexivity.
    - intros D H. unfold eg_decrypt. rewrite EU0. cbn [bind]. apply (rf_pinf live CV good_CV _ _ W) in H.
      assert (Kn : rf us (fopp n z)). { apply (rf_cong live CV _ _ _ Ku). transitivity (fsub n (fadd n (fmul n (mk r) s) z) z); [ring|rewrite H; ring]. }
      rewrite H in W. apply (rf_zero live CV good_CV) in W. rewrite W, CI, D.
      assert (CY : canon (fieldp CV) (py us)).
      { destruct (rf_val _ _ _ Ku) as [-> | FV]; [apply canon_default; reflexivity|apply FV]. }
      rewrite fe_sub_ok; [|reflexivity|apply canon_new; reflexivity|exact CY]. cbn [bind]. f_equal.
      unfold eg_decode. f_equal. cbn [px pt_fe]. symmetry. exact (opposite_x P us z M Kn).
    - intros D H Iw. apply (rf_pinf live CV good_CV _ _ Ku) in H.
      assert (W' : rf (cmv c) z). { apply (rf_cong live CV _ _ _ W). transitivity (fadd n (fmul n s (mk r)) z); [ring|rewrite H; ring]. }
      assert (FW : finite live (cmv c)).
      { apply (rf_finite live CV good_CV _ z W'). apply (rf_pinf_false live CV good_CV _ _ W'). exact Iw. }
      assert (SP : same_point (cmv c) P) by (apply (same_rf live _ _ _ _ W' M); reflexivity).
      split; [exact SP|].
      rewrite H in Ku. apply (rf_zero live CV good_CV) in Ku. unfold eg_decrypt. rewrite EU0, Ku. cbn [bind].
      destruct (L_C14_minus_inf_release dbg live CV good_CV (cmv c) FW D) as [R [ER NR]].
      exists R. split; [exact ER|]. split; [|rewrite ER; reflexivity].
      unfold same_point in *. rewrite <- SP. exact NR.
  Qed.

  Lemma L_C55_keygen E r kp : keyGen dbg live E r <> Ok kp.
  Proof. unfold keyGen. destruct (EccModel.pmulz dbg live CV (egen E) r); discriminate. Qed.
  Lemma L_C55_keygen_ok E r : elgamal_ok live E -> keyGen dbg live E r = Err MissingReturn.
  Proof.
    intros [_ [a [EG La]]]. unfold keyGen. rewrite EG.
    destruct (pmulz_rf dbg live CV good_CV _ _ r (rf_gen live CV good_CV a La)) as [R [-> _]]. reflexivity.
  Qed.

  (** a copy that outlives its original *)
  Lemma pmul_dead a s : live a = false -> 2 <= fval s -> EccModel.pmul dbg live CV (gen CV a) s = Err UseAfterFree.
  Proof.
    intros L H. unfold EccModel.pmul. change (pinf (gen CV a)) with false. cbv iota.
    assert (D : EccModel.pdouble dbg live CV (gen CV a) = Err UseAfterFree).
    { unfold EccModel.pdouble. unfold fe_square, fe_mulz. cbn [bind]. change (pcur (gen CV a)) with (Some a).
      unfold deref. rewrite L. reflexivity. }
    assert (B : exists b b' rest, zbits (fval s) = b :: b' :: rest).
    { destruct (fval s) as [|p|p]; [lia| |lia]. destruct p as [p|p|]; [| |lia];
      [exists true|exists false]; destruct p; cbn; eexists; eexists; reflexivity. }
    destruct B as [b [b' [rest ->]]]. cbn [EccModel.mulloop].
    assert (A : EccModel.padd dbg live CV (pt_inf CV) (gen CV a) = Ok (gen CV a)) by reflexivity.
    destruct b; [rewrite A|]; cbn [bind]; rewrite D; reflexivity.
  Qed.
  Lemma L_C55_copy a b pk P r : live a = false -> live b = true -> 2 <= r < order ->
    eg_encrypt dbg live (eg_copy (eg_new a) b) pk P r = Err UseAfterFree.
  Proof.
    intros La Lb Hr. unfold eg_encrypt. cbn [eg_copy eg_new eaddr egen].
    unfold EccModel.getRandomScalar. cbn [deref]. unfold deref. rewrite Lb. cbn [bind].
    rewrite pmul_dead; [reflexivity|exact La|]. cbn [fval fe_new]. rewrite Z.mod_small; [lia|]. rewrite <- order_eq. lia.
  Qed.

  Lemma L_C55_case a : live a = true ->
    exists pk c, EccModel.pmulz dbg live CV (gen CV a) 3 = Ok pk /\ scal (fe_new FIELD_n 3) /\ multiple live pk (fval (fe_new FIELD_n 3)) /\
      eg_encrypt dbg live (eg_new a) pk (gen CV a) 2 = Ok c /\
      eg_decrypt dbg live (fe_new FIELD_n 3) c = Ok (eg_decode (gen CV a)) /\ on_curve_x (1048576 * 7 + 6).
  Proof.
    intros L. destruct (pmulz_rf dbg live CV good_CV _ _ 3 (rf_gen live CV good_CV a L)) as [pk [EP K]].
    assert (S : scal (fe_new FIELD_n 3)) by (apply canon_new; reflexivity).
    assert (V3 : fval (fe_new FIELD_n 3) = 3) by reflexivity.
    assert (M : multiple live pk (fval (fe_new FIELD_n 3))).
    { rewrite V3. apply multiple_rf. apply (rf_cong live CV _ _ _ K). ring. }
    destruct (L_C55_decrypts (eg_new a) _ pk (gen CV a) 2 (eg_new_ok a L) S M (proj1 (gen_rf live a L))) as [c [us [EE [_ [EU [H [C1 C2]]]]]]].
    exists pk, c. split; [exact EP|]. split; [exact S|]. split; [exact M|]. split; [exact EE|].
    split.
    - apply H.
      + apply not_true_iff_false. intros F. apply C1 in F. rewrite V3 in F. revert F. apply ndiv. vm_compute. split; reflexivity.
      + apply not_true_iff_false. intros F. apply (C2 1 (gen_rf live a L)) in F. rewrite V3 in F. revert F. apply ndiv. vm_compute. split; reflexivity.
    - exists 0x745128f50cedfb90f09d2d4f0306b8312eb91a1b16ac0c90c5ec4b32480a3a72. vm_compute. reflexivity.
  Qed.

  Lemma L_C55_objects E a : live a = true ->
    elgamal_ok live (eg_new a) /\ (elgamal_ok live E -> elgamal_ok live (eg_copy E a)).
  Proof. intros L. split; [exact (eg_new_ok a L)|intros O; exact (eg_copy_ok E a O L)]. Qed.
End Elgamal.

Lemma L_C55_degenerate_case live a : live a = true ->
  exists pk c, EccModel.pmulz true live CV (gen CV a) 3 = Ok pk /\
    eg_encrypt true live (eg_new a) pk (gen CV a) 0 = Ok c /\ eg_decrypt true live (fe_new FIELD_n 3) c = Err NullDeref.
Proof.
  intros L. destruct (L_C55_case true live a L) as [pk [_ [EP [S [M _]]]]].
  destruct (L_C55_decrypts true live (eg_new a) _ pk (gen CV a) 0 (eg_new_ok live a L) S M (proj1 (gen_rf live a L))) as [c [us [EE [_ [EU [_ [C1 _]]]]]]].
  exists pk, c. split; [exact EP|]. split; [exact EE|].
  apply (proj1 (L_C55_degenerate true live (eg_new a) _ pk (gen CV a) 0 c us (eg_new_ok live a L) S M (proj1 (gen_rf live a L)) EE EU)); [reflexivity|].
  left. apply C1. exists 0. reflexivity.
Qed.
