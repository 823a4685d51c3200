(** Proofs about ElGamal ciphertexts that are combined or changed (C93). *)
From Coq Require Import ZArith Znumtheory Bool List Lia Field.
From Verif Require Import Outcome FieldModel ZpField SpecField FieldProofs ECGroup ECOrder CurveParams CurveFacts EccModel EccProofs SpecEcc EccThms Emb RF DmeModel SpecDme DmeProofs ElgamalModel SpecElgamal SpecElgamal2 ElgamalProofs.
Import ListNotations.
Open Scope Z_scope.

Section Elgamal2.
  Variables (dbg : bool) (live : Z -> bool).
  Notation n := (fieldn CV).
  Let Hn : prime n := prime_n CV good_CV.
  Let HF := field_Fp n Hn.
  Add Field Eg2Field : HF.
  Notation rf := (rf live CV).
  Notation em := (em n).
  Notation mk := (mk n).
  Notation "0f" := (f0 n).

  Lemma encrypt_known E pk P r k z c : elgamal_ok live E -> rf pk k -> rf P z -> eg_encrypt dbg live E pk P r = Ok c ->
    rf (cu c) (mk r) /\ rf (cmv c) (fadd n (fmul n (mk r) k) z).
  Proof.
    intros OK K M EE. destruct (encrypt_rf dbg live E pk P r k z OK K M) as [c' [EE' H]]. rewrite EE in EE'. apply Ok_inj in EE'. subst c'. exact H.
  Qed.
  Lemma mk_minus : mk (-1) = fopp n (f1 n).
  Proof. transitivity (fsub n (mk 0) (mk 1)); [rewrite mk_sub; reflexivity|]. change (fsub n 0f (f1 n) = fopp n (f1 n)). ring. Qed.
  Lemma minus_rf P Q x y : rf P x -> rf Q y -> exists R, minus dbg live P Q = Ok R /\ rf R (fsub n x y).
  Proof.
    intros A B. unfold minus. destruct (pmulz_rf dbg live CV good_CV Q y (-1) B) as [R [-> K]]. cbn [bind].
    destruct (padd_rf dbg live CV good_CV P R x _ A K) as [S [ES KS]]. exists S. split; [exact ES|]. apply (rf_cong live CV _ _ _ KS). rewrite mk_minus. ring.
  Qed.
  Lemma add_ctxt_rf c c' a b a' b' : rf (cu c) a -> rf (cmv c) b -> rf (cu c') a' -> rf (cmv c') b' ->
    exists d, add_ctxt dbg live c c' = Ok d /\ rf (cu d) (fadd n a a') /\ rf (cmv d) (fadd n b b').
  Proof.
    intros A B A' B'. unfold add_ctxt. destruct (padd_rf dbg live CV good_CV _ _ _ _ A A') as [u [-> U]]. cbn [bind].
    destruct (padd_rf dbg live CV good_CV _ _ _ _ B B') as [v [-> V]]. cbn [bind]. eexists. split; [reflexivity|]. split; [exact U|exact V].
  Qed.
  Lemma decrypt_rf sk c a z : scal sk -> rf (cu c) a -> rf (cmv c) (fadd n (fmul n a (mk (fval sk))) z) ->
    fmul n a (mk (fval sk)) <> 0f -> fadd n (fmul n a (mk (fval sk))) z <> 0f -> exists R, eg_decrypt dbg live sk c = Ok (eg_decode R) /\ rf R z.
  Proof.
    intros S U W N1 N2. unfold eg_decrypt. rewrite (scal_em sk S). destruct (pmul_rf dbg live CV good_CV _ _ (mk (fval sk)) U) as [t [-> T]]. cbn [bind].
    destruct (psub_rf dbg live CV good_CV _ _ _ _ W T N2) as [R [-> KR]]; [intros Q; apply N1; rewrite <- Q; ring|]. cbn [bind]. exists R. split; [reflexivity|].
    apply (rf_cong live CV _ _ _ KR). ring.
  Qed.
  Lemma finite_no P z : rf P z -> pinf P = false -> z <> 0f.
  Proof. intros K I. apply (rf_pinf_false live CV good_CV _ _ K). exact I. Qed.

  Lemma L_C93_sum E pk P1 P2 r1 r2 c1 c2 : elgamal_ok live E -> is_valid live pk -> is_valid live P1 -> is_valid live P2 ->
    eg_encrypt dbg live E pk P1 r1 = Ok c1 -> eg_encrypt dbg live E pk P2 r2 = Ok c2 ->
    exists c P c', add_ctxt dbg live c1 c2 = Ok c /\ padd dbg live CV P1 P2 = Ok P /\ is_valid live P /\ eg_encrypt dbg live E pk P (r1 + r2) = Ok c' /\ same_ctxt c c' /\
      forall sk us, scal sk -> multiple live pk (fval sk) -> pmul dbg live CV (cu c) sk = Ok us -> pinf us = false -> pinf (cmv c) = false ->
        eg_decrypt dbg live sk c = Ok (fval (px P) / 1048576).
  Proof.
    intros OK VK V1 V2 E1 E2. destruct (val_rf live _ VK) as [k K]. destruct (val_rf live _ V1) as [z1 M1]. destruct (val_rf live _ V2) as [z2 M2].
    destruct (encrypt_known E pk P1 r1 k z1 c1 OK K M1 E1) as [U1 W1]. destruct (encrypt_known E pk P2 r2 k z2 c2 OK K M2 E2) as [U2 W2].
    destruct (add_ctxt_rf c1 c2 _ _ _ _ U1 W1 U2 W2) as [c [EC [U W]]]. destruct (padd_rf dbg live CV good_CV _ _ _ _ M1 M2) as [P [EP M]].
    destruct (encrypt_rf dbg live E pk P (r1 + r2) k _ OK K M) as [c' [E3 [U3 W3]]]. exists c, P, c'. split; [exact EC|]. split; [exact EP|]. split; [exact (rf_val _ _ _ M)|]. split; [exact E3|].
    rewrite <- mk_add in U3, W3. split; [split|].
    - apply (same_rf live _ _ _ _ U U3). reflexivity.
    - apply (same_rf live _ _ _ _ W W3). ring.
    - intros sk us S MK EU I1 I2. apply multiple_rf in MK. rewrite (rf_fun live CV good_CV _ _ _ K MK) in W.
      assert (W' : rf (cmv c) (fadd n (fmul n (fadd n (mk r1) (mk r2)) (mk (fval sk))) (fadd n z1 z2))) by (apply (rf_cong live CV _ _ _ W); ring).
      destruct (decrypt_rf sk c _ _ S U W') as [R [ER KR]].
      + rewrite (scal_em sk S) in EU. destruct (pmul_rf dbg live CV good_CV _ _ (mk (fval sk)) U) as [t [ET T]]. rewrite ET in EU. apply Ok_inj in EU. subst t.
        intros Q. apply (finite_no _ _ T I1). rewrite <- Q. ring.
      + exact (finite_no _ _ W' I2).
      + rewrite ER. rewrite (eg_decode_rf live R P _ KR M). reflexivity.
  Qed.

  Lemma L_C93_replace E pk P Q r c : elgamal_ok live E -> is_valid live pk -> is_valid live P -> is_valid live Q -> eg_encrypt dbg live E pk P r = Ok c ->
    exists c' c'', replace dbg live c P Q = Ok c' /\ eg_encrypt dbg live E pk Q r = Ok c'' /\ same_ctxt c' c''.
  Proof.
    intros OK VK VP VQ EE. destruct (val_rf live _ VK) as [k K]. destruct (val_rf live _ VP) as [z M]. destruct (val_rf live _ VQ) as [y N].
    destruct (encrypt_known E pk P r k z c OK K M EE) as [U W]. unfold replace. destruct (minus_rf Q P y z N M) as [d [-> D]]. cbn [bind].
    destruct (padd_rf dbg live CV good_CV _ _ _ _ W D) as [v [-> V]]. cbn [bind]. destruct (encrypt_rf dbg live E pk Q r k y OK K N) as [c'' [E2 [U2 W2]]].
    do 2 eexists. split; [reflexivity|]. split; [exact E2|]. split; cbn [cu cmv].
    - apply (same_rf live _ _ _ _ U U2). reflexivity.
    - apply (same_rf live _ _ _ _ V W2). ring.
  Qed.

  Lemma L_C93_reuse E pk P1 P2 r1 r2 c1 c2 : elgamal_ok live E -> is_valid live pk -> is_valid live P1 -> is_valid live P2 ->
    eg_encrypt dbg live E pk P1 r1 = Ok c1 -> eg_encrypt dbg live E pk P2 r2 = Ok c2 ->
    (same_point (cu c1) (cu c2) <-> (order | r1 - r2)) /\
    (same_point (cu c1) (cu c2) -> exists R, from_known dbg live c1 P1 c2 = Ok R /\ same_point R P2).
  Proof.
    intros OK VK V1 V2 E1 E2. destruct (val_rf live _ VK) as [k K]. destruct (val_rf live _ V1) as [z1 M1]. destruct (val_rf live _ V2) as [z2 M2].
    destruct (encrypt_known E pk P1 r1 k z1 c1 OK K M1 E1) as [U1 W1]. destruct (encrypt_known E pk P2 r2 k z2 c2 OK K M2 E2) as [U2 W2].
    split; [rewrite (same_rf live _ _ _ _ U1 U2); apply mk_order_eq|]. intros SU. apply (same_rf live _ _ _ _ U1 U2) in SU. rewrite SU in W1.
    unfold from_known. destruct (minus_rf _ _ _ _ W2 W1) as [d [-> D]]. cbn [bind]. destruct (padd_rf dbg live CV good_CV _ _ _ _ D M1) as [R [ER KR]]. exists R. split; [exact ER|].
    apply (same_rf live _ _ _ _ KR M2). ring.
  Qed.

  Lemma L_C93_fresh E pk P r c r' : elgamal_ok live E -> is_valid live pk -> is_valid live P -> eg_encrypt dbg live E pk P r = Ok c ->
    exists! s, draw s /\ exists z c' c'', eg_encrypt dbg live E pk (pt_inf CV) s = Ok z /\ add_ctxt dbg live c z = Ok c' /\ eg_encrypt dbg live E pk P r' = Ok c'' /\ same_ctxt c' c''.
  Proof.
    intros OK VK VP EE. destruct (val_rf live _ VK) as [k K]. destruct (val_rf live _ VP) as [y M]. destruct (encrypt_known E pk P r k y c OK K M EE) as [U W].
    assert (H : forall s, exists z c' c'', eg_encrypt dbg live E pk (pt_inf CV) s = Ok z /\ add_ctxt dbg live c z = Ok c' /\ eg_encrypt dbg live E pk P r' = Ok c'' /\
        (same_ctxt c' c'' <-> mk s = mk (r' - r))).
    { intros s. destruct (encrypt_rf dbg live E pk (pt_inf CV) s k _ OK K (rf_inf live CV good_CV)) as [z [EZ [U2 W2]]]. destruct (add_ctxt_rf _ _ _ _ _ _ U W U2 W2) as [c' [EC [U3 W3]]].
      destruct (encrypt_rf dbg live E pk P r' k y OK K M) as [c'' [E4 [U4 W4]]]. exists z, c', c''. split; [exact EZ|]. split; [exact EC|]. split; [exact E4|].
      unfold same_ctxt. rewrite (same_rf live _ _ _ _ U3 U4), (same_rf live _ _ _ _ W3 W4), <- mk_sub. split.
      - intros [Q _]. rewrite <- Q. ring.
      - intros ->. split; ring. }
    exists (val n (mk (r' - r))). split.
    - split; [apply val_draw|]. destruct (H (val n (mk (r' - r)))) as [z [c' [c'' [A [B [C D]]]]]]. exists z, c', c''. split; [exact A|]. split; [exact B|]. split; [exact C|].
      apply D. apply mk_val.
    - intros s [DS [z [c' [c'' [A [B [C D]]]]]]]. destruct (H s) as [z' [d' [d'' [A' [B' [C' D']]]]]]. rewrite A in A'. apply Ok_inj in A'. subst z'. rewrite B in B'. apply Ok_inj in B'. subst d'.
      rewrite C in C'. apply Ok_inj in C'. subst d''. apply D' in D. rewrite <- D. apply draw_val. exact DS.
  Qed.

  Lemma L_C93_binds E E' pk pk' P P' r r' c c' : elgamal_ok live E -> elgamal_ok live E' -> is_valid live pk -> is_valid live pk' -> is_valid live P -> is_valid live P' ->
    eg_encrypt dbg live E pk P r = Ok c -> eg_encrypt dbg live E' pk' P' r' = Ok c' -> same_point pk pk' -> same_ctxt c c' -> same_point P P' /\ (order | r - r').
  Proof.
    intros OK OK' VK VK' VP VP' EE EE' SK [SU SW]. destruct (val_rf live _ VK) as [k K]. destruct (val_rf live _ VK') as [k' K']. destruct (val_rf live _ VP) as [z M]. destruct (val_rf live _ VP') as [z' M'].
    destruct (encrypt_known E pk P r k z c OK K M EE) as [U W]. destruct (encrypt_known E' pk' P' r' k' z' c' OK' K' M' EE') as [U' W'].
    apply (same_rf live _ _ _ _ K K') in SK. apply (same_rf live _ _ _ _ U U') in SU. apply (same_rf live _ _ _ _ W W') in SW. subst k'. rewrite SU in SW. split.
    - apply (same_rf live _ _ _ _ M M'). transitivity (fsub n (fadd n (fmul n (mk r') k) z) (fmul n (mk r') k)); [ring|]. rewrite SW. ring.
    - apply mk_order_eq. exact SU.
  Qed.

  Lemma L_C93_any E pk P r c Q a : elgamal_ok live E -> is_valid live pk -> is_valid live P -> is_valid live Q -> live a = true -> eg_encrypt dbg live E pk P r = Ok c -> ~ (order | r) ->
    exists! k, draw k /\ exists pk' c', getRandomPoint dbg live CV (Some a) k = Ok pk' /\ eg_encrypt dbg live E pk' Q r = Ok c' /\ same_ctxt c c'.
  Proof.
    intros OK VK VP VQ LA EE NR. destruct (val_rf live _ VK) as [k K]. destruct (val_rf live _ VP) as [y M]. destruct (val_rf live _ VQ) as [x N]. destruct (encrypt_known E pk P r k y c OK K M EE) as [U W].
    rewrite <- mk_order_0 in NR.
    set (h := fadd n k (fdiv n (fsub n y x) (mk r))).
    assert (H : forall s, exists pk' c', getRandomPoint dbg live CV (Some a) s = Ok pk' /\ eg_encrypt dbg live E pk' Q r = Ok c' /\ (same_ctxt c c' <-> mk s = h)).
    { intros s. destruct (getRandomPoint_rf dbg live CV good_CV a s LA) as [pk' [EP K']]. destruct (encrypt_rf dbg live E pk' Q r _ x OK K' N) as [c' [EC [U' W']]]. exists pk', c'. split; [exact EP|]. split; [exact EC|].
      unfold same_ctxt. rewrite (same_rf live _ _ _ _ U U'), (same_rf live _ _ _ _ W W'). unfold h. split.
      - intros [_ Q']. transitivity (fdiv n (fsub n (fadd n (fmul n (mk r) (mk s)) x) x) (mk r)); [field; exact NR|]. rewrite <- Q'. field. exact NR.
      - intros ->. split; [reflexivity|]. field. exact NR. }
    exists (val n h). split.
    - split; [apply val_draw|]. destruct (H (val n h)) as [pk' [c' [A [B D]]]]. exists pk', c'. split; [exact A|]. split; [exact B|]. apply D. apply mk_val.
    - intros s [DS [pk' [c' [A [B D]]]]]. destruct (H s) as [pk2 [c2 [A' [B' D']]]]. rewrite A in A'. apply Ok_inj in A'. subst pk2. rewrite B in B'. apply Ok_inj in B'. subst c2.
      apply D' in D. rewrite <- D. apply draw_val. exact DS.
  Qed.
End Elgamal2.

Lemma L_C93_case dbg live a : live a = true ->
  exists pk Q c1 c2 c3 c P, pmulz dbg live CV (gen CV a) 3 = Ok pk /\ pmulz dbg live CV (gen CV a) 5 = Ok Q /\
    eg_encrypt dbg live (eg_new a) pk (gen CV a) 2 = Ok c1 /\ eg_encrypt dbg live (eg_new a) pk Q 4 = Ok c2 /\ eg_encrypt dbg live (eg_new a) pk Q 2 = Ok c3 /\
    add_ctxt dbg live c1 c2 = Ok c /\ multiple live P 6 /\ eg_decrypt dbg live (fe_new FIELD_n 3) c = Ok (fval (px P) / 1048576) /\
    ~ same_point (cu c1) (cu c2) /\ (exists R, from_known dbg live c1 (gen CV a) c3 = Ok R /\ same_point R Q) /\
    exists c', replace dbg live c1 (gen CV a) Q = Ok c' /\ same_ctxt c' c3.
Proof.
  intros L. pose proof (gen_rf live a L) as G. pose proof (eg_new_ok live a L) as OK.
  assert (T : forall k, exists R, pmulz dbg live CV (gen CV a) k = Ok R /\ multiple live R k).
  { intros k. destruct (pmulz_rf dbg live CV good_CV _ _ k (rf_gen live CV good_CV a L)) as [R [ER K]]. exists R. split; [exact ER|]. apply multiple_rf.
    apply (rf_cong live CV _ _ _ K). pose proof (field_Fp (fieldn CV) (prime_n CV good_CV)) as FF. destruct FF as [RT _ _ _]. rewrite (Ring_theory.Rmul_comm RT). apply (Ring_theory.Rmul_1_l RT). }
  destruct (T 3) as [pk [EP K]]. destruct (T 5) as [Q [EQ M]]. pose proof K as K'. pose proof M as M'. apply multiple_rf in K', M'. pose proof G as G'. apply multiple_rf in G'.
  destruct (encrypt_rf dbg live (eg_new a) pk (gen CV a) 2 _ _ OK K' G') as [c1 [E1 _]].
  destruct (encrypt_rf dbg live (eg_new a) pk Q 4 _ _ OK K' M') as [c2 [E2 _]]. destruct (encrypt_rf dbg live (eg_new a) pk Q 2 _ _ OK K' M') as [c3 [E3 _]].
  pose proof (proj1 G) as VG. pose proof (proj1 K) as VK. pose proof (proj1 M) as VM.
  destruct (L_C93_sum dbg live (eg_new a) pk (gen CV a) Q 2 4 c1 c2 OK VK VG VM E1 E2) as [c [P [c' [EC [EPP [VP [E4 [SC D]]]]]]]].
  assert (MP : multiple live P 6).
  { destruct (padd_rf dbg live CV good_CV _ _ _ _ G' M') as [R [ER KR]]. rewrite EPP in ER. apply Ok_inj in ER. subst R. apply multiple_rf. rewrite mk_add in KR. exact KR. }
  assert (S : scal (fe_new FIELD_n 3)) by (apply canon_new; reflexivity). assert (V3 : fval (fe_new FIELD_n 3) = 3) by reflexivity.
  destruct (L_C55_decrypts dbg live (eg_new a) (fe_new FIELD_n 3) pk P (2 + 4) OK S) as [c4 [us [E5 [_ [EU [_ [C1 C2]]]]]]]; [rewrite V3; exact K|exact VP|].
  rewrite E4 in E5. apply Ok_inj in E5. subst c4. pose proof MP as MP'. apply multiple_rf in MP'.
  destruct (encrypt_known dbg live (eg_new a) pk P (2 + 4) _ _ c' OK K' MP' E4) as [U4 W4].
  destruct (encrypt_known dbg live (eg_new a) pk (gen CV a) 2 _ _ c1 OK K' G' E1) as [U1 W1]. destruct (encrypt_known dbg live (eg_new a) pk Q 4 _ _ c2 OK K' M' E2) as [U2 W2].
  destruct (add_ctxt_rf dbg live _ _ _ _ _ _ U1 W1 U2 W2) as [c5 [E5 [U5 W5]]]. rewrite EC in E5. apply Ok_inj in E5. subst c5.
  assert (D' : eg_decrypt dbg live (fe_new FIELD_n 3) c = Ok (fval (px P) / 1048576)).
  { destruct (pmul_rf dbg live CV good_CV _ _ (mk (fieldn CV) 3) U5) as [vs [EV KV]]. apply (D _ vs S).
    - rewrite V3. exact K.
    - rewrite (scal_em (fe_new FIELD_n 3) S). exact EV.
    - apply (rf_pinf_false live CV good_CV _ _ KV). rewrite mk_add, mk_mul. rewrite mk_order_0. apply ndiv. vm_compute. split; reflexivity.
    - apply (rf_pinf_false live CV good_CV _ _ W5). rewrite !mk_mul, !mk_add. rewrite mk_order_0. apply ndiv. vm_compute. split; reflexivity. }
  exists pk, Q, c1, c2, c3, c, P. split; [exact EP|]. split; [exact EQ|]. split; [exact E1|]. split; [exact E2|]. split; [exact E3|]. split; [exact EC|]. split; [exact MP|]. split; [exact D'|].
  destruct (L_C93_reuse dbg live (eg_new a) pk (gen CV a) Q 2 4 c1 c2 OK VK VG VM E1 E2) as [R1 _].
  destruct (L_C93_reuse dbg live (eg_new a) pk (gen CV a) Q 2 2 c1 c3 OK VK VG VM E1 E3) as [R2 R3].
  split; [intros H; apply R1 in H; revert H; apply ndiv; vm_compute; split; reflexivity|]. split; [apply R3, R2; exists 0; reflexivity|].
  destruct (L_C93_replace dbg live (eg_new a) pk (gen CV a) Q 2 c1 OK VK VG VM E1) as [d [d' [A [B C]]]]. rewrite E3 in B. apply Ok_inj in B. subst d'. exists d. split; [exact A|exact C].
Qed.
