(** A concrete evaluation of the oblivious programmable PRF: threshold 9, secret 3*G, inputs 5 and 12. *)
From Coq Require Import ZArith Znumtheory Bool List Lia.
From Verif Require Import Outcome FieldModel ZpField SpecField FieldProofs ECGroup ECOrder CurveParams CurveFacts EccModel EccProofs SpecEcc EccThms Emb RF DmeModel SpecDme DmeProofs OtModel SpecOt OtProofs.
From Verif Require Import CrcModel SpecCrc AesModel SpecAes OpprfModel SpecOpprf OpprfProofs OpprfProofs2 OpprfProofs3 OpprfProofs4 Prop_Aes.
Import ListNotations.
Open Scope Z_scope.

Definition kA : Z := 0x0102030405060708090a0b0c0d0e0f10.
Definition kB : Z := 0x2122232425262728292a2b2c2d2e2f30.
Definition kC : Z := 0x4142434445464748494a4b4c4d4e4f50.
Definition iv0 : list Z := init iv_start.
(** the same three keys at every level *)
Definition case_prep : prep_draws := mkpd 17 1 (fun _ => kA) (fun _ => kB) (fun _ => kC) (fun _ => 1).
Definition case_quad : quad := mkq 1 0 1 0.
Definition case_draws : session_draws :=
  mksd case_prep (fun r => mkrd 1 case_quad case_quad case_quad case_quad r (2 * r + 1)) 1 4 2 1.

Lemma case_aes : aes_ready small iv0.
Proof.
  constructor; [exact C46_toy|reflexivity|exists (repeat 0 16); reflexivity|vm_compute; discriminate].
Qed.

(** the ciphertexts that occur *)
Definition cAA : Z := 28814927813700689006601151716040510345577739968.
Definition cBA : Z := 579027308926511199389164853444523529506930284128.
Definition cBB : Z := 395623203752382077597553096108398546101911050909.
Definition cBC : Z := 212219098578255562135343624940649460462777213854.
Definition cCC : Z := 762431435964112096520615920852270123054351221758.

Lemma encodable_at m i y : 0 <= m -> 0 <= i < 1024 -> 1024 * m + i < FIELD_p -> equation CV (1024 * m + i) y -> encodable m.
Proof. intros A B C E. split; [exact A|]. exists i. split; [exact B|]. split; [exact C|exists y; exact E]. Qed.
Ltac enc i y := apply (encodable_at _ i y); [vm_compute; discriminate|lia|vm_compute; reflexivity|vm_compute; reflexivity].
Lemma en_AA : encodable cAA. Proof. enc 0 95687770206714646546568107678991473757793665148458837189861054956030440266340. Qed.
Lemma en_BA : encodable cBA. Proof. enc 0 54648043349373227989669022015151264789302326200516174397645982205533648695259. Qed.
Lemma en_BB : encodable cBB. Proof. enc 0 61069559370906588871067858889320678623963447106601131422523162081944982132258. Qed.
Lemma en_BC : encodable cBC. Proof. enc 1 25402097404111354111357822084974191560802318855450888669389406456685890956122. Qed.
Lemma en_CC : encodable cCC. Proof. enc 1 62128914728926725007513691359095496398526926236579392312787557116396379539194. Qed.
Lemma en_B : encodable kB. Proof. enc 5 14487394595077702297277530452829302405306816503738144753692800479610089709413. Qed.

Lemma ct_AA : encryptCRC small iv0 kA kA = Ok cAA. Proof. vm_compute. reflexivity. Qed.
Lemma ct_BA : encryptCRC small iv0 kB kA = Ok cBA. Proof. vm_compute. reflexivity. Qed.
Lemma ct_BB : encryptCRC small iv0 kB kB = Ok cBB. Proof. vm_compute. reflexivity. Qed.
Lemma ct_BC : encryptCRC small iv0 kB kC = Ok cBC. Proof. vm_compute. reflexivity. Qed.
Lemma ct_CC : encryptCRC small iv0 kC kC = Ok cCC. Proof. vm_compute. reflexivity. Qed.

Definition opened (k c : Z) : Z :=
  if (k =? kA) && (c =? cAA) then kA else if (k =? kC) && (c =? cCC) then kC else
  if k =? kB then if c =? cBA then kA else if c =? cBB then kB else if c =? cBC then kC else 0 else 0.
Lemma dec_all k c : In k [kA; kB; kC] -> In c [cAA; cBA; cBB; cBC; cCC] -> decryptCRC small iv0 k c = Ok (opened k c).
Proof.
  intros [<-|[<-|[<-|[]]]] [<-|[<-|[<-|[<-|[<-|[]]]]]]; vm_compute; reflexivity.
Qed.

Section Case.
  Variables (dbg : bool) (live : Z -> bool).
  Notation multiple := (multiple live).

  Lemma opp_gen : gmul CV (-1) (ggen CV) = gneg CV (ggen CV).
  Proof. reflexivity. Qed.

  Lemma order_big z : 0 < z < 2 ^ 200 -> ~ (order | z).
  Proof.
    intros H. apply ndiv. rewrite Z.abs_eq by lia. split; [lia|]. apply Z.lt_trans with (2 ^ 200); [lia|vm_compute; reflexivity].
  Qed.

  Lemma logs_agree P i j : multiple P i -> multiple P j -> (order | i - j).
  Proof.
    intros A B. apply (multiple_rf live) in A, B. pose proof (rf_fun live CV good_CV _ _ _ A B) as E.
    apply mk_order_eq. exact E.
  Qed.
  Lemma log_cong P i j : multiple P i -> (order | i - j) -> multiple P j.
  Proof.
    intros A B. apply (multiple_rf live) in A. apply (multiple_rf live). apply mk_order_eq in B.
    apply (rf_cong live CV _ _ _ A). exact B.
  Qed.

  Definition all_one (k : crs_t) : Prop := forall b, multiple (crs_g b k) 1 /\ multiple (crs_h b k) 1.

  Lemma ot_one k b v : all_one k -> ~ (order | 1 + v) -> ot_ok live k b 1 case_quad v.
  Proof.
    intros A N a h Ha _. assert (W : 1 * (q_s b case_quad * a + q_t b case_quad * h) = a).
    { unfold q_s, q_t. destruct (b =? 0); cbn [case_quad q_s0 q_s1 q_t0 q_t1]; ring. }
    rewrite W. pose proof (logs_agree _ _ _ Ha (proj1 (A b))) as E. cbv zeta. split; intros D.
    - apply (order_big 1); [split; [lia|vm_compute; reflexivity]|].
      replace 1 with (a - (a - 1)) by ring. apply Z.divide_sub_r; assumption.
    - apply N. replace (1 + v) with (a + v - (a - 1)) by ring. apply Z.divide_sub_r; assumption.
  Qed.

  Lemma gx_val z : 0 <= z < c_prime CV -> val (c_prime CV) (mk (c_prime CV) z) = z.
  Proof. intros H. apply Z.mod_small, H. Qed.
  Lemma not_opposite c D m P v : dcurve D = Some c -> live c = true -> encodable m -> c_gx CV / 1024 <> m ->
    encode dbg live D m = Ok P -> multiple P v -> ~ (order | 1 + v).
  Proof.
    intros Ec L EN NE E M Dv. pose proof (proj2 (L_C32_roundtrip dbg live c D m P Ec L E) EN) as DE.
    assert (M' : multiple P (-1)) by (apply (log_cong P v); [exact M|]; replace (v - -1) with (1 + v) by ring; exact Dv).
    destruct (L_C32_encode dbg live c D m Ec L) as [i [R [_ [E' [FR _]]]]]. rewrite E in E'. apply Ok_inj in E'. subst R.
    destruct M' as [_ DM]. rewrite opp_gen in DM. destruct FR as [FI [[_ CX] _]]. unfold den in DM. rewrite FI in DM.
    apply NE. rewrite <- DE. unfold decode. change (2 ^ ENCODING_SHIFT) with 1024. f_equal.
    assert (X : mk (c_prime CV) (fval (px P)) = mk (c_prime CV) (c_gx CV)).
    { exact (f_equal (fun o : ept (c_prime CV) => match o with Some q => fst q | None => f0 _ end) DM). }
    apply (f_equal (fun z => val (c_prime CV) z)) in X. rewrite (gx_val _ CX), gx_val in X by (vm_compute; split; [discriminate|reflexivity]). symmetry. exact X.
  Qed.

  Lemma ot_int k D c b m : dcurve D = Some c -> live c = true -> all_one k -> encodable m -> c_gx CV / 1024 <> m ->
    ot_ok_int dbg live k D b 1 case_quad m.
  Proof. intros Ec L A EN NE P v E M. apply ot_one; [exact A|]. exact (not_opposite c D m P v Ec L EN NE E M). Qed.

  Lemma case_good k D c th x : dcurve D = Some c -> live c = true -> all_one k -> 0 <= th < 2 ^ 15 -> 0 <= x < 2 ^ 15 ->
    good_draws dbg live small iv0 k D th 3 x case_draws.
  Proof.
    intros Ec L A TH X.
    assert (LINK : forall j, (j < 15)%nat -> forall s c0,
      encryptCRC small iv0 (level_key case_prep s (S j)) (level_key case_prep (refine s (bit x j) (bit th j)) j) = Ok c0 ->
      (encodable c0 /\ c_gx CV / 1024 <> c0) /\
      decryptCRC small iv0 (level_key case_prep (prefix_cmp x th (S j)) (S j)) c0 =
        Ok (if same_letter s (prefix_cmp x th (S j)) then level_key case_prep (prefix_cmp x th j) j else 0)).
    { intros j J s c0 E.
      assert (C : c0 = match s with Lt => cAA | Gt => cCC | Eq => match bit x j ?= bit th j with Lt => cBA | Eq => cBB | Gt => cBC end end).
      { unfold level_key, case_prep, refine in E. cbn [d_lt d_eq d_gt] in E.
        destruct s; [destruct (bit x j ?= bit th j)| |]; [rewrite ct_BB in E|rewrite ct_BA in E|rewrite ct_BC in E|rewrite ct_AA in E|rewrite ct_CC in E];
          apply Ok_inj in E; symmetry; exact E. }
      split.
      - rewrite C. destruct s; [destruct (bit x j ?= bit th j)| |]; (split; [first [exact en_BB|exact en_BA|exact en_BC|exact en_AA|exact en_CC]|vm_compute; discriminate]).
      - rewrite dec_all.
        + f_equal. rewrite (prefix_cmp_step x th j), C. unfold level_key, case_prep, refine. cbn [d_lt d_eq d_gt].
          destruct s, (prefix_cmp x th (S j)); try reflexivity; destruct (bit x j ?= bit th j); reflexivity.
        + destruct (prefix_cmp x th (S j)); cbn; tauto.
        + rewrite C. destruct s; [destruct (bit x j ?= bit th j)| |]; cbn; tauto. }
    assert (P15 : prefix_cmp x th 15 = Eq) by (unfold prefix_cmp; rewrite !Z.div_small by assumption; reflexivity).
    constructor.
    - intros s j _. destruct s; vm_compute; (split; [discriminate|reflexivity]).
    - rewrite P15. exact en_B.
    - intros j J s c0 E. destruct (LINK j J s c0 E) as [[E1 _] E2]. split; assumption.
    - intros s. assert (ML : mask_log case_draws s = 1) by (destruct s; reflexivity). rewrite ML.
      split; [apply order_big; split; [lia|vm_compute; reflexivity]|].
      intros P m M E.
      assert (MM : m = 2 * c_gx CV \/ m = 2 * c_gx CV + 1).
      { pose proof (finite_m live P 1 M ltac:(apply order_big; split; [lia|vm_compute; reflexivity])) as [FI [[_ CX] _]].
        destruct M as [_ DM]. change (gmul CV 1 (ggen CV)) with (ggen CV) in DM. unfold den in DM. rewrite FI in DM.
        assert (Q : mk (c_prime CV) (fval (px P)) = mk (c_prime CV) (c_gx CV)) .
        { exact (f_equal (fun o : ept (c_prime CV) => match o with Some q => fst q | None => f0 _ end) DM). }
        apply (f_equal (fun z => val (c_prime CV) z)) in Q. rewrite (gx_val _ CX), gx_val in Q by (vm_compute; split; [discriminate|reflexivity]).
        unfold getEncodedX in E. apply bind_Ok in E. destruct E as [T [_ E]]. apply Ok_inj in E. subst m. rewrite Q.
        destruct (fe_eq _ _); [right|left]; ring. }
      assert (R : exists c0, encryptCRC small iv0 (level_key case_prep s 0) m = Ok c0 /\ forall s',
          decryptCRC small iv0 (level_key case_prep s' 0) c0 = Ok (if same_letter s s' then m else 0)).
      { destruct MM as [-> | ->], s; (eexists; split; [vm_compute; reflexivity|]); intros []; vm_compute; reflexivity. }
      destruct R as [c0 [R1 R2]]. exists c0. split; [exact R1|apply R2].
    - apply order_big. split; [cbn; lia|vm_compute; reflexivity].
    - cbn zeta. rewrite P15. apply (ot_int k D c); [exact Ec|exact L|exact A|exact en_B|vm_compute; discriminate].
    - intros j J s c0 r E. destruct (LINK j J s c0 E) as [[E1 E2] _]. subst r. 
      replace (letter_quad s (sd_round case_draws (Z.of_nat (S j)))) with case_quad by (destruct s; reflexivity).
      apply (ot_int k D c); [exact Ec|exact L|exact A|exact E1|exact E2].
    - intros j J r. subst r. apply ot_one; [exact A|]. apply order_big.
      change (d_ok (sd_prep case_draws) j * d_r (sd_prep case_draws)) with 1.
      assert (B : 0 <= bit x j * 2 ^ Z.of_nat j * 3 <= 2 ^ 100).
      { pose proof (bit_range x j) as B. assert (0 <= 2 ^ Z.of_nat j <= 2 ^ 16) by (split; [apply Z.pow_nonneg; lia|apply Z.pow_le_mono_r; lia]).
        change (2 ^ 100) with (2 ^ 16 * 2 ^ 84). destruct B as [-> | ->]; lia. }
      lia.
  Qed.

  (** the objects of the case: a CRS from draws of 1, a server at [c1], a client at [c2] *)
  Lemma case_setup c0 c1 c2 : live c0 = true -> live c1 = true -> live c2 = true ->
    exists D Q S0 S, dme_new dbg live c0 dec 1 1 1 0 = Ok D /\ getRandomPoint dbg live CV (Some c0) 3 = Ok Q /\
      server_new dbg live c1 9 (dcrs D) 1 = Ok S0 /\ setSecret dbg live S0 Q = Ok (S, set_curve Q (Some c1)) /\
      server_ready live S 3 /\ theta S = 9 /\ fresh_server S /\ den CV (ga S) = den CV Q /\
      forall x, x = 5 \/ x = 12 -> let C := setMessage (client_new c2 (dcrs D)) x in
        client_ready live C x /\ same_crs (dcrs (sdme (ots S))) (dcrs (rdme (otr C))) /\ result C = pt_inf CV /\
        good_draws dbg live small iv0 (dcrs (rdme (otr C))) (sdme (ots S)) (theta S) 3 x case_draws.
  Proof.
    intros L0 L1 L2. destruct (L_C26_logs dbg live c0 dec 1 1 1 0 L0) as [D [ED [OK [A [B [A' B']]]]]].
    change (1 * 1) with 1 in B, A'. change (1 * (1 * 1)) with 1 in B'.
    assert (N1 : ~ (order | 1)) by (apply order_big; split; [lia|vm_compute; reflexivity]).
    assert (N3 : ~ (order | 3)) by (apply order_big; split; [lia|vm_compute; reflexivity]).
    assert (FI : crs_finite (dcrs D)).
    { split; [exact (mult_finite live _ _ A N1)|]. split; [exact (mult_finite live _ _ B N1)|].
      split; [exact (mult_finite live _ _ A' N1)|exact (mult_finite live _ _ B' N1)]. }
    destruct (randP_m dbg live c0 3 L0) as [Q [EQ MQ]].
    destruct (L_ready_server dbg live c1 9 (dcrs D) Q 3 1 L1 FI ltac:(split; [lia|vm_compute; reflexivity]) MQ N3) as [S0 [S [E0 [E1 [SR [TH [SC [FS DG]]]]]]]].
    exists D, Q, S0, S. split; [exact ED|]. split; [exact EQ|]. split; [exact E0|]. split; [exact E1|]. split; [exact SR|].
    split; [exact TH|]. split; [exact FS|]. split; [exact DG|]. intros x X C.
    destruct (L_ready_client live c2 (dcrs D) x L2 FI ltac:(destruct X as [-> | ->]; split; [lia|vm_compute; reflexivity|lia|vm_compute; reflexivity])) as [CR [SC' R0]].
    split; [exact CR|]. split.
    { destruct SC as [S1 [S2 [S3 S4]]], SC' as [T1 [T2 [T3 T4]]]. unfold same_point in *.
      split; [exact (eq_trans S1 (eq_sym T1))|]. split; [exact (eq_trans S2 (eq_sym T2))|].
      split; [exact (eq_trans S3 (eq_sym T3))|exact (eq_trans S4 (eq_sym T4))]. }
    split; [exact R0|]. rewrite TH. pose proof (sr_ots _ _ _ SR) as [[c [Ec L]] _].
    apply (case_good _ _ c 9 x Ec L); [|lia|destruct X as [-> | ->]; lia].
    pose proof (cr_otr _ _ _ CR) as [_ [V1 [V2 [V3 V4]]]]. destruct SC' as [T1 [T2 [T3 T4]]].
    intros b. unfold crs_g, crs_h. destruct (b =? 0); (split; (split; [assumption|])).
    - exact (eq_trans T1 (proj2 A)).
    - exact (eq_trans T3 (proj2 A')).
    - exact (eq_trans T2 (proj2 B)).
    - exact (eq_trans T4 (proj2 B')).
  Qed.
End Case.
