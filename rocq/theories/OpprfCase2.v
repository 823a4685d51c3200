(** Concrete transcripts of the oblivious PRF: threshold 9, secret 3*G. *)
From Coq Require Import ZArith Znumtheory Bool List Lia Field.
From Verif Require Import Outcome FieldModel ZpField SpecField FieldProofs ECGroup ECOrder CurveParams CurveFacts EccModel EccProofs SpecEcc EccThms Emb RF DmeModel SpecDme DmeProofs DmeProofs2 OtModel SpecOt OtProofs.
From Verif Require Import CrcModel SpecCrc AesModel SpecAes OpprfModel SpecOpprf SpecOpprf2 OpprfProofs OpprfProofs2 OpprfProofs3 OpprfProofs4 OpprfProofs5 OpprfProofs6 OpprfProofs7 OpprfProofs8 OpprfCase Prop_Aes.
Import ListNotations.
Open Scope Z_scope.

(** the inverse of 2, and keys for a CRS whose branches differ by the factor 2 *)
Definition half : Z := (order + 1) / 2.
Definition key2 (x r : Z) : Z := if round_bit x r =? 1 then half else 1.

Lemma key2_one x r : (order | key2 x r * 2 ^ round_bit x r - 1).
Proof.
  unfold key2. destruct (bit_range x (Z.to_nat (r - 1))) as [E|E]; unfold round_bit; rewrite E; cbn [Z.eqb Pos.eqb].
  - exists 0. reflexivity.
  - exists 1. vm_compute. reflexivity.
Qed.
Lemma key2_change x x' : interchange 2 x x' (key2 x) (key2 x').
Proof.
  intros r _. pose proof (key2_one x r) as A. pose proof (key2_one x' r) as B.
  replace (key2 x' r * 2 ^ round_bit x' r - key2 x r * 2 ^ round_bit x r)
    with ((key2 x' r * 2 ^ round_bit x' r - 1) - (key2 x r * 2 ^ round_bit x r - 1)) by ring.
  apply Z.divide_sub_r; assumption.
Qed.

Section Case2.
  Variables (dbg : bool) (live : Z -> bool).
  Notation multiple := (multiple live).
  Notation n := (fieldn CV).

  (** a server for a given CRS *)
  Lemma case_world c0 c1 D : live c0 = true -> live c1 = true -> crs_finite (dcrs D) ->
    exists Q S0 S, getRandomPoint dbg live CV (Some c0) 3 = Ok Q /\ server_new dbg live c1 9 (dcrs D) 1 = Ok S0 /\
      setSecret dbg live S0 Q = Ok (S, set_curve Q (Some c1)) /\ server_ready live S 3 /\ theta S = 9 /\
      same_crs (dcrs (sdme (ots S))) (dcrs D) /\ den CV (ga S) = den CV Q.
  Proof.
    intros L0 L1 FI. assert (N3 : ~ (order | 3)) by (apply order_big; split; [lia|vm_compute; reflexivity]).
    destruct (randP_m dbg live c0 3 L0) as [Q [EQ MQ]].
    destruct (L_ready_server dbg live c1 9 (dcrs D) Q 3 1 L1 FI ltac:(split; [lia|vm_compute; reflexivity]) MQ N3) as [S0 [S [E0 [E1 [SR [TH [SC [FS DG]]]]]]]].
    exists Q, S0, S. repeat (split; [assumption|]). exact DG.
  Qed.

  Lemma ones_exist c : live c = true -> exists k, all_one live k.
  Proof.
    intros L0. destruct (L_C26_logs dbg live c dec 1 1 1 0 L0) as [D [ED [OK [A [B [A' B']]]]]].
    exists (dcrs D). intros b. unfold crs_g, crs_h. destruct (b =? 0); split; assumption.
  Qed.

  (** keys and masks of the case do not depend on the CRS *)
  Lemma case_keys d : sd_prep d = case_prep -> forall s j, (j < 16)%nat -> 2 ^ 120 <= level_key (sd_prep d) s j < 2 ^ 128.
  Proof. intros -> s j _. destruct s; vm_compute; (split; [discriminate|reflexivity]). Qed.

  Lemma case_masks c D d x : dcurve D = Some c -> live c = true -> 0 <= x < 2 ^ 15 -> sd_prep d = case_prep -> sd_random d = 1 ->
    forall s', ~ (order | mask_log d s') /\ forall P m, multiple P (mask_log d s') -> getEncodedX dbg live CV P = Ok m ->
      exists ct, encryptCRC small iv0 (level_key (sd_prep d) s' 0) m = Ok ct /\
        decryptCRC small iv0 (level_key (sd_prep d) (x ?= 9) 0) ct = Ok (if same_letter s' (x ?= 9) then m else 0).
  Proof.
    intros Ec L X EP ER. destruct (ones_exist c L) as [k A].
    pose proof (gd_mask _ _ _ _ _ _ _ _ _ _ (case_good dbg live k D c 9 x Ec L A ltac:(lia) X)) as H. intros s'. specialize (H s').
    assert (ML : mask_log d s' = mask_log case_draws s') by (unfold mask_log; rewrite EP, ER; reflexivity).
    rewrite ML, EP. exact H.
  Qed.

  Lemma ot_at k b r q v a h : multiple (crs_g b k) a -> multiple (crs_h b k) h -> (order | r * (q_s b q * a + q_t b q * h) - 1) ->
    ~ (order | 1 + v) -> ot_ok live k b r q v.
  Proof.
    intros A H E N a' h' A' H'. cbv zeta. pose proof (logs_agree live _ _ _ A A') as EA. pose proof (logs_agree live _ _ _ H H') as EH.
    assert (W : (order | r * (q_s b q * a' + q_t b q * h') - 1)).
    { replace (r * (q_s b q * a' + q_t b q * h') - 1) with
        (r * (q_s b q * a + q_t b q * h) - 1 - (r * q_s b q * (a - a') + r * q_t b q * (h - h'))) by ring.
      apply Z.divide_sub_r; [exact E|]. apply Z.divide_add_r; apply Z.divide_mul_r; assumption. }
    split; intros D.
    - apply (order_big 1); [split; [lia|vm_compute; reflexivity]|].
      replace 1 with (r * (q_s b q * a' + q_t b q * h') - (r * (q_s b q * a' + q_t b q * h') - 1)) by ring. apply Z.divide_sub_r; assumption.
    - apply N. replace (1 + v) with (r * (q_s b q * a' + q_t b q * h') + v - (r * (q_s b q * a' + q_t b q * h') - 1)) by ring.
      apply Z.divide_sub_r; assumption.
  Qed.
  Lemma ot_from k b v : all_one live k -> ot_ok live k b 1 case_quad v -> ~ (order | 1 + v).
  Proof.
    intros A H. destruct (A b) as [G K]. destruct (H 1 1 G K) as [_ N]. cbv zeta in N.
    assert (W : 1 * (q_s b case_quad * 1 + q_t b case_quad * 1) = 1) by (unfold q_s, q_t; destruct (b =? 0); reflexivity).
    rewrite W in N. exact N.
  Qed.

  Definition twice (k : crs_t) : Prop := forall b, branch b -> multiple (crs_g b k) (2 ^ b) /\ multiple (crs_h b k) (2 ^ b).
  Lemma ot_twice k k' x j v : all_one live k -> twice k' -> ot_ok live k (bit x j) 1 case_quad v ->
    ot_ok live k' (bit x j) (key2 x (Z.of_nat (S j))) case_quad v.
  Proof.
    intros A T H. destruct (T (bit x j) (bit_branch x j)) as [G K]. apply (ot_at _ _ _ _ _ _ _ G K).
    - replace (key2 x (Z.of_nat (S j)) * (q_s (bit x j) case_quad * 2 ^ bit x j + q_t (bit x j) case_quad * 2 ^ bit x j) - 1)
        with (key2 x (Z.of_nat (S j)) * 2 ^ round_bit x (Z.of_nat (S j)) - 1); [apply key2_one|].
      unfold round_bit. replace (Z.to_nat (Z.of_nat (S j) - 1)) with j by lia. unfold q_s, q_t.
      destruct (bit x j =? 0); cbn [case_quad q_s0 q_s1 q_t0 q_t1]; ring.
    - exact (ot_from _ _ _ A H).
  Qed.

  Lemma good2 k' D c x : dcurve D = Some c -> live c = true -> twice k' -> 0 <= x < 2 ^ 15 ->
    good_draws dbg live small iv0 k' D 9 3 x (with_keys case_draws (key2 x)).
  Proof.
    intros Ec L T X. destruct (ones_exist c L) as [k A]. pose proof (case_good dbg live k D c 9 x Ec L A ltac:(lia) X) as G.
    constructor.
    - exact (gd_keys _ _ _ _ _ _ _ _ _ _ G).
    - exact (gd_top _ _ _ _ _ _ _ _ _ _ G).
    - exact (gd_link _ _ _ _ _ _ _ _ _ _ G).
    - exact (gd_mask _ _ _ _ _ _ _ _ _ _ G).
    - exact (gd_unmask _ _ _ _ _ _ _ _ _ _ G).
    - pose proof (gd_ot_top _ _ _ _ _ _ _ _ _ _ G) as H. intros r P v E M. cbv zeta in H. specialize (H P v E M). apply (ot_twice k k' x 15 v A T H).
    - pose proof (gd_ot_link _ _ _ _ _ _ _ _ _ _ G) as H. intros j J s ct r E P v E' M. cbv zeta in H. specialize (H j J s ct E P v E' M).
      assert (LQ : letter_quad s r = case_quad) by (destruct s; reflexivity). rewrite LQ.
      replace (letter_quad s (sd_round case_draws (Z.of_nat (S j)))) with case_quad in H by (destruct s; reflexivity).
      apply (ot_twice k k' x j v A T H).
    - pose proof (gd_ot_prf _ _ _ _ _ _ _ _ _ _ G) as H. intros j J r. cbv zeta in H. specialize (H j J). apply (ot_twice k k' x j _ A T H).
  Qed.

  (** ** The CRS of draws 2, 1, 1 in decryption mode *)
  Lemma case2_crs c0 : live c0 = true -> exists D, dme_new dbg live c0 dec 2 1 1 0 = Ok D /\ crs_finite (dcrs D) /\
    crs_logs live (dcrs D) 1 2 1 2.
  Proof.
    intros L0. destruct (L_C26_logs dbg live c0 dec 2 1 1 0 L0) as [D [ED [OK [A [B [A' B']]]]]]. exists D. split; [exact ED|].
    assert (N1 : ~ (order | 1)) by (apply order_big; split; [lia|vm_compute; reflexivity]).
    assert (N2 : ~ (order | 2)) by (apply order_big; split; [lia|vm_compute; reflexivity]).
    split; [|split; [exact A|split; [exact B|split; [exact A'|exact B']]]].
    split; [exact (mult_finite live _ _ A N1)|]. split; [exact (mult_finite live _ _ B N2)|].
    split; [exact (mult_finite live _ _ A' N1)|exact (mult_finite live _ _ B' N2)].
  Qed.
  Lemma nz1 : ~ (order | 1). Proof. apply order_big; split; [lia|vm_compute; reflexivity]. Qed.
  Lemma nz2 : ~ (order | 2). Proof. apply order_big; split; [lia|vm_compute; reflexivity]. Qed.

  Lemma twice_received c2 D : live c2 = true -> crs_finite (dcrs D) -> crs_logs live (dcrs D) 1 2 1 2 -> twice (dcrs (dme_new_crs c2 (dcrs D))).
  Proof.
    intros L2 FI [A [B [A' B']]]. destruct (L_ready_client live c2 (dcrs D) 0 L2 FI ltac:(split; [lia|vm_compute; reflexivity])) as [CR [[T1 [T2 [T3 T4]]] _]].
    pose proof (cr_otr _ _ _ CR) as [_ [V1 [V2 [V3 V4]]]].
    intros b [-> | ->]; unfold crs_g, crs_h; cbn [Z.eqb Pos.eqb]; (split; (split; [assumption|])).
    - exact (eq_trans T1 (proj2 A)).
    - exact (eq_trans T3 (proj2 A')).
    - exact (eq_trans T2 (proj2 B)).
    - exact (eq_trans T4 (proj2 B')).
  Qed.

  Lemma case2_session c0 c1 c2 x : live c0 = true -> live c1 = true -> live c2 = true -> 0 <= x <= 9 ->
    forall D Q S0 S, dme_new dbg live c0 dec 2 1 1 0 = Ok D -> crs_finite (dcrs D) -> crs_logs live (dcrs D) 1 2 1 2 ->
    getRandomPoint dbg live CV (Some c0) 3 = Ok Q -> server_new dbg live c1 9 (dcrs D) 1 = Ok S0 ->
    setSecret dbg live S0 Q = Ok (S, set_curve Q (Some c1)) -> server_ready live S 3 -> theta S = 9 ->
    same_crs (dcrs (sdme (ots S))) (dcrs D) ->
    good_draws dbg live small iv0 (dcrs (dme_new_crs c2 (dcrs D))) (sdme (ots S)) (theta S) 3 x (with_keys case_draws (key2 x)) /\
    exists t, talk dbg live small iv0 S (setMessage (client_new c2 (dcrs D)) x) (with_keys case_draws (key2 x)) = Ok t.
  Proof.
    intros L0 L1 L2 X D Q S0 S ED FI LG EQ E0 E1 SR TH SC.
    pose proof (sr_ots _ _ _ SR) as [[c [Ec L]] _].
    assert (GD : good_draws dbg live small iv0 (dcrs (dme_new_crs c2 (dcrs D))) (sdme (ots S)) (theta S) 3 x (with_keys case_draws (key2 x))).
    { rewrite TH. apply (good2 _ _ c); [exact Ec|exact L|exact (twice_received c2 D L2 FI LG)|lia]. }
    split; [exact GD|].
    destruct (L_ready_client live c2 (dcrs D) x L2 FI ltac:(lia)) as [CR [SC' R0]].
    assert (SCC : same_crs (dcrs (sdme (ots S))) (dcrs (rdme (otr (setMessage (client_new c2 (dcrs D)) x))))).
    { apply (same_crs_trans _ _ _ SC). apply same_crs_sym. exact SC'. }
    destruct (L_C50 dbg live small iv0 S _ (with_keys case_draws (key2 x)) 3 x case_aes SR CR SCC GD ltac:(lia) R0) as [S' [C' [E _]]].
    destruct (L_session_talk dbg live small iv0 _ _ _ _ _ E) as [t [T _]]. exists t. exact T.
  Qed.

  (** ** Shifted ciphertexts *)
  Let Hn : prime n := prime_n CV good_CV.
  Let HF := field_Fp n Hn.
  Add Field OpprfCaseField2 : HF.

  Lemma small_nz z : 0 < z < 2 ^ 200 -> mk n z <> f0 n.
  Proof. intros H. rewrite mk_order_0. apply order_big, H. Qed.
  Lemma key2_mk x r : 1 <= r <= 16 -> fmul n (mk n (key2 x r)) (pick (round_bit x r) (mk n 1) (mk n 2)) = mk n 1.
  Proof.
    intros _. pose proof (key2_one x r) as H. apply mk_order_eq in H. rewrite <- mk_mul in H. refine (eq_trans _ H). f_equal.
    destruct (round_bit_branch x r) as [-> | ->]; reflexivity.
  Qed.

  Lemma answer_shift c x r l : live c = true -> 1 <= r <= 16 ->
    answer live (with_keys case_draws (key2 x)) (mk n 3) (mk n 1) (mk n 2) (mk n 1) (mk n 2) (mk n 1) (mk n 1) r l ->
    exists l', Forall2 (shift_ctxt live 7) l l'.
  Proof.
    intros L R [c0 [c1 [-> [[U0 W0] [U1 W1]]]]]. cbn [with_keys case_draws sd_round rd_p case_quad q_s0 q_t0 q_s1 q_t1 sd_prep case_prep d_ok d_r] in U0, W0, U1, W1.
    repeat first [rewrite mk_mul in U0 | rewrite mk_add in U0]. repeat first [rewrite mk_mul in W0 | rewrite mk_add in W0]. repeat first [rewrite mk_mul in U1 | rewrite mk_add in U1]. repeat first [rewrite mk_mul in W1 | rewrite mk_add in W1].
    assert (PW : 0 < 2 ^ (r - 1) <= 2 ^ 16) by (split; [apply Z.pow_pos_nonneg; lia|apply Z.pow_le_mono_r; lia]).
    destruct (shift_exists dbg live c c0 _ 7 _ L U0 ltac:(apply small_nz; lia) W0 ltac:(apply small_nz; lia) ltac:(rewrite mk_add; apply small_nz; lia)) as [_ [R0 [_ [_ H0]]]].
    destruct (shift_exists dbg live c c1 _ 7 _ L U1 ltac:(apply small_nz; lia) W1 ltac:(apply small_nz; lia) ltac:(rewrite mk_add; apply small_nz; lia)) as [_ [R1 [_ [_ H1]]]].
    eexists. constructor; [exact H0|]. constructor; [exact H1|constructor].
  Qed.

  Lemma case2_shift c0 c1 c2 x : live c0 = true -> live c1 = true -> live c2 = true -> 0 <= x <= 9 ->
    forall D Q S0 S, dme_new dbg live c0 dec 2 1 1 0 = Ok D -> crs_finite (dcrs D) -> crs_logs live (dcrs D) 1 2 1 2 ->
    getRandomPoint dbg live CV (Some c0) 3 = Ok Q -> server_new dbg live c1 9 (dcrs D) 1 = Ok S0 ->
    setSecret dbg live S0 Q = Ok (S, set_curve Q (Some c1)) -> server_ready live S 3 -> theta S = 9 ->
    same_crs (dcrs (sdme (ots S))) (dcrs D) ->
    exists t t', talk dbg live small iv0 S (setMessage (client_new c2 (dcrs D)) x) (with_keys case_draws (key2 x)) = Ok t /\
      length (tr_rounds t) = 16%nat /\ tr_masks t' = tr_masks t /\ shift_rounds live (repeat 7 16) (tr_rounds t) (tr_rounds t').
  Proof.
    intros L0 L1 L2 X D Q S0 S ED FI LG EQ E0 E1 SR TH SC.
    pose proof (sr_ots _ _ _ SR) as OK. pose proof OK as [[c [Ec L]] _].
    assert (KD : drf live D c0 (mk n 1) (mk n 2) (mk n 1) (mk n 2)).
    { destruct (new_dec_rf dbg live c0 2 1 1 0 L0) as [D1 [EE [_ K]]]. rewrite ED in EE. apply Ok_inj in EE. subst D1. rewrite !mk_mul in K. exact K. }
    destruct (same_drf live _ _ _ _ _ _ _ KD OK SC) as [cs KS].
    assert (KC : drf live (dme_new_crs c2 (dcrs D)) c2 (mk n 1) (mk n 2) (mk n 1) (mk n 2)).
    { apply (received_drf live c0 c2 D _ _ _ _ L2 KD); apply small_nz; lia. }
    destruct (talk_logs dbg live small iv0 S (setMessage (client_new c2 (dcrs D)) x) (with_keys case_draws (key2 x)) 3 x cs c2 _ _ _ _ (x ?= 9)
      case_aes SR KS KC eq_refl (case_keys (with_keys case_draws (key2 x)) eq_refl) (case_masks c (sdme (ots S)) (with_keys case_draws (key2 x)) x Ec L ltac:(lia) eq_refl eq_refl)) as [t [T A]].
    assert (H : forall l ms, Forall (fun r => 1 <= r <= 16) l ->
      Forall2 (fun r (m : pkey * otctxts) => answer live (with_keys case_draws (key2 x)) (mk n 3) (mk n 1) (mk n 2) (mk n 1) (mk n 2)
        (fmul n (mk n (rd_key (sd_round (with_keys case_draws (key2 x)) r))) (pick (round_bit x r) (mk n 1) (mk n 2)))
        (fmul n (mk n (rd_key (sd_round (with_keys case_draws (key2 x)) r))) (pick (round_bit x r) (mk n 1) (mk n 2))) r (ocprf (snd m))) l ms ->
      exists ms', shift_rounds live (repeat 7 (length l)) ms ms').
    { intros l ms FL F2. revert FL. induction F2 as [|r m l ms HM F2 IH]; intros FL; [exists []; constructor|].
      inversion FL as [|? ? R FL']; subst. destruct (IH FL') as [ms' SH].
      cbn [with_keys sd_round rd_key] in HM. rewrite (key2_mk x r R) in HM. destruct (answer_shift c x r _ L R HM) as [l' HL].
      exists ((fst m, mkoc (oc (snd m)) l') :: ms'). cbn [length repeat]. constructor; [|exact SH]. split; [reflexivity|exact HL]. }
    destruct (H rounds (tr_rounds t) rounds_range A) as [ms' SH].
    exists t, (mktr ms' (tr_masks t)). split; [exact T|]. split; [|split; [reflexivity|exact SH]].
    change 16%nat with (length rounds). clear - A. induction A as [|? ? ? ? _ _ IH]; [reflexivity|]. cbn [length]. rewrite IH. reflexivity.
  Qed.

  (** ** The cases *)
  Lemma case78 c0 c1 c2 : live c0 = true -> live c1 = true -> live c2 = true ->
    exists D Q S0 S t, dme_new dbg live c0 dec 2 1 1 0 = Ok D /\ getRandomPoint dbg live CV (Some c0) 3 = Ok Q /\
      server_new dbg live c1 9 (dcrs D) 1 = Ok S0 /\ setSecret dbg live S0 Q = Ok (S, set_curve Q (Some c1)) /\
      talk dbg live small iv0 S (setMessage (client_new c2 (dcrs D)) 5) (with_keys case_draws (key2 5)) = Ok t /\
      talk dbg live small iv0 S (setMessage (client_new c2 (dcrs D)) 0) (with_keys case_draws (key2 0)) = Ok t /\
      key2 5 1 <> key2 0 1.
  Proof.
    intros L0 L1 L2. destruct (case2_crs c0 L0) as [D [ED [FI LG]]]. destruct (case_world c0 c1 D L0 L1 FI) as [Q [S0 [S [EQ [E0 [E1 [SR [TH [SC DG]]]]]]]]].
    destruct (case2_session c0 c1 c2 5 L0 L1 L2 ltac:(lia) D Q S0 S ED FI LG EQ E0 E1 SR TH SC) as [_ [t T]].
    exists D, Q, S0, S, t. split; [exact ED|]. split; [exact EQ|]. split; [exact E0|]. split; [exact E1|]. split; [exact T|].
    split; [|vm_compute; discriminate].
    rewrite <- (L_C78_same dbg live small iv0 c0 c2 2 1 1 0 D L0 L2 nz2 nz1 nz1 ED S (client_new c2 (dcrs D)) case_draws (key2 5) (key2 0) 5 0 eq_refl (key2_change 5 0)).
    exact T.
  Qed.

  Lemma case79 c0 c1 c2 : live c0 = true -> live c1 = true -> live c2 = true ->
    exists D Q S0 S t C0 C1, dme_new dbg live c0 dec 2 1 1 0 = Ok D /\ getRandomPoint dbg live CV (Some c0) 3 = Ok Q /\
      server_new dbg live c1 9 (dcrs D) 1 = Ok S0 /\ setSecret dbg live S0 Q = Ok (S, set_curve Q (Some c1)) /\
      talk dbg live small iv0 S (setMessage (client_new c2 (dcrs D)) 5) (with_keys case_draws (key2 5)) = Ok t /\
      offline dbg live small iv0 (setMessage (client_new c2 (dcrs D)) 0) (with_keys case_draws (key2 0)) t = Ok C0 /\
      offline dbg live small iv0 (setMessage (client_new c2 (dcrs D)) 1) (with_keys case_draws (key2 1)) t = Ok C1 /\
      den CV (result C1) = gadd CV (den CV (result C0)) (gmul CV 1 (den CV Q)).
  Proof.
    intros L0 L1 L2. destruct (case2_crs c0 L0) as [D [ED [FI LG]]]. destruct (case_world c0 c1 D L0 L1 FI) as [Q [S0 [S [EQ [E0 [E1 [SR [TH [SC DG]]]]]]]]].
    destruct (case2_session c0 c1 c2 5 L0 L1 L2 ltac:(lia) D Q S0 S ED FI LG EQ E0 E1 SR TH SC) as [_ [t T]].
    destruct (case2_session c0 c1 c2 0 L0 L1 L2 ltac:(lia) D Q S0 S ED FI LG EQ E0 E1 SR TH SC) as [GD0 _].
    destruct (case2_session c0 c1 c2 1 L0 L1 L2 ltac:(lia) D Q S0 S ED FI LG EQ E0 E1 SR TH SC) as [GD1 _].
    destruct (L_C79 dbg live small iv0 c0 c2 2 1 1 0 D L0 L2 nz2 nz1 nz1 ED S 3 case_draws 5 (key2 5) t case_aes SR SC T 0 (key2 0) ltac:(lia) (key2_change 5 0) GD0) as [C0 [O0 [_ R0]]].
    destruct (L_C79 dbg live small iv0 c0 c2 2 1 1 0 D L0 L2 nz2 nz1 nz1 ED S 3 case_draws 5 (key2 5) t case_aes SR SC T 1 (key2 1) ltac:(lia) (key2_change 5 1) GD1) as [C1 [O1 [_ R1]]].
    exists D, Q, S0, S, t, C0, C1. split; [exact ED|]. split; [exact EQ|]. split; [exact E0|]. split; [exact E1|]. split; [exact T|].
    split; [exact O0|]. split; [exact O1|]. rewrite <- DG. exact (L_C79_secret live S 3 _ _ _ 0 1 (sr_ga _ _ _ SR) R0 R1).
  Qed.

  Lemma case80 c0 c1 c2 : live c0 = true -> live c1 = true -> live c2 = true ->
    exists D Q S0 S t bs, dme_new dbg live c0 messy 2 3 1 2 = Ok D /\ getRandomPoint dbg live CV (Some c0) 3 = Ok Q /\
      server_new dbg live c1 9 (dcrs D) 1 = Ok S0 /\ setSecret dbg live S0 Q = Ok (S, set_curve Q (Some c1)) /\
      talk dbg live small iv0 S (setMessage (client_new c2 (dcrs D)) 5) case_draws = Ok t /\
      mapM (fun m => FindMessy dbg live D (fst m)) (tr_rounds t) = Ok bs /\ number (map (fun b => 1 - b) bs) = 5.
  Proof.
    intros L0 L1 L2. destruct (new_messy_rf dbg live c0 2 3 1 2 L0) as [D [ED [_ [_ KD]]]]. rewrite !mk_mul in KD. change (3 * 2) with 6 in KD; change (2 * 1) with 2 in KD.
    assert (NZ : forall z, 0 < z <= 6 -> mk n z <> f0 n) by (intros z Z; apply small_nz; lia).
    assert (FI : crs_finite (dcrs D)).
    { destruct KD as [_ _ A B A' B'].
      split; [refine (fin_any live _ _ A _)|split; [refine (fin_any live _ _ B _)|split; [refine (fin_any live _ _ A' _)|refine (fin_any live _ _ B' _)]]]; apply NZ; lia. }
    destruct (case_world c0 c1 D L0 L1 FI) as [Q [S0 [S [EQ [E0 [E1 [SR [TH [SC DG]]]]]]]]].
    pose proof (sr_ots _ _ _ SR) as OK. pose proof OK as [[c [Ec L]] _].
    destruct (same_drf live _ _ _ _ _ _ _ KD OK SC) as [cs KS].
    assert (KC : drf live (dme_new_crs c2 (dcrs D)) c2 (mk n 1) (mk n 2) (mk n 2) (mk n 6)).
    { apply (received_drf live c0 c2 D _ _ _ _ L2 KD); apply NZ; lia. }
    destruct (talk_logs dbg live small iv0 S (setMessage (client_new c2 (dcrs D)) 5) case_draws 3 5 cs c2 _ _ _ _ (5 ?= 9)
      case_aes SR KS KC eq_refl (case_keys case_draws eq_refl) (case_masks c (sdme (ots S)) case_draws 5 Ec L ltac:(lia) eq_refl eq_refl)) as [t [T _]].
    destruct (L_C80 dbg live small iv0 c0 c2 2 3 1 2 D L0 L2 ltac:(apply order_big; lia) ltac:(apply order_big; lia) ltac:(apply order_big; lia) ltac:(apply order_big; lia)) with
      (S := S) (C := client_new c2 (dcrs D)) (x := 5) (d := case_draws) (t := t) as [bs [EB NB]].
    - intros H. apply (order_big 1); [lia|]. replace 1 with (- (2 - 3)) by ring. apply Z.divide_opp_r, H.
    - exact ED.
    - lia.
    - reflexivity.
    - intros r _. exact nz1.
    - exact T.
    - exists D, Q, S0, S, t, bs. split; [exact ED|]. split; [exact EQ|]. split; [exact E0|]. split; [exact E1|]. split; [exact T|]. split; [exact EB|exact NB].
  Qed.

  Lemma case81 c0 c1 c2 c3 : live c0 = true -> live c1 = true -> live c2 = true -> live c3 = true ->
    exists D Q S0 S S1 S2 C1 S3 C2, dme_new dbg live c0 dec 2 1 1 0 = Ok D /\ getRandomPoint dbg live CV (Some c0) 3 = Ok Q /\
      server_new dbg live c1 9 (dcrs D) 1 = Ok S0 /\ setSecret dbg live S0 Q = Ok (S, set_curve Q (Some c1)) /\
      prepareKeysAndInputs dbg live small iv0 S case_prep = Ok S1 /\
      evaluate dbg live small iv0 S1 (setMessage (client_new c2 (dcrs D)) 5) (with_keys case_draws (key2 5)) = Ok (S2, C1) /\
      evaluate dbg live small iv0 S2 (setMessage (client_new c3 (dcrs D)) 1) (with_keys case_draws (key2 1)) = Ok (S3, C2) /\
      gadd CV (den CV (result C1)) (gmul CV (-1) (gadd CV (den CV (result C2)) (gneg CV (den CV (result C1))))) =
        gadd CV (gmul CV 17 (ggen CV)) (gmul CV 9 (den CV (ga S))).
  Proof.
    intros L0 L1 L2 L3. destruct (case2_crs c0 L0) as [D [ED [FI LG]]]. destruct (case_world c0 c1 D L0 L1 FI) as [Q [S0 [S [EQ [E0 [E1 [SR [TH [SC DG]]]]]]]]].
    destruct (case2_session c0 c1 c2 5 L0 L1 L2 ltac:(lia) D Q S0 S ED FI LG EQ E0 E1 SR TH SC) as [GD1 _].
    destruct (case2_session c0 c1 c3 1 L0 L1 L3 ltac:(lia) D Q S0 S ED FI LG EQ E0 E1 SR TH SC) as [GD2 _].
    destruct (L_ready_client live c2 (dcrs D) 5 L2 FI ltac:(lia)) as [CR1 [SC1 R1]].
    destruct (L_ready_client live c3 (dcrs D) 1 L3 FI ltac:(lia)) as [CR2 [SC2 R2]].
    destruct (prepare_ok dbg live small iv0 S case_prep 3 case_aes SR (case_keys case_draws eq_refl)) as [S1 [PR _]].
    destruct (L_C81 dbg live small iv0 S S1 (setMessage (client_new c2 (dcrs D)) 5) (setMessage (client_new c3 (dcrs D)) 1)
      (with_keys case_draws (key2 5)) (with_keys case_draws (key2 1)) 3 5 1 case_aes SR CR1 CR2) as [S2 [C1 [S3 [C2 [V1 [V2 H]]]]]].
    - apply (same_crs_trans _ _ _ SC). apply same_crs_sym. exact SC1.
    - apply (same_crs_trans _ _ _ SC). apply same_crs_sym. exact SC2.
    - exact GD1.
    - exact GD2.
    - reflexivity.
    - lia.
    - lia.
    - exact R1.
    - exact R2.
    - exact PR.
    - exists D, Q, S0, S, S1, S2, C1, S3, C2. split; [exact ED|]. split; [exact EQ|]. split; [exact E0|]. split; [exact E1|]. split; [exact PR|]. split; [exact V1|]. split; [exact V2|]. refine (H 9 (-1) _). exists 0. reflexivity.
  Qed.

  Lemma case82 c0 c1 c2 : live c0 = true -> live c1 = true -> live c2 = true ->
    exists D Q S0 S t t' C1 C1', dme_new dbg live c0 dec 2 1 1 0 = Ok D /\ getRandomPoint dbg live CV (Some c0) 3 = Ok Q /\
      server_new dbg live c1 9 (dcrs D) 1 = Ok S0 /\ setSecret dbg live S0 Q = Ok (S, set_curve Q (Some c1)) /\
      let C := setMessage (client_new c2 (dcrs D)) 5 in let d := with_keys case_draws (key2 5) in
      talk dbg live small iv0 S C d = Ok t /\ shift_rounds live (repeat 7 16) (tr_rounds t) (tr_rounds t') /\ tr_masks t' = tr_masks t /\
      offline dbg live small iv0 C d t = Ok C1 /\ offline dbg live small iv0 C d t' = Ok C1' /\
      den CV (result C1') = gadd CV (den CV (result C1)) (gmul CV 112 (ggen CV)).
  Proof.
    intros L0 L1 L2. destruct (case2_crs c0 L0) as [D [ED [FI LG]]]. destruct (case_world c0 c1 D L0 L1 FI) as [Q [S0 [S [EQ [E0 [E1 [SR [TH [SC DG]]]]]]]]].
    destruct (case2_shift c0 c1 c2 5 L0 L1 L2 ltac:(lia) D Q S0 S ED FI LG EQ E0 E1 SR TH SC) as [t [t' [T [LEN [EM SH]]]]].
    destruct (case2_session c0 c1 c2 5 L0 L1 L2 ltac:(lia) D Q S0 S ED FI LG EQ E0 E1 SR TH SC) as [GD _].
    destruct (L_C79 dbg live small iv0 c0 c2 2 1 1 0 D L0 L2 nz2 nz1 nz1 ED S 3 case_draws 5 (key2 5) t case_aes SR SC T 5 (key2 5) ltac:(lia) (key2_change 5 5) GD) as [C1 [O1 _]].
    destruct (L_ready_client live c2 (dcrs D) 5 L2 FI ltac:(lia)) as [CR [_ R0]].
    destruct (L_C82 dbg live small iv0 (setMessage (client_new c2 (dcrs D)) 5) 5 (with_keys case_draws (key2 5)) (repeat 7 16) t t' C1) as [C1' [O1' [_ [_ R]]]].
    - exact (cr_otr _ _ _ CR).
    - reflexivity.
    - exact (cr_result _ _ _ CR).
    - intros r _. cbn [with_keys sd_round rd_key]. unfold key2. destruct (round_bit 5 r =? 1); [|exact nz1].
      intros H. apply nz1. apply (Z.divide_add_cancel_r order order 1 (Z.divide_refl _)). replace (order + 1) with (half * 2) by (vm_compute; reflexivity). apply Z.divide_mul_l, H.
    - rewrite LEN. constructor.
    - exact SH.
    - exact EM.
    - exact O1.
    - exists D, Q, S0, S, t, t', C1, C1'. split; [exact ED|]. split; [exact EQ|]. split; [exact E0|]. split; [exact E1|]. cbv zeta. split; [exact T|]. split; [exact SH|]. split; [exact EM|]. split; [exact O1|]. split; [exact O1'|]. exact R.
  Qed.

  Lemma case83 c0 c1 c2 : live c0 = true -> live c1 = true -> live c2 = true ->
    exists D Q Q' S0 S S' t d' t', dme_new dbg live c0 messy 2 3 1 2 = Ok D /\ getRandomPoint dbg live CV (Some c0) 3 = Ok Q /\
      getRandomPoint dbg live CV (Some c0) 7 = Ok Q' /\
      server_new dbg live c1 9 (dcrs D) 1 = Ok S0 /\ setSecret dbg live S0 Q = Ok (S, set_curve Q (Some c1)) /\
      setSecret dbg live S Q' = Ok (S', set_curve Q' (Some c1)) /\
      talk dbg live small iv0 S (setMessage (client_new c2 (dcrs D)) 5) case_draws = Ok t /\
      talk dbg live small iv0 S' (setMessage (client_new c2 (dcrs D)) 5) d' = Ok t' /\ same_transcript t t' /\
      agree_on 5 case_draws d' /\ d_kopprf (sd_prep d') = order - 3.
  Proof.
    intros L0 L1 L2. destruct (new_messy_rf dbg live c0 2 3 1 2 L0) as [D [ED [_ [_ KD]]]]. rewrite !mk_mul in KD. change (3 * 2) with 6 in KD; change (2 * 1) with 2 in KD.
    assert (NZ : forall z, 0 < z <= 6 -> mk n z <> f0 n) by (intros z Z; apply small_nz; lia).
    assert (FI : crs_finite (dcrs D)).
    { destruct KD as [_ _ A B A' B'].
      split; [refine (fin_any live _ _ A _)|split; [refine (fin_any live _ _ B _)|split; [refine (fin_any live _ _ A' _)|refine (fin_any live _ _ B' _)]]]; apply NZ; lia. }
    destruct (case_world c0 c1 D L0 L1 FI) as [Q [S0 [S [EQ [E0 [E1 [SR [TH [SC DG]]]]]]]]].
    pose proof (sr_ots _ _ _ SR) as OK. pose proof OK as [[c [Ec L]] _].
    destruct (same_drf live _ _ _ _ _ _ _ KD OK SC) as [cs KS].
    assert (KC : drf live (dme_new_crs c2 (dcrs D)) c2 (mk n 1) (mk n 2) (mk n 2) (mk n 6)).
    { apply (received_drf live c0 c2 D _ _ _ _ L2 KD); apply NZ; lia. }
    destruct (talk_logs dbg live small iv0 S (setMessage (client_new c2 (dcrs D)) 5) case_draws 3 5 cs c2 _ _ _ _ (5 ?= 9)
      case_aes SR KS KC eq_refl (case_keys case_draws eq_refl) (case_masks c (sdme (ots S)) case_draws 5 Ec L ltac:(lia) eq_refl eq_refl)) as [t [T _]].
    destruct (randP_m dbg live c0 7 L0) as [Q' [EQ' MQ']].
    assert (N7 : ~ (order | 7)) by (apply order_big; lia).
    assert (C1 : scur S = Some c1).
    { unfold setSecret in E1. apply bind_Ok in E1. destruct E1 as [? [_ E1]]. apply bind_Ok in E1. destruct E1 as [? [_ E1]]. apply Ok_inj in E1. injection E1 as <- _.
      unfold server_new in E0. apply bind_Ok in E0. destruct E0 as [? [_ E0]]. apply Ok_inj in E0. subst S0. reflexivity. }
    assert (F7 : finite all_alive Q').
    { destruct (finite_m live Q' 7 MQ' N7) as [I [A [B [[c' [E _]] R]]]]. split; [exact I|]. split; [exact A|]. split; [exact B|]. split; [exists c'; split; [exact E|reflexivity]|exact R]. }
    destruct (set_curve_finite live Q' c1 L1 F7) as [V _].
    assert (E2 : exists S', setSecret dbg live S Q' = Ok (S', set_curve Q' (Some c1))).
    { unfold setSecret. rewrite C1. assert (E : (if dbg then isValid dbg live CV (set_curve Q' (Some c1)) else Ok true) = Ok true).
      { destruct dbg; [|reflexivity]. apply (valid_isValid true live CV good_CV). right. exact V. }
      rewrite E, bind_ret. assert (TT : assert_ dbg true = Ok tt) by (destruct dbg; reflexivity). rewrite TT, bind_ret. eexists. reflexivity. }
    destruct E2 as [S' E2].
    assert (MR : forall P z, EccProofs.rk live CV P (val n (mk n z)) -> multiple P z).
    { intros P z H. apply (multiple_rf live). exact H. }
    assert (CL : crs_logs live (dcrs (sdme (ots S))) 1 2 2 6).
    { destruct KS as [_ _ A B A' B']. split; [exact (MR _ _ A)|]. split; [exact (MR _ _ B)|]. split; [exact (MR _ _ A')|exact (MR _ _ B')]. }
    destruct (L_ready_client live c2 (dcrs D) 5 L2 FI ltac:(lia)) as [CR [SC' _]].
    assert (SCC : same_crs (dcrs (rdme (otr (client_new c2 (dcrs D))))) (dcrs (sdme (ots S)))).
    { apply (same_crs_trans _ _ _ SC'). apply same_crs_sym. exact SC. }
    destruct (L_C83 dbg live small iv0 S S' Q' _ (client_new c2 (dcrs D)) 3 7 1 2 2 6 5 case_draws t case_aes SR MQ' N7 E2 (cr_otr _ _ _ CR) SCC CL)
      as [d' [t' [AG [HR [T' [ST [PV _]]]]]]].
    - apply order_big; lia.
    - lia.
    - exact (case_keys case_draws eq_refl).
    - exact nz1.
    - intros r _. exact nz1.
    - exact T.
    - exists D, Q, Q', S0, S, S', t, d', t'. split; [exact ED|]. split; [exact EQ|]. split; [exact EQ'|]. split; [exact E0|]. split; [exact E1|]. split; [exact E2|].
      split; [exact T|]. split; [exact T'|]. split; [exact ST|]. split; [exact AG|].
      destruct (set_ready dbg live S 3 Q' 7 S' _ SR MQ' N7 E2) as [SR' _].
      rewrite (prf_value_log live _ _ 3 5 (sr_ga _ _ _ SR)), (prf_value_log live _ _ 7 5 (sr_ga _ _ _ SR')) in PV. apply (gk_eq CV good_CV) in PV.
      change (d_kopprf (sd_prep case_draws)) with 17 in PV. change (c_order CV) with order in PV.
      destruct HR as [[K1 K2] _]. destruct PV as [k PV]. assert (OB : 2 ^ 200 < order) by (vm_compute; reflexivity).
      assert (k = 1) by nia. lia.
  Qed.
End Case2.
