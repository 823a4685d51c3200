(** What transcripts of the oblivious PRF give away: proofs. *)
From Coq Require Import ZArith Znumtheory Bool List Lia Field.
From Verif Require Import Outcome FieldModel ZpField SpecField FieldProofs ECGroup ECOrder CurveParams CurveFacts EccModel EccProofs SpecEcc EccThms Emb RF.
From Verif Require Import DmeModel SpecDme DmeProofs DmeProofs2 OtModel SpecOt OtProofs OtProofs2 CrcModel AesModel SpecAes OpprfModel SpecOpprf SpecOpprf2.
From Verif Require Import OpprfProofs OpprfProofs2 OpprfProofs3 OpprfProofs4 OpprfProofs5.
Import ListNotations.
Open Scope Z_scope.

Section Opprf6.
  Variables (dbg : bool) (live : Z -> bool) (e : env) (iv : list Z).
  Notation n := (fieldn CV).
  Let Hn : prime n := prime_n CV good_CV.
  Let HF := field_Fp n Hn.
  Add Field OpprfField6 : HF.
  Notation F := (Fp n).
  Notation rf := (rf live CV).
  Notation em := (em n).
  Notation mk := (mk n).
  Notation drf := (drf live).
  Notation multiple := (multiple live).

  Ltac inv H := let a := fresh "v" in let E := fresh "Q" in apply bind_Ok in H; destruct H as [a [E H]].

  (** ** C79 *)
  Lemma dec_finite c r1 r2 r3 r4 D : live c = true -> ~ (order | r1) -> ~ (order | r2) -> ~ (order | r3) ->
    dme_new dbg live c dec r1 r2 r3 r4 = Ok D -> crs_finite (dcrs D).
  Proof.
    intros L N1 N2 N3 ED. destruct (new_dec_rf dbg live c r1 r2 r3 r4 L) as [D1 [E1 [_ K]]]. rewrite ED in E1. apply Ok_inj in E1. subst D1.
    rewrite <- mk_order_0 in N1, N2, N3.
    assert (P : forall u v : F, u <> f0 n -> v <> f0 n -> fmul n u v <> f0 n).
    { intros u v U V Z0. apply fmul_0 in Z0; [|exact Hn]. tauto. }
    destruct K as [_ _ X Y X' Y'].
    split; [exact (fin_any live _ _ X N2)|]. split; [exact (fin_any live _ _ Y (P _ _ N1 N2))|].
    split; [exact (fin_any live _ _ X' (P _ _ N3 N2))|exact (fin_any live _ _ Y' (P _ _ N3 (P _ _ N1 N2)))].
  Qed.

  Lemma same_crs_sym k k' : same_crs k k' -> same_crs k' k.
  Proof. intros [A [B [C D]]]. unfold same_crs, same_point in *. auto. Qed.
  Lemma same_crs_trans k k' k2 : same_crs k k' -> same_crs k' k2 -> same_crs k k2.
  Proof.
    intros [A [B [C D]]] [A' [B' [C' D']]]. unfold same_crs, same_point in *.
    split; [exact (eq_trans A A')|]. split; [exact (eq_trans B B')|]. split; [exact (eq_trans C C')|exact (eq_trans D D')].
  Qed.

  Section Trapdoor.
    Variables (c c' r1 r2 r3 r4 : Z) (D : dme).
    Hypotheses (L : live c = true) (L' : live c' = true) (N1 : ~ (order | r1)) (N2 : ~ (order | r2)) (N3 : ~ (order | r3)).
    Hypothesis (ED : dme_new dbg live c dec r1 r2 r3 r4 = Ok D).

    Lemma L_C79 S a d x f t : aes_ready e iv -> server_ready live S a -> same_crs (dcrs (sdme (ots S))) (dcrs D) ->
      talk dbg live e iv S (setMessage (client_new c' (dcrs D)) x) (with_keys d f) = Ok t ->
      forall x' f', 0 <= x' <= theta S -> interchange r1 x x' f f' ->
      good_draws dbg live e iv (dcrs (dme_new_crs c' (dcrs D))) (sdme (ots S)) (theta S) a x' (with_keys d f') ->
      exists C', offline dbg live e iv (setMessage (client_new c' (dcrs D)) x') (with_keys d f') t = Ok C' /\ is_valid live (result C') /\
        den CV (result C') = gadd CV (gmul CV (d_kopprf (sd_prep d)) (ggen CV)) (gmul CV x' (den CV (ga S))).
    Proof.
      intros A SR SC T x' f' X I GD. pose proof (sr_theta _ _ _ SR) as TR.
      pose proof (dec_finite c r1 r2 r3 r4 D L N1 N2 N3 ED) as FI.
      destruct (L_ready_client live c' (dcrs D) x' L' FI ltac:(lia)) as [CR [SC' R0]].
      assert (SCC : same_crs (dcrs (sdme (ots S))) (dcrs (rdme (otr (setMessage (client_new c' (dcrs D)) x'))))).
      { apply (same_crs_trans _ _ _ SC). apply same_crs_sym. exact SC'. }
      destruct (L_C50 dbg live e iv S (setMessage (client_new c' (dcrs D)) x') (with_keys d f') a x' A SR CR SCC GD ltac:(lia) R0) as [S' [C' [E [M [V R]]]]].
      destruct (L_session_talk dbg live e iv _ _ _ _ _ E) as [t' [T' O]].
      rewrite (L_C78_same dbg live e iv c c' r1 r2 r3 r4 D L L' N1 N2 N3 ED S (client_new c' (dcrs D)) d f f' x x' eq_refl I) in T. rewrite T in T'. apply Ok_inj in T'. subst t'.
      exists C'. split; [exact O|]. split; [exact V|]. rewrite R. f_equal. apply M.
    Qed.
  End Trapdoor.

  (** differences of two evaluations at the same key *)
  Lemma gsub_eval k x x' a : gadd CV (gadd CV (gmul CV k (ggen CV)) (gmul CV x (gmul CV a (ggen CV)))) (gmul CV (x' - x) (gmul CV a (ggen CV)))
    = gadd CV (gmul CV k (ggen CV)) (gmul CV x' (gmul CV a (ggen CV))).
  Proof.
    change (gmul CV a (ggen CV)) with (EccProofs.gk CV a). change (gmul CV k (ggen CV)) with (EccProofs.gk CV k). unfold gadd, gmul.
    rewrite !(gk_mul CV good_CV), !(gk_add CV good_CV). f_equal. ring.
  Qed.

  Lemma L_C79_secret S a P Q k x x' : multiple (ga S) a ->
    P = gadd CV (gmul CV k (ggen CV)) (gmul CV x (den CV (ga S))) -> Q = gadd CV (gmul CV k (ggen CV)) (gmul CV x' (den CV (ga S))) ->
    Q = gadd CV P (gmul CV (x' - x) (den CV (ga S))).
  Proof. intros [_ ->] -> ->. symmetry. apply gsub_eval. Qed.

  (** ** C80 *)
  Lemma number_bits x k : fold_left (fun z b => 2 * z + b) (map (bit x) (rev (seq 0 k))) (x / 2 ^ Z.of_nat k) = x.
  Proof.
    induction k as [|k IH]; [cbn [seq rev map fold_left]; change (2 ^ Z.of_nat 0) with 1; apply Z.div_1_r|].
    rewrite seq_S, rev_app_distr. cbn [rev app map fold_left Nat.add].
    replace (2 * (x / 2 ^ Z.of_nat (S k)) + bit x k) with (x / 2 ^ Z.of_nat k); [exact IH|].
    assert (Q : x / 2 ^ Z.of_nat (S k) = x / 2 ^ Z.of_nat k / 2).
    { rewrite Nat2Z.inj_succ, Z.pow_succ_r, (Z.mul_comm 2 (2 ^ Z.of_nat k)) by lia. rewrite Z.div_div; [reflexivity|apply Z.pow_nonzero; lia|lia]. }
    rewrite Q. unfold bit. apply Z.div_mod. lia.
  Qed.
  Lemma number_rounds x : 0 <= x < 2 ^ 16 -> number (map (round_bit x) rounds) = x.
  Proof.
    intros X. replace (map (round_bit x) rounds) with (map (bit x) (rev (seq 0 16))) by reflexivity.
    unfold number. rewrite <- (number_bits x 16) at 2. rewrite Z.div_small by exact X. reflexivity.
  Qed.

  Section Messy.
    Variables (c c' r1 r2 r3 r4 : Z) (D : dme).
    Hypotheses (L : live c = true) (L' : live c' = true) (N1 : ~ (order | r1)) (N2 : ~ (order | r2)) (N3 : ~ (order | r3)) (N4 : ~ (order | r4)).
    Hypothesis (N12 : ~ (order | r1 - r2)).
    Hypothesis (ED : dme_new dbg live c messy r1 r2 r3 r4 = Ok D).

    Lemma messy_key b r : branch b -> ~ (order | r) ->
      exists kp, KeyGen dbg live (dme_new_crs c' (dcrs D)) b r = Ok kp /\ FindMessy dbg live D (kpk kp) = Ok (1 - b).
    Proof.
      intros B Nr. destruct (new_messy_rf dbg live c r1 r2 r3 r4 L) as [D1 [E1 [T0 [_ K]]]]. rewrite ED in E1. apply Ok_inj in E1. subst D1.
      pose proof N1 as M1. pose proof N2 as M2. pose proof N3 as M3. pose proof N4 as M4. pose proof N12 as M12.
      rewrite <- mk_order_0 in M1, M2, M3, M4, Nr. rewrite <- mk_order_eq in M12.
      assert (P : forall u v : F, u <> f0 n -> v <> f0 n -> fmul n u v <> f0 n).
      { intros u v U V Z0. apply fmul_0 in Z0; [|exact Hn]. tauto. }
      pose proof (received_drf live c c' D _ _ _ _ L' K M3 M4 (P _ _ M1 M3) (P _ _ M2 M4)) as K'.
      destruct (KeyGen_rf dbg live _ c' _ _ _ _ b r K' B) as [kp [EK [X [Y _]]]]. exists kp. split; [exact EK|].
      destruct (FindMessy_rf dbg live D _ _ _ _ T0 X Y) as [b' [-> H]]. f_equal.
      destruct B as [-> | ->]; cbn [pick Z.eqb Pos.eqb] in H; destruct H as [[-> H]|[-> H]]; try reflexivity; exfalso.
      - apply H. ring.
      - assert (Z0 : fmul n (mk r) (fmul n (fsub n (mk r1) (mk r2)) (mk r4)) = f0 n).
        { transitivity (fsub n (fmul n (mk r1) (fmul n (mk r) (mk r4))) (fmul n (mk r) (fmul n (mk r2) (mk r4)))); [ring|]. rewrite H. ring. }
        apply (P _ _ Nr (P _ _ (fun Z1 => M12 (fsub0 _ _ Z1)) M4) Z0).
    Qed.

    Lemma exchanges_read x d l : Forall (fun r => 1 <= r <= 16) l -> (forall r, 1 <= r <= 16 -> ~ (order | rd_key (sd_round d r))) ->
      forall S C T t, rdme (otr C) = dme_new_crs c' (dcrs D) -> cx C = Some x ->
      exchanges dbg live S C (map (fun r => (r, sd_round d r)) l) = Ok (T, t) ->
      mapM (fun m => FindMessy dbg live D (fst m)) t = Ok (map (fun b => 1 - b) (map (round_bit x) l)).
    Proof.
      intros FL NK. induction FL as [|r l R FL IH]; intros S C T t E X H.
      - apply Ok_inj in H. injection H as _ <-. reflexivity.
      - cbn [map exchanges] in H. rewrite (start_eq dbg live C x r _ X R), E in H.
        destruct (messy_key (round_bit x r) (rd_key (sd_round d r)) (round_bit_branch x r) (NK r R)) as [kp [EK EF]].
        rewrite EK in H. cbn [bind fst snd] in H. inv H. inv H. apply Ok_inj in H. destruct v0 as [T0 t0]. cbn [fst snd] in H. injection H as _ <-.
        cbn [mapM map fst]. rewrite EF. cbn [bind]. rewrite (fun A B => IH _ _ _ _ A B Q0); [reflexivity|reflexivity|exact X].
    Qed.

    Lemma L_C80 S C x d t : 0 <= x < 2 ^ 16 -> rdme (otr C) = dme_new_crs c' (dcrs D) ->
      (forall r, 1 <= r <= 16 -> ~ (order | rd_key (sd_round d r))) ->
      talk dbg live e iv S (setMessage C x) d = Ok t ->
      exists bs, mapM (fun m => FindMessy dbg live D (fst m)) (tr_rounds t) = Ok bs /\ number (map (fun b => 1 - b) bs) = x.
    Proof.
      intros X E NK H. unfold talk, schedule in H. inv H. inv H. inv H. apply Ok_inj in H. subst t. destruct v0 as [T0 t0]. cbn [tr_rounds fst snd] in *.
      eexists. split; [apply (exchanges_read x d rounds rounds_range NK v (setMessage C x) T0 t0 E eq_refl Q0)|].
      rewrite map_map, <- (map_ext (fun b => b)) by (intros; ring). rewrite map_id. apply number_rounds, X.
    Qed.
  End Messy.

  (** ** C81 *)
  Lemma L_evaluate S0 S1 C0 d a x z : server_ready live S0 a -> client_ready live C0 x ->
    same_crs (dcrs (sdme (ots S0))) (dcrs (rdme (otr C0))) ->
    good_draws dbg live e iv (dcrs (rdme (otr C0))) (sdme (ots S0)) (theta S0) a x d ->
    prepared live e iv S0 S1 (sd_prep d) a -> multiple (result C0) z ->
    exists S C, evaluate dbg live e iv S1 C0 d = Ok (S, C) /\ prepared live e iv S0 S (sd_prep d) a /\
      multiple (result C) (z + outcome_log d (theta S0) a x).
  Proof.
    intros SR CR SC GD P1 MZ. unfold evaluate, schedule.
    destruct (top_round_ok dbg live e iv S0 C0 S1 d a x z SR CR SC GD P1 MZ) as [S2 [C2 [E2 [P2 A2]]]].
    destruct (rounds_ok dbg live e iv S0 C0 d a x z SR CR SC GD 15 ltac:(lia) S2 C2 P2 A2) as [S3 [C3 [E3 [P3 A3]]]].
    assert (E : foldM (one_round dbg live e iv) (map (fun r => (r, sd_round d r)) rounds) (S1, C0) = Ok (S3, C3)).
    { unfold rounds, MSG_BITS. rewrite (seq_S 15), rev_app_distr. cbn [rev app map foldM]. change (Z.of_nat (1 + 15)) with 16.
      rewrite E2. cbn [bind]. exact E3. }
    rewrite E. cbn [bind fst snd].
    destruct (masks_ok dbg live e iv S0 S3 d a (x ?= theta S0) SR (gd_mask _ _ _ _ _ _ _ _ _ _ GD) (proj1 P3) (sd_u d) (sd_v d)) as [f [E4 MO]].
    rewrite E4. cbn [bind].
    destruct (unmask_ok dbg live e iv C0 d (theta S0) a x z C3 f (sd_u d) (sd_v d) CR A3 (gd_unmask _ _ _ _ _ _ _ _ _ _ GD) (gd_mask _ _ _ _ _ _ _ _ _ _ GD) MO)
      as [C4 [E5 [_ [_ [_ [_ M4]]]]]].
    rewrite E5. cbn [bind]. exists S3, C4. split; [reflexivity|]. split; [exact P3|exact M4].
  Qed.

  Lemma lin_eval k f a x1 x2 x : (order | k * (x2 - x1) - (x - x1)) ->
    gadd CV (gmul CV (f + x1 * a) (ggen CV)) (gmul CV k (gadd CV (gmul CV (f + x2 * a) (ggen CV)) (gneg CV (gmul CV (f + x1 * a) (ggen CV))))) =
    gadd CV (gmul CV f (ggen CV)) (gmul CV x (gmul CV a (ggen CV))).
  Proof.
    intros K. change (gadd CV (EccProofs.gk CV (f + x1 * a)) (gmul CV k (gadd CV (EccProofs.gk CV (f + x2 * a)) (gneg CV (EccProofs.gk CV (f + x1 * a))))) =
      gadd CV (EccProofs.gk CV f) (gmul CV x (EccProofs.gk CV a))). unfold gadd, gmul, gneg.
    rewrite (gk_neg CV good_CV), (gk_add CV good_CV), !(gk_mul CV good_CV), !(gk_add CV good_CV). apply (gk_eq CV good_CV).
    destruct K as [q K]. exists (q * a).
    replace (f + x1 * a + k * (f + x2 * a + - (f + x1 * a)) - (f + x * a)) with ((k * (x2 - x1) - (x - x1)) * a) by ring. rewrite K. change (c_order CV) with order. ring.
  Qed.
  (** such a factor exists whenever the inputs differ *)
  Lemma L_C81_factor x1 x2 x : 0 <= x1 < 2 ^ 16 -> 0 <= x2 < 2 ^ 16 -> x1 <> x2 -> exists k, draw k /\ (order | k * (x2 - x1) - (x - x1)).
  Proof.
    intros X1 X2 NE. assert (N : mk (x2 - x1) <> f0 n).
    { rewrite mk_order_0. apply ndiv. split; [lia|]. apply Z.lt_trans with (2 ^ 16); [lia|vm_compute; reflexivity]. }
    exists (val n (fdiv n (mk (x - x1)) (mk (x2 - x1)))). split; [apply val_draw|]. apply mk_order_eq. rewrite <- mk_mul, mk_val. field. exact N.
  Qed.

  Lemma L_C81 S S1 C1 C2 d1 d2 a x1 x2 : aes_ready e iv -> server_ready live S a -> client_ready live C1 x1 -> client_ready live C2 x2 ->
    same_crs (dcrs (sdme (ots S))) (dcrs (rdme (otr C1))) -> same_crs (dcrs (sdme (ots S))) (dcrs (rdme (otr C2))) ->
    good_draws dbg live e iv (dcrs (rdme (otr C1))) (sdme (ots S)) (theta S) a x1 d1 ->
    good_draws dbg live e iv (dcrs (rdme (otr C2))) (sdme (ots S)) (theta S) a x2 d2 -> sd_prep d2 = sd_prep d1 ->
    x1 <= theta S -> x2 <= theta S -> result C1 = pt_inf CV -> result C2 = pt_inf CV ->
    prepareKeysAndInputs dbg live e iv S (sd_prep d1) = Ok S1 ->
    exists S2 C1' S3 C2', evaluate dbg live e iv S1 C1 d1 = Ok (S2, C1') /\ evaluate dbg live e iv S2 C2 d2 = Ok (S3, C2') /\
      forall x k, (order | k * (x2 - x1) - (x - x1)) ->
        gadd CV (den CV (result C1')) (gmul CV k (gadd CV (den CV (result C2')) (gneg CV (den CV (result C1'))))) =
        gadd CV (gmul CV (d_kopprf (sd_prep d1)) (ggen CV)) (gmul CV x (den CV (ga S))).
  Proof.
    intros A SR CR1 CR2 SC1 SC2 GD1 GD2 EP LE1 LE2 R1 R2 PR.
    assert (MZ : forall C, result C = pt_inf CV -> multiple (result C) 0) by (intros C ->; apply multiple_inf).
    destruct (prepare_ok dbg live e iv S (sd_prep d1) a A SR (gd_keys _ _ _ _ _ _ _ _ _ _ GD1)) as [S1' [E1 [B1 [T0 [T1 [_ RW]]]]]].
    rewrite PR in E1. apply Ok_inj in E1. subst S1'.
    assert (P1 : prepared live e iv S S1 (sd_prep d1) a) by (split; [exact B1|split; [exact T0|split; [exact T1|exact RW]]]).
    destruct (L_evaluate S S1 C1 d1 a x1 0 SR CR1 SC1 GD1 P1 (MZ _ R1)) as [S2 [C1' [E2 [P2 M1]]]].
    rewrite <- EP in P2.
    destruct (L_evaluate S S2 C2 d2 a x2 0 SR CR2 SC2 GD2 P2 (MZ _ R2)) as [S3 [C2' [E3 [_ M2]]]].
    exists S2, C1', S3, C2'. split; [exact E2|]. split; [exact E3|]. intros x k K.
    assert (M1' : multiple (result C1') (d_kopprf (sd_prep d1) + x1 * a)).
    { apply (mult_cong live _ _ _ M1). unfold outcome_log. destruct (Z.compare_spec x1 (theta S)); lia. }
    assert (M2' : multiple (result C2') (d_kopprf (sd_prep d1) + x2 * a)).
    { apply (mult_cong live _ _ _ M2). unfold outcome_log. rewrite EP. destruct (Z.compare_spec x2 (theta S)); lia. }
    destruct M1' as [_ ->], M2' as [_ ->]. pose proof (sr_ga _ _ _ SR) as [_ ->]. apply lin_eval. exact K.
  Qed.

  (** ** C82 *)
  Record apart (k : F) (C C' : client) : Prop := {
    ap_otr : otr C' = otr C; ap_cur : ccur C' = ccur C; ap_x : cx C' = cx C; ap_key : key C' = key C;
    ap_res : exists z, rf (result C) z /\ rf (result C') (fadd n z k) }.

  Lemma fin_rf P : finite live P -> exists z, rf P z /\ z <> f0 n.
  Proof.
    intros H. destruct (val_rf live P (or_intror H)) as [z K]. exists z. split; [exact K|]. apply (rf_pinf_false live CV good_CV _ _ K), H.
  Qed.
  Lemma rf_shift P Q z k : rf P z -> finite live Q -> den CV Q = gadd CV (den CV P) (gmul CV k (ggen CV)) -> rf Q (fadd n z (mk k)).
  Proof.
    intros K H E. destruct (fin_rf Q H) as [w [W _]]. apply (rf_cong live CV _ _ _ W).
    rewrite (rf_den live CV _ _ K), (rf_den live CV _ _ W) in E.
    change (EccProofs.gk CV (val n w) = gadd CV (EccProofs.gk CV (val n z)) (EccProofs.gk CV k)) in E. unfold gadd in E.
    rewrite (gk_add CV good_CV) in E. apply (gk_eq CV good_CV) in E. apply (mkn_eq CV good_CV) in E. rewrite mk_val, <- mk_add, mk_val in E. exact E.
  Qed.

  Lemma Dec_shift s k c c' : s <> f0 n -> shift_ctxt live k c c' ->
    exists P P' z, Dec dbg live (em s) c = Ok P /\ Dec dbg live (em s) c' = Ok P' /\ rf P z /\ rf P' (fadd n z (mk k)).
  Proof.
    intros N [E [U [W [W' S]]]]. destruct (fin_rf _ U) as [u [KU NU]]. destruct (fin_rf _ W) as [w [KW NW]]. destruct (fin_rf _ W') as [w' [KW' NW']].
    assert (NS : fmul n s u <> f0 n) by (intros Z0; apply fmul_0 in Z0; [tauto|exact Hn]).
    destruct (Dec_rf dbg live c u w s KU KW NS NW) as [P [EP KP]].
    pose proof (rf_shift _ _ _ k KW W' S) as KW2. pose proof (rf_fun live CV good_CV _ _ _ KW' KW2) as Q. rewrite Q in NW', KW'.
    rewrite <- E in KU. destruct (Dec_rf dbg live c' u _ s KU KW' NS NW') as [P' [EP' KP']].
    exists P, P', (fsub n w (fmul n s u)). split; [exact EP|]. split; [exact EP'|]. split; [exact KP|].
    apply (rf_cong live CV _ _ _ KP'). ring.
  Qed.

  Lemma vat_shift k l l' i c : Forall2 (shift_ctxt live k) l l' -> vat l i = Ok c -> exists c', vat l' i = Ok c' /\ shift_ctxt live k c c'.
  Proof.
    intros H. unfold vat. destruct (i <? 0); [discriminate|]. revert l l' H. induction (Z.to_nat i) as [|j IH]; intros l l' H E; destruct H as [|x y l l' H HL]; cbn [nth_error] in *; try discriminate.
    - apply Ok_inj in E. subst c. exists y. split; [reflexivity|exact H].
    - apply (IH _ _ HL E).
  Qed.

  Lemma end_shift C C' k0 k r c c' C1 s : apart k0 C C' -> rsk (otr C) = em s -> s <> f0 n -> oc c' = oc c -> Forall2 (shift_ctxt live k) (ocprf c) (ocprf c') ->
    runOTRound_end dbg live e iv C r c = Ok C1 ->
    exists C1', runOTRound_end dbg live e iv C' r c' = Ok C1' /\ apart (fadd n k0 (mk k)) C1 C1'.
  Proof.
    intros A SK N EO H E. destruct A as [A1 A2 A3 A4 [z [Kz Kz']]]. unfold runOTRound_end in *. rewrite A1, A4, EO.
    inv E. rewrite Q. cbn [bind]. inv E. inv E. apply Ok_inj in E. subst C1.
    unfold decryptMsg in *. inv Q0. unfold chosen in *. destruct (rbr (otr C)) as [b|]; [|discriminate Q2].
    destruct (vat_shift _ _ _ _ _ H Q2) as [ct [-> HS]]. cbn [bind]. rewrite SK in *.
    destruct (Dec_shift s k _ _ N HS) as [P [P' [w [D1 [D2 [KP KP']]]]]]. rewrite Q0 in D1. apply Ok_inj in D1. subst P. rewrite D2. cbn [bind].
    destruct (padd_rf dbg live CV good_CV _ _ _ _ Kz KP) as [R [ER KR]]. rewrite Q1 in ER. apply Ok_inj in ER. subst R.
    destruct (padd_rf dbg live CV good_CV _ _ _ _ Kz' KP') as [R' [ER' KR']]. rewrite ER'. cbn [bind].
    eexists. split; [reflexivity|]. constructor; cbn [otr ccur cx key result]; try assumption; try reflexivity.
    exists (fadd n z w). split; [exact KR|]. apply (rf_cong live CV _ _ _ KR'). ring.
  Qed.

  Lemma start_shift C C' k0 r q x C1 pk : apart k0 C C' -> dme_ok live (rdme (otr C)) -> cx C = Some x -> 1 <= r <= 16 ->
    runOTRound_start dbg live C r q = Ok (C1, pk) ->
    exists C1', runOTRound_start dbg live C' r q = Ok (C1', pk) /\ apart k0 C1 C1' /\ rsk (otr C1) = em (mk q) /\ rdme (otr C1) = rdme (otr C) /\ cx C1 = Some x.
  Proof.
    intros A OK X R E. destruct A as [A1 A2 A3 A4 A5]. rewrite (start_eq dbg live C x r q X R) in E.
    rewrite (start_eq dbg live C' x r q (eq_trans A3 X) R), A1, A2, A3, A4.
    destruct (ok_drf live _ OK) as [c [a0 [a1 [b0 [b1 K]]]]].
    destruct (KeyGen_rf dbg live _ c _ _ _ _ (round_bit x r) q K (round_bit_branch x r)) as [kp [EK [_ [_ SK]]]].
    rewrite EK in *. cbn [bind] in *. apply Ok_inj in E. injection E as <- <-. eexists. split; [reflexivity|].
    split; [constructor; cbn [otr ccur cx key result]; try reflexivity; exact A5|]. cbn [otr rsk rdme cx]. split; [exact SK|]. split; [reflexivity|exact X].
  Qed.

  Lemma replay_shift d x ks t t' : shift_rounds live ks t t' -> forall l, Forall (fun r => 1 <= r <= 16) l ->
    (forall r, 1 <= r <= 16 -> ~ (order | rd_key (sd_round d r))) ->
    forall C C' k0 C1, (length t <= length l)%nat -> apart k0 C C' -> dme_ok live (rdme (otr C)) -> cx C = Some x ->
    replay dbg live e iv C (map (fun r => (r, sd_round d r)) l) t = Ok C1 ->
    exists C1', replay dbg live e iv C' (map (fun r => (r, sd_round d r)) l) t' = Ok C1' /\ apart (fadd n k0 (mk (total ks))) C1 C1'.
  Proof.
    intros SH. induction SH as [|k ks m m' t t' HM SH IH]; intros l FL NK C C' k0 C1 LE A OK X E.
    - assert (E' : C1 = C) by (destruct l; cbn [map replay] in E; apply Ok_inj in E; congruence). subst C1.
      exists C'. split; [destruct l; reflexivity|]. destruct A as [A1 A2 A3 A4 [z [K1 K2]]]. constructor; try assumption.
      exists z. split; [exact K1|]. apply (rf_cong live CV _ _ _ K2). cbn [total fold_right]. change (mk 0) with (f0 n). ring.
    - destruct FL as [|r l R FL]; [cbn in LE; lia|]. cbn [map replay] in *. destruct m as [pk c], m' as [pk' c']. destruct HM as [EO HM]. cbn [snd] in *.
      inv E. destruct v as [Cs p0]. cbn [fst] in *. inv E.
      destruct (start_shift C C' k0 r _ x Cs p0 A OK X R Q) as [Cs' [ES [A' [SK [ED X']]]]]. rewrite ES. cbn [bind fst].
      pose proof (NK r R) as NR. rewrite <- mk_order_0 in NR.
      destruct (end_shift Cs Cs' k0 k r c c' v _ A' SK NR EO HM Q0) as [C2' [EE A2]]. rewrite EE. cbn [bind].
      pose proof (end_voice dbg live e iv _ _ _ _ Q0) as [V1 V2].
      destruct (IH l FL NK v C2' _ C1 ltac:(cbn in LE; lia) A2 ltac:(rewrite V1, ED; exact OK) ltac:(rewrite V2; exact X') E) as [C1' [ER A3]].
      exists C1'. split; [exact ER|]. destruct A3 as [B1 B2 B3 B4 [z [K1 K2]]]. constructor; try assumption. exists z. split; [exact K1|].
      apply (rf_cong live CV _ _ _ K2). cbn [total fold_right]. fold (total ks). rewrite <- mk_add. ring.
  Qed.

  Lemma encoded_valid T z P : setEncodedX dbg live CV T z = Ok P -> is_valid live P.
  Proof.
    unfold setEncodedX. destruct (pcur T) as [c|] eqn:EC; [|destruct (Z.odd z); discriminate].
    destruct (live c) eqn:L; [|unfold evaluateP, evaluatePneg, deref; rewrite L; destruct (Z.odd z); discriminate].
    destruct (L_C15 dbg live CV good_CV c (fe_new FIELD_p (Z.div2 z)) ltac:(apply canon_new; reflexivity) L) as [R [E1 H]].
    destruct H as [[_ [FR [_ [_ E2]]]]|[_ [-> E2]]]; destruct (Z.odd z); intros E.
    - change (evaluateP dbg live CV (Some c) (fe_new FIELD_p (Z.div2 z)) = Ok P) in E. rewrite E1 in E. apply Ok_inj in E. subst P. right. exact FR.
    - change (evaluatePneg dbg live CV (Some c) (fe_new FIELD_p (Z.div2 z)) = Ok P) in E. rewrite E2 in E. apply Ok_inj in E. subst P. right. apply (mirror_valid live CV good_CV), FR.
    - change (evaluateP dbg live CV (Some c) (fe_new FIELD_p (Z.div2 z)) = Ok P) in E. rewrite E1 in E. apply Ok_inj in E. subst P. left. reflexivity.
    - change (evaluatePneg dbg live CV (Some c) (fe_new FIELD_p (Z.div2 z)) = Ok P) in E. rewrite E2 in E. apply Ok_inj in E. subst P. left. reflexivity.
  Qed.

  Lemma unmask_shift C C' k0 ms q C1 : apart k0 C C' -> unmaskResult dbg live e iv C ms q = Ok C1 ->
    exists C1', unmaskResult dbg live e iv C' ms q = Ok C1' /\ apart k0 C1 C1'.
  Proof.
    intros A E. destruct A as [A1 A2 A3 A4 [z [K K']]]. unfold unmaskResult in *. rewrite A4. inv E. rewrite Q. cbn [bind].
    destruct v as [m|]; [|destruct dbg; discriminate E]. inv E. rewrite A2, Q0. cbn [bind]. inv E. rewrite Q1. cbn [bind]. inv E. apply Ok_inj in E. subst C1.
    destruct (val_rf live _ (encoded_valid _ _ _ Q1)) as [w W].
    destruct (padd_rf dbg live CV good_CV _ _ _ _ K W) as [R [ER KR]]. rewrite Q2 in ER. apply Ok_inj in ER. subst R.
    destruct (padd_rf dbg live CV good_CV _ _ _ _ K' W) as [R' [ER' KR']]. rewrite ER'. cbn [bind].
    eexists. split; [reflexivity|]. constructor; cbn [otr ccur cx key result]; try assumption; try reflexivity.
    exists (fadd n z w). split; [exact KR|]. apply (rf_cong live CV _ _ _ KR'). ring.
  Qed.

  Lemma L_C82 C x d ks t t' C1 : dme_ok live (rdme (otr C)) -> cx C = Some x -> is_valid live (result C) ->
    (forall r, 1 <= r <= 16 -> ~ (order | rd_key (sd_round d r))) -> (length (tr_rounds t) <= 16)%nat ->
    shift_rounds live ks (tr_rounds t) (tr_rounds t') -> tr_masks t' = tr_masks t -> offline dbg live e iv C d t = Ok C1 ->
    exists C1', offline dbg live e iv C d t' = Ok C1' /\ key C1' = key C1 /\ is_valid live (result C1') /\
      den CV (result C1') = gadd CV (den CV (result C1)) (gmul CV (total ks) (ggen CV)).
  Proof.
    intros OK X V NK LE SH EM E. destruct (val_rf live _ V) as [z K].
    assert (A : apart (f0 n) C C).
    { constructor; try reflexivity. exists z. split; [exact K|]. apply (rf_cong live CV _ _ _ K). ring. }
    unfold offline, schedule in *. inv E.
    destruct (replay_shift d x ks _ _ SH rounds rounds_range NK C C (f0 n) v LE A OK X Q) as [C' [ER A']]. rewrite ER. cbn [bind]. rewrite EM.
    destruct (unmask_shift _ _ _ _ _ _ A' E) as [C1' [EU A2]]. exists C1'. split; [exact EU|]. destruct A2 as [_ _ _ AK [w [W W']]].
    split; [exact AK|]. split; [exact (rf_val live _ _ W')|].
    rewrite (rf_den live CV _ _ W), (rf_den live CV _ _ W').
    change (EccProofs.gk CV (val n (fadd n w (fadd n (f0 n) (mk (total ks))))) = gadd CV (EccProofs.gk CV (val n w)) (EccProofs.gk CV (total ks))).
    unfold gadd. rewrite (gk_add CV good_CV). apply (gk_eq CV good_CV), (mkn_eq CV good_CV). rewrite mk_val, <- mk_add, mk_val. ring.
  Qed.
End Opprf6.
