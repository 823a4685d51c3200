(** Any history of calls on one server: what it can answer, and what asking twice gives away. *)
From Coq Require Import ZArith Znumtheory Bool List Lia.
From Verif Require Import Outcome FieldModel ZpField SpecField FieldProofs ECGroup ECOrder CurveParams CurveFacts EccModel EccProofs SpecEcc EccThms Emb RF.
From Verif Require Import DmeModel SpecDme DmeProofs DmeProofs2 OtModel SpecOt OtProofs OtProofs2 CrcModel SpecCrc CrcProofs CrcProofs2 AesModel SpecAes AesProofs.
From Verif Require Import OpprfModel SpecOpprf SpecOpprf6 OpprfProofs OpprfProofs2 OpprfProofs3 OpprfProofs13.
Import ListNotations.
Open Scope Z_scope.

Section Hist.
  Variables (dbg : bool) (live : Z -> bool) (e : env) (iv : list Z).
  Ltac inv H := let a := fresh "v" in let E := fresh "Q" in apply bind_Ok in H; destruct H as [a [E H]].
  Notation prepare := (prepareKeysAndInputs dbg live e iv).
  Notation history := (history dbg live e iv).
  Notation happens := (happens dbg live e iv).
  Notation n := (fieldn CV).
  Notation em := (em n).
  Notation mk := (mk n).
  Notation multiple := (multiple live).
  Let Hn : prime n := prime_n CV good_CV.

  (** ** Masks *)
  Lemma visible_finite P k : multiple P k -> visible e k -> finite_valid live CV P.
  Proof.
    intros [[V|V] D] H; [|exact V]. exfalso. unfold visible in H. rewrite <- D, V in H. exact H.
  Qed.
  Lemma visible_code P k : multiple P k -> visible e k -> exists m, getEncodedX dbg live CV P = Ok m /\ 0 < m < 2 ^ 264 /\ nbytes m + 4 <= room e (nbytes m).
  Proof.
    intros M H. pose proof (visible_finite P k M H) as F. destruct (L_C16_total dbg live CV good_CV P F) as [m [E R]]. exists m. split; [exact E|].
    assert (B : 2 * c_prime CV < 2 ^ 264) by reflexivity.
    destruct M as [_ D]. destruct F as [I [[_ CX] [_ _]]]. unfold visible in H. rewrite <- D in H. unfold den in H. rewrite I in H.
    unfold getEncodedX in E. inv E. apply Ok_inj in E.
    assert (VX : val (c_prime CV) (ZpField.mk (c_prime CV) (fval (px P))) = fval (px P)) by (apply Z.mod_small, CX).
    cbv zeta in H. rewrite VX in H. destruct H as [NZ H]. split; [split; [|lia]|apply H]; destruct (fe_eq (py v) (py P)); lia.
  Qed.
  Lemma enc_code k m : aes_ready e iv -> 2 ^ 120 <= k -> 0 < m < 2 ^ 264 /\ nbytes m + 4 <= room e (nbytes m) -> exists c, encryptCRC e iv k m = Ok c.
  Proof.
    intros A K [M R].
    assert (N : 0 < nbytes m <= 33).
    { unfold nbytes. rewrite (proj2 (Z.eqb_neq m 0)), Z.abs_eq by lia. pose proof (Z.log2_nonneg m).
      assert (L : Z.log2 m < 264) by (apply Z.log2_lt_pow2; lia).
      pose proof (Z.div_pos (Z.log2 m) 8 ltac:(lia) ltac:(lia)). pose proof (Z.div_lt_upper_bound (Z.log2 m) 8 33 ltac:(lia) ltac:(lia)). lia. }
    apply (enc_ok e iv k m A K); [lia|lia|]. exact R.
  Qed.

  Definition keys_ok (p : prep_draws) : Prop := forall s j, (j < 16)%nat -> 2 ^ 120 <= level_key p s j < 2 ^ 128.
  Lemma keys_keep p d : keys_ok p -> keys_ok (keep_keys p d).
  Proof. intros K s j J. specialize (K s j J). destruct s; exact K. Qed.

  (** the mask and its code *)
  Lemma mask_point S0 S p : based live S0 S p -> exists M,
    (forall A (k : point -> res A), (do ok0 <- vat (ok S) 0; do oks <- mapM (fun j => vat (ok S) (Z.of_nat j)) (seq 1 (MSG_BITS - 1));
       do sum <- foldM (fe_add_eq dbg) oks ok0; do n <- fe_neg FIELD_n sum; do t <- pmul dbg live CV (sr S) n;
       do mask <- padd dbg live CV (kopprf S) t; k mask) = k M) /\ multiple M (mask_of_prep p).
  Proof.
    intros B.
    destruct (pmul_m dbg live _ _ (- sum_to (d_ok p) 16) (ba_r _ _ _ _ B)) as [T [ET MT]].
    destruct (padd_m dbg live _ _ _ _ (ba_kopprf _ _ _ _ B) MT) as [M [EM MM]]. exists M. split.
    - intros A k. rewrite (ba_ok _ _ _ _ B).
      change 0 with (Z.of_nat 0). rewrite vat_map' by lia. change (Z.of_nat 0) with 0. cbn [bind].
      rewrite (mapM_In _ (fun j => em (mk (d_ok p j)))).
      2: { intros j I. apply in_seq in I. apply (vat_map' (fun j => em (mk (d_ok p j)))). unfold MSG_BITS in I. lia. }
      cbn [bind]. rewrite sum_ok. cbn [bind]. rewrite sum_16. rewrite (em_neg n Hn). cbn [bind]. rewrite mk_opp. rewrite ET. cbn [bind]. rewrite EM. reflexivity.
    - apply (mult_cong live _ _ _ MM). unfold mask_of_prep. generalize (sum_to (d_ok p) 16). intros w. ring.
  Qed.

  Lemma masks_total S0 S p a d u v : server_ready live S0 a -> aes_ready e iv -> based live S0 S p -> keys_ok p ->
    visible e (mask_of_prep p) -> visible e d -> exists ms, sendEncryptedMasks dbg live e iv S d u v = Ok ms.
  Proof.
    intros SR A B K VM VD. destruct (mask_point S0 S p B) as [M [EM MM]]. pose proof (sr_ots _ _ _ SR) as [[c [Ec L]] _].
    assert (CU : scur S = Some c) by (rewrite (ba_cur _ _ _ _ B), (sr_cur _ _ _ SR); exact Ec).
    destruct (visible_code M _ MM VM) as [m [CM RG]]. destruct (randP_m dbg live c d L) as [R [ER MR]].
    destruct (visible_code R _ MR VD) as [m2 [CM2 RG2]].
    destruct (enc_code (d_lt p 0%nat) m A) as [c0 E0]; [apply (K Lt 0%nat); lia|exact RG|].
    destruct (enc_code (d_eq p 0%nat) m A) as [c1 E1]; [apply (K Eq 0%nat); lia|exact RG|].
    destruct (enc_code (d_gt p 0%nat) m2 A) as [c2 E2]; [apply (K Gt 0%nat); lia|exact RG2|].
    unfold sendEncryptedMasks. rewrite EM. rewrite CU, (ba_lt _ _ _ _ B), (ba_eq _ _ _ _ B), (ba_gt _ _ _ _ B).
    change 0 with (Z.of_nat 0). rewrite !vat_map' by lia. cbn [bind]. rewrite CM. cbn [bind]. rewrite E0. cbn [bind]. rewrite E1. cbn [bind].
    rewrite ER. cbn [bind]. rewrite CM2. cbn [bind]. rewrite E2. cbn [bind]. eexists. reflexivity.
  Qed.

  (** ** Calls that can be answered *)
  Definition tops (S : server) : Prop := is_valid live (lprf (Sl0 S)) /\ is_valid live (lprf (Sl1 S)).
  Definition safe (S0 S : server) (st : option prep_draws) : Prop :=
    tracked dbg live e iv S0 S st /\ tops S /\ (forall p, st = Some p -> keys_ok p).

  Lemma prepared_tops a S0 S p : prepared live e iv S0 S p a -> tops S.
  Proof. intros [_ [[_ T0] [[_ T1] _]]]. split; [exact (multiple_valid live _ _ T0)|exact (multiple_valid live _ _ T1)]. Qed.
  Lemma tops_like S T : like S T -> tops T -> tops S.
  Proof. intros L. apply like_fields in L. destruct L as [_ [_ [_ [_ [_ [_ [_ [_ [_ [_ [E1 [E2 _]]]]]]]]]]]]. unfold tops. rewrite E1, E2. tauto. Qed.

  Lemma rows_valid_tracked S0 S st a : fresh_server S0 -> server_ready live S0 a -> aes_ready e iv -> safe S0 S st -> rows_valid live S.
  Proof.
    intros F SR A [TR [[V0 V1] K]]. split; [exact V0|]. split; [exact V1|].
    destruct st as [p|]; cbn [tracked] in TR.
    - destruct TR as [T [E L]]. destruct (prepare_ok dbg live e iv S0 p a A SR (K p eq_refl)) as [T' [E' [B [_ [_ [[L0 L1] RW]]]]]].
      rewrite E in E'. apply Ok_inj in E'. subst T'. apply prepare_keys in E. destruct E as [_ [_ [_ [_ [_ [_ [N0 N1]]]]]]].
      apply like_fields in L. destruct L as [_ [_ [_ [_ [_ [_ [_ [_ [_ [_ [_ [_ [E1 E2]]]]]]]]]]]]]. rewrite E1, E2.
      destruct F as [_ [_ [_ [_ [F5 F6]]]]].
      split; apply Forall_forall; intros r I; apply In_nth_error in I; destruct I as [i I].
      + destruct i as [|i]; [rewrite N0, F5 in I; cbn in I; injection I as <-; left; reflexivity|].
        assert (J : (i < 15)%nat) by (assert (nth_error (Si0 T) (Datatypes.S i) <> None) as X by (rewrite I; discriminate); apply nth_error_Some in X; lia).
        destruct (RW i J) as [r0 [r1 [Q0 [Q1 [[_ M0] [_ M1]]]]]]. rewrite I in Q0. injection Q0 as <-. exact (multiple_valid live _ _ M0).
      + destruct i as [|i]; [rewrite N1, F6 in I; cbn in I; injection I as <-; left; reflexivity|].
        assert (J : (i < 15)%nat) by (assert (nth_error (Si1 T) (Datatypes.S i) <> None) as X by (rewrite I; discriminate); apply nth_error_Some in X; lia).
        destruct (RW i J) as [r0 [r1 [Q0 [Q1 [[_ M0] [_ M1]]]]]]. rewrite I in Q1. injection Q1 as <-. exact (multiple_valid live _ _ M1).
    - apply like0_fields in TR. destruct TR as [_ [_ [_ [_ [_ [_ [_ [_ [E1 E2]]]]]]]]]. destruct F as [_ [_ [_ [_ [F5 F6]]]]].
      rewrite E1, E2, F5, F6. split; apply Forall_forall; intros r I; apply repeat_spec in I; subst r; left; reflexivity.
  Qed.

  Lemma happens_safe S0 S C st v a : fresh_server S0 -> server_ready live S0 a -> aes_ready e iv ->
    safe S0 S st -> proper e live st v -> exists S' C', happens (S, C) v = Ok (S', C') /\ safe S0 S' (effect st v).
  Proof.
    intros F SR A SF PR. pose proof SF as [TR [TO K]]. pose proof (tracked_config _ _ _ _ _ _ _ TR) as CF. unfold config in CF.
    assert (CF0 : sdme (ots S) = sdme (ots S0)) by congruence. assert (CF1 : scur S = scur S0) by congruence. clear CF.
    assert (OK : dme_ok live (sdme (ots S))) by (rewrite CF0; apply (sr_ots _ _ _ SR)).
    assert (X : exists S' C', happens (S, C) v = Ok (S', C') /\ tops S' /\ (forall p, effect st v = Some p -> keys_ok p)).
    { destruct v; cbn [SpecOpprf.happens effect proper] in *.
      - set (p := match st with None => d | Some p => keep_keys p d end).
        assert (KP : keys_ok p).
        { subst p. destruct st as [p|]; [apply keys_keep, K; reflexivity|]. exact (PR eq_refl). }
        destruct (prepare_ok dbg live e iv S0 p a A SR KP) as [T [E [B [T0 [T1 [_ RW]]]]]].
        pose proof (prepare_tracked dbg live e iv S0 S st d F TR) as AL. fold p in AL. rewrite E in AL.
        destruct (prepare S d) as [S'|f] eqn:ES; cbn [alike] in AL; [|destruct AL].
        exists S', C. cbn [bind]. split; [reflexivity|]. split.
        + apply (tops_like _ _ AL). split; [exact (multiple_valid live _ _ (proj2 T0))|exact (multiple_valid live _ _ (proj2 T1))].
        + intros p' E'. injection E' as <-. exact KP.
      - destruct PR as [R PK]. destruct (tracked_lengths _ _ _ _ _ _ _ F TR) as [L0 L1].
        destruct (L_C54_server_in dbg live S round pk qa qb qc qp u v L0 L1 OK PK (rows_valid_tracked S0 S st a F SR A SF) R) as [r E].
        rewrite E. cbn [bind]. exists (fst r), C. split; [reflexivity|]. split; [|exact K].
        apply runOTRound_keeps in E. apply (tops_like _ _ E TO).
      - destruct PR as [p [-> [VM VD]]]. destruct TR as [T [E L]].
        destruct (prepare_ok dbg live e iv S0 p a A SR (K p eq_refl)) as [T' [E' [B _]]]. rewrite E in E'. apply Ok_inj in E'. subst T'.
        rewrite (masks_like dbg live e iv S T d u v L). destruct (masks_total S0 T p a d u v SR A B (K p eq_refl) VM VD) as [ms EM].
        rewrite EM. cbn [bind]. exists S, C. split; [reflexivity|]. split; assumption.
      - pose proof (sr_ots _ _ _ SR) as [[c [Ec L]] _]. unfold server_clean. rewrite CF1, (sr_cur _ _ _ SR), Ec.
        destruct (randP_m dbg live c d L) as [g [Eg _]]. rewrite Eg. cbn [bind]. do 2 eexists. split; [reflexivity|]. split; [exact TO|discriminate].
      - do 2 eexists. split; [reflexivity|]. split; assumption.
      - destruct PR.
      - destruct PR.
      - destruct PR.
      - do 2 eexists. split; [reflexivity|]. split; assumption. }
    destruct X as [S' [C' [E [T' K']]]]. exists S', C'. split; [exact E|]. split; [|split; assumption].
    apply (happens_tracked dbg live e iv S0 S C st v S' C' F TR E).
  Qed.

  Lemma history_safe S0 a l : fresh_server S0 -> server_ready live S0 a -> aes_ready e iv ->
    forall S C st, safe S0 S st -> proper_history e live st l -> exists S' C', history l (S, C) = Ok (S', C') /\ safe S0 S' (fold_left effect l st).
  Proof.
    intros F SR A. unfold SpecOpprf.history. induction l as [|v l IH]; intros S C st SF PR; cbn [foldM fold_left proper_history] in *.
    - exists S, C. split; [reflexivity|exact SF].
    - destruct PR as [P1 P2]. destruct (happens_safe S0 S C st v a F SR A SF P1) as [S1 [C1 [E1 SF1]]]. rewrite E1. cbn [bind].
      apply (IH S1 C1 _ SF1 P2).
  Qed.

  Lemma L_C101_safe S0 C0 a l : fresh_server S0 -> server_ready live S0 a -> aes_ready e iv ->
    is_valid live (lprf (Sl0 S0)) -> is_valid live (lprf (Sl1 S0)) ->
    proper_history e live None l -> exists S C, history l (S0, C0) = Ok (S, C).
  Proof.
    intros F SR A V0 V1 PR. destruct (history_safe S0 a l F SR A S0 C0 None) as [S [C [E _]]].
    - split; [apply tracked_start|]. split; [split; assumption|discriminate].
    - exact PR.
    - exists S, C. exact E.
  Qed.

  (** an infinite mask *)
  Lemma L_C101_mask_infinite S0 C0 a l S C p d u v : fresh_server S0 -> server_ready live S0 a ->
    history l (S0, C0) = Ok (S, C) -> effective l = Some p -> aes_ready e iv -> keys_ok p ->
    (order | mask_of_prep p) -> sendEncryptedMasks dbg live e iv S d u v = Err NullDeref.
  Proof.
    intros F SR H EF A K DV. destruct (L_C101_answers dbg live e iv S0 C0 l S C p F H EF) as [T [ET [_ EM]]]. rewrite EM.
    destruct (prepare_ok dbg live e iv S0 p a A SR K) as [T' [E' [B _]]]. rewrite ET in E'. apply Ok_inj in E'. subst T'.
    destruct (mask_point S0 T p B) as [M [EM' MM]]. unfold sendEncryptedMasks. rewrite EM'. rewrite (ba_lt _ _ _ _ B).
    change 0 with (Z.of_nat 0). rewrite !vat_map' by lia. cbn [bind].
    assert (MI : M = pt_inf CV).
    { apply (multiple_rf live) in MM. rewrite (proj2 (mk_order_0 _) DV) in MM. exact (rf_zero live CV good_CV M MM). }
    rewrite MI. reflexivity.
  Qed.

  (** ** What the two branches of a round differ by *)
  Definition gap (P0 P1 : point) (k : Z) : Prop := exists w, multiple P0 w /\ multiple P1 (k + w).
  Definition gap_at (S : server) (a : Z) (j : nat) : Prop :=
    exists r0 r1, nth_error (Si0 S) (Datatypes.S j) = Some r0 /\ nth_error (Si1 S) (Datatypes.S j) = Some r1 /\
      gap (iprf r0) (iprf r1) (2 ^ Z.of_nat j * a).

  Lemma shares_gap g r s k kr d p0 g' q p1 : multiple g k -> multiple r kr -> s = em (mk d) ->
    pmul dbg live CV r s = Ok p0 -> pmulz dbg live CV g g' = Ok q -> padd dbg live CV q p0 = Ok p1 -> gap p0 p1 (g' * k).
  Proof.
    intros G R -> E1 E2 E3. destruct (pmul_m dbg live r kr d R) as [x [F1 M1]]. rewrite E1 in F1. apply Ok_inj in F1. subst x.
    destruct (pmulz_m dbg live g k g' G) as [y [F2 M2]]. rewrite E2 in F2. apply Ok_inj in F2. subst y.
    destruct (padd_m dbg live q p0 _ _ M2 M1) as [z [F3 M3]]. rewrite E3 in F3. apply Ok_inj in F3. subst z.
    exists (d * kr). split; assumption.
  Qed.
  Lemma prep_row_gap S j r a kr (f : nat -> Z) : multiple (ga S) a -> multiple (sr S) kr ->
    ok S = map (fun i => em (mk (f i))) (seq 0 MSG_BITS) -> (j < 16)%nat ->
    prep_row dbg live e iv S j = Ok r -> gap (iprf (fst r)) (iprf (snd r)) (2 ^ Z.of_nat j * a).
  Proof.
    intros G R OKS J H. unfold prep_row in H. do 7 inv H.
    replace (Z.of_nat (Datatypes.S j) - 1) with (Z.of_nat j) in * by lia.
    rewrite OKS, vat_map' in Q5 by exact J. apply Ok_inj in Q5.
    destruct (negb (tbit S j)); do 10 inv H; apply Ok_inj in H; subst r; cbn [fst snd iprf].
    - rewrite Q9 in Q14. apply Ok_inj in Q14. subst v14. apply (shares_gap (ga S) (sr S) v5 a kr (f j) v9 _ v13 v15 G R); congruence.
    - rewrite Q9 in Q14. apply Ok_inj in Q14. subst v14. apply (shares_gap (ga S) (sr S) v5 a kr (f j) v9 _ v13 v15 G R); congruence.
  Qed.
  Lemma prep_steps_gap a kr (f : nat -> Z) l : Forall (fun j => (j < 15)%nat) l -> forall S S', multiple (ga S) a -> multiple (sr S) kr ->
    ok S = map (fun i => em (mk (f i))) (seq 0 MSG_BITS) -> foldM (prep_step dbg live e iv) l S = Ok S' ->
    (Sl0 S' = Sl0 S /\ Sl1 S' = Sl1 S) /\ forall j, In j l \/ gap_at S a j -> gap_at S' a j.
  Proof.
    intros FA. induction FA as [|j l J FA IH]; intros S S' G R OKS H; cbn [foldM] in H.
    - apply Ok_inj in H. subst S'. split; [split; reflexivity|]. intros j [[]|X]. exact X.
    - inv H. unfold prep_step in Q. do 3 inv Q. apply Ok_inj in Q. subst v.
      apply (prep_row_gap S j _ a kr f G R OKS) in Q0; [|lia].
      apply (IH (set_rows S v1 v2) S' G R OKS) in H. destruct H as [TP H]. split; [exact TP|]. intros j' X. apply H.
      destruct (vset_ok (Si0 S) (Datatypes.S j) (fst v0)) as [s0 [E0 [M0 [N0 P0]]]].
      { unfold vset in Q1. destruct (Nat.ltb_spec (Datatypes.S j) (length (Si0 S))); [assumption|discriminate Q1]. }
      destruct (vset_ok (Si1 S) (Datatypes.S j) (snd v0)) as [s1 [E1 [M1 [N1 P1]]]].
      { unfold vset in Q2. destruct (Nat.ltb_spec (Datatypes.S j) (length (Si1 S))); [assumption|discriminate Q2]. }
      rewrite E0 in Q1. apply Ok_inj in Q1. subst s0. rewrite E1 in Q2. apply Ok_inj in Q2. subst s1.
      destruct (Nat.eq_dec j' j) as [->|NE].
      + right. exists (fst v0), (snd v0). cbn [set_rows Si0 Si1]. split; [exact N0|]. split; [exact N1|exact Q0].
      + destruct X as [[->|X]|[r0 [r1 [X0 [X1 X2]]]]]; [congruence|left; exact X|right].
        exists r0, r1. cbn [set_rows Si0 Si1]. rewrite P0, P1 by congruence. split; [exact X0|]. split; [exact X1|exact X2].
  Qed.
  Lemma prepare_gap S0 d T a c : scur S0 = Some c -> live c = true -> multiple (ga S0) a -> ok S0 = [] ->
    prepare S0 d = Ok T -> gap (lprf (Sl0 T)) (lprf (Sl1 T)) (2 ^ 15 * a) /\ forall j, (j < 15)%nat -> gap_at T a j.
  Proof.
    intros CU L G OK0 H. unfold prepareKeysAndInputs in H. rewrite CU in H. do 3 inv H.
    destruct (randP_m dbg live c (d_r d) L) as [r [Er Mr]]. rewrite Q0 in Er. apply Ok_inj in Er. subst r.
    rewrite (mapM_map _ (fun j => em (mk (d_ok d j)))) in Q1 by (intros; apply randS_m, L). apply Ok_inj in Q1.
    inv H. rewrite OK0 in Q2. cbn [app] in Q2. unfold prep_top in Q2. cbn [ok sr ga k_lt k_eq k_gt ots scur theta kopprf gk Sl0 Sl1 Si0 Si1] in Q2.
    rewrite <- Q1 in Q2. change (BITS - 1) with (Z.of_nat 15) in Q2. inv Q2. rewrite (vat_map' (fun j => em (mk (d_ok d j)))) in Q3 by lia. apply Ok_inj in Q3.
    do 5 inv Q2. apply Ok_inj in Q2. subst v2.
    assert (FA : Forall (fun j => (j < 15)%nat) (rev (seq 0 (MSG_BITS - 1)))).
    { apply Forall_forall. intros j I. apply in_rev in I. apply in_seq in I. unfold MSG_BITS in I. lia. }
    match type of H with foldM _ _ ?X = _ => assert (G' : multiple (ga X) a) by exact G; assert (Mr' : multiple (sr X) (d_r d)) by exact Mr;
      assert (OX : ok X = map (fun j => em (mk (d_ok d j))) (seq 0 MSG_BITS)) by (cbn [ok]; rewrite Q1; reflexivity) end.
    pose proof (prep_steps_gap a (d_r d) (d_ok d) _ FA _ T G' Mr' OX H) as [[T0 T1] RW].
    cbn [Sl0 Sl1] in T0, T1. rewrite T0, T1. cbn [lprf]. split.
    - change (2 ^ Z.of_nat (MSG_BITS - 1)) with (2 ^ 15) in Q5.
      apply (shares_gap (ga S0) v0 v3 a (d_r d) (d_ok d 15%nat) v4 _ v5 v6 G Mr); congruence.
    - intros j J. apply RW. left. apply -> in_rev. apply in_seq. unfold MSG_BITS. lia.
  Qed.

  Definition top_gap (S : server) (a : Z) : Prop := gap (lprf (Sl0 S)) (lprf (Sl1 S)) (2 ^ 15 * a).
  Lemma gap_at_like S T a j : like S T -> gap_at T a j -> gap_at S a j.
  Proof. intros L. apply like_fields in L. destruct L as [_ [_ [_ [_ [_ [_ [_ [_ [_ [_ [_ [_ [E1 E2]]]]]]]]]]]]]. unfold gap_at. rewrite E1, E2. tauto. Qed.
  Lemma top_gap_like S T a : like S T -> top_gap T a -> top_gap S a.
  Proof. intros L. apply like_fields in L. destruct L as [_ [_ [_ [_ [_ [_ [_ [_ [_ [_ [E1 [E2 _]]]]]]]]]]]]. unfold top_gap. rewrite E1, E2. tauto. Qed.

  Lemma tracked_rows S0 S p a j : fresh_server S0 -> server_ready live S0 a -> tracked dbg live e iv S0 S (Some p) -> (j < 15)%nat -> gap_at S a j.
  Proof.
    intros F SR [T [E L]] J. pose proof (sr_ots _ _ _ SR) as [[c [Ec LV]] _].
    destruct (prepare_gap S0 p T a c) as [_ H]; [rewrite (sr_cur _ _ _ SR); exact Ec|exact LV|apply (sr_ga _ _ _ SR)|apply (sr_keys _ _ _ SR)|exact E|].
    apply (gap_at_like S T a j L), H, J.
  Qed.
  Lemma happens_top S0 S C st v S' C' a : fresh_server S0 -> server_ready live S0 a -> tracked dbg live e iv S0 S st ->
    happens (S, C) v = Ok (S', C') -> is_prepare v \/ top_gap S a -> top_gap S' a.
  Proof.
    intros F SR TR H X. pose proof (happens_tracked dbg live e iv S0 S C st v S' C' F TR H) as TR'.
    destruct v; cbn [SpecOpprf.happens effect is_prepare] in *; [clear X|destruct X as [[]|X]..].
    - destruct TR' as [T [E L]]. pose proof (sr_ots _ _ _ SR) as [[c [Ec LV]] _]. apply (top_gap_like S' T a L).
      refine (proj1 (prepare_gap S0 _ T a c _ LV (sr_ga _ _ _ SR) _ E)); [rewrite (sr_cur _ _ _ SR); exact Ec|apply (sr_keys _ _ _ SR)].
    - inv H. apply Ok_inj in H. assert (fst v0 = S') as <- by congruence. apply runOTRound_keeps in Q. apply (top_gap_like _ _ a Q X).
    - inv H. apply Ok_inj in H. assert (S = S') as <- by congruence. exact X.
    - inv H. apply Ok_inj in H. assert (v = S') as -> by congruence. unfold server_clean in Q. inv Q. apply Ok_inj in Q. subst S'. exact X.
    - apply Ok_inj in H. assert (S = S') as <- by congruence. exact X.
    - inv H. apply Ok_inj in H. assert (S = S') as <- by congruence. exact X.
    - inv H. apply Ok_inj in H. assert (S = S') as <- by congruence. exact X.
    - inv H. apply Ok_inj in H. assert (S = S') as <- by congruence. exact X.
    - apply Ok_inj in H. assert (S = S') as <- by congruence. exact X.
  Qed.
  Lemma history_top S0 a l : fresh_server S0 -> server_ready live S0 a -> forall S C st S' C', tracked dbg live e iv S0 S st ->
    history l (S, C) = Ok (S', C') -> (exists v, In v l /\ is_prepare v) \/ top_gap S a -> top_gap S' a.
  Proof.
    intros F SR. unfold SpecOpprf.history. induction l as [|v l IH]; intros S C st S' C' TR H X; cbn [foldM] in *.
    - apply Ok_inj in H. assert (S = S') as <- by congruence. destruct X as [[v [[] _]]|X]. exact X.
    - inv H. destruct v0 as [S1 C1]. apply (IH S1 C1 (effect st v) S' C'); [apply (happens_tracked dbg live e iv S0 S C st v S1 C1 F TR Q)|exact H|].
      destruct X as [[w [[->|I] P]]|X].
      + right. apply (happens_top S0 S C st w S1 C1 a F SR TR Q). left. exact P.
      + left. exists w. split; assumption.
      + right. apply (happens_top S0 S C st v S1 C1 a F SR TR Q). right. exact X.
  Qed.

  Lemma history_share S0 C0 a l S C r : fresh_server S0 -> server_ready live S0 a -> history l (S0, C0) = Ok (S, C) -> 1 <= r <= 16 -> loaded l r ->
    gap (share S r 0) (share S r 1) (2 ^ (r - 1) * a).
  Proof.
    intros F SR H R LD. pose proof (history_tracked dbg live e iv S0 l F S0 C0 None S C (tracked_start dbg live e iv S0) H) as TR. fold (effective l) in TR.
    unfold loaded in LD. unfold share. destruct (Z.eqb_spec r 16) as [->|NE].
    - cbn [Z.eqb]. change (16 - 1) with 15. apply (history_top S0 a l F SR S0 C0 None S C (tracked_start dbg live e iv S0) H). left. exact LD.
    - destruct (effective l) as [p|]; [|congruence]. cbn [Z.eqb].
      destruct (tracked_rows S0 S p a (Z.to_nat (r - 1)) F SR TR ltac:(lia)) as [r0 [r1 [N0 [N1 G]]]].
      replace (Datatypes.S (Z.to_nat (r - 1))) with (Z.to_nat r) in * by lia. rewrite N0, N1.
      rewrite Z2Nat.id in G by lia. exact G.
  Qed.
  Lemma L_C102_gap S0 C0 a l S C r : fresh_server S0 -> server_ready live S0 a -> history l (S0, C0) = Ok (S, C) -> 1 <= r <= 16 -> loaded l r ->
    exists w, multiple (share S r 0) w /\ multiple (share S r 1) (2 ^ (r - 1) * a + w).
  Proof. exact (history_share S0 C0 a l S C r). Qed.
End Hist.
