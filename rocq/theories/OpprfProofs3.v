(** The statements about the oblivious programmable PRF. *)
From Coq Require Import ZArith Znumtheory Bool List Lia Permutation.
From Verif Require Import Outcome FieldModel SpecField ZpField CurveParams EccModel SpecEcc EccProofs RF Emb EccThms DmeModel SpecDme DmeProofs
  OtModel SpecOt OtProofs CrcModel SpecCrc CrcProofs3 AesModel SpecAes AesProofs OpprfModel SpecOpprf OpprfProofs OpprfProofs2.
Import ListNotations.
Open Scope Z_scope.

Section Opprf3.
  Variables (dbg : bool) (live : Z -> bool) (e : env) (iv : list Z).
  Local Notation multiple := (multiple live).
  Local Notation encryptCRC := (encryptCRC e iv).
  Local Notation decryptCRC := (decryptCRC e iv).

  Lemma den_add R P Q k x a : multiple R (k + x * a) -> multiple P k -> multiple Q a ->
    den CV R = gadd CV (den CV P) (gmul CV x (den CV Q)).
  Proof.
    intros [_ E1] [_ E2] [_ E3]. rewrite E1, E2, E3. change (gmul CV a (ggen CV)) with (EccProofs.gk CV a).
    change (EccProofs.gk CV (k + x * a) = gadd CV (EccProofs.gk CV k) (gmul CV x (EccProofs.gk CV a))). unfold gadd, gmul.
    rewrite (gk_mul CV good_CV x a), (gk_add CV good_CV). reflexivity.
  Qed.
  Lemma den_sum R P Q i j : multiple R (i + j) -> multiple P i -> multiple Q j -> den CV R = gadd CV (den CV P) (den CV Q).
  Proof.
    intros [_ E1] [_ E2] [_ E3]. rewrite E1, E2, E3.
    change (EccProofs.gk CV (i + j) = gadd CV (EccProofs.gk CV i) (EccProofs.gk CV j)). unfold gadd. rewrite (gk_add CV good_CV). reflexivity.
  Qed.
  Lemma multiple_inf : multiple (pt_inf CV) 0.
  Proof. split; [left; reflexivity|reflexivity]. Qed.

  Lemma L_C50 S C d a x : aes_ready e iv -> server_ready live S a -> client_ready live C x ->
    same_crs (dcrs (sdme (ots S))) (dcrs (rdme (otr C))) ->
    good_draws dbg live e iv (dcrs (rdme (otr C))) (sdme (ots S)) (theta S) a x d ->
    x <= theta S -> result C = pt_inf CV ->
    exists S' C', session dbg live e iv S C d = Ok (S', C') /\ multiple (kopprf S') (d_kopprf (sd_prep d)) /\
      is_valid live (result C') /\ den CV (result C') = gadd CV (den CV (kopprf S')) (gmul CV x (den CV (ga S))).
  Proof.
    intros A SR CR SC GD LE R0.
    assert (MZ : multiple (result C) 0) by (rewrite R0; apply multiple_inf).
    destruct (L_session dbg live e iv S C d a x 0 A SR CR SC GD MZ) as [S' [C' [E [B [_ [_ [_ [_ M]]]]]]]].
    exists S', C'. split; [exact E|]. pose proof (ba_kopprf _ _ _ _ B) as K. split; [exact K|]. split; [apply M|].
    apply (den_add _ _ _ (d_kopprf (sd_prep d)) x a); [|exact K|apply (sr_ga _ _ _ SR)].
    apply (mult_cong live _ _ _ M). unfold outcome_log. destruct (Z.compare_spec x (theta S)); try lia.
  Qed.

  Lemma L_C51 S C d a x z : aes_ready e iv -> server_ready live S a -> client_ready live C x ->
    same_crs (dcrs (sdme (ots S))) (dcrs (rdme (otr C))) ->
    good_draws dbg live e iv (dcrs (rdme (otr C))) (sdme (ots S)) (theta S) a x d -> multiple (result C) z ->
    exists S' C', session dbg live e iv S C d = Ok (S', C') /\
      key C' = level_key (sd_prep d) (x ?= theta S) 0 /\ multiple (result C') (z + outcome_log d (theta S) a x).
  Proof.
    intros A SR CR SC GD MZ.
    destruct (L_session dbg live e iv S C d a x z A SR CR SC GD MZ) as [S' [C' [E [B [_ [_ [_ [K M]]]]]]]].
    exists S', C'. split; [exact E|]. split; assumption.
  Qed.

  Lemma L_C51_above S C d a x : aes_ready e iv -> server_ready live S a -> client_ready live C x ->
    same_crs (dcrs (sdme (ots S))) (dcrs (rdme (otr C))) ->
    good_draws dbg live e iv (dcrs (rdme (otr C))) (sdme (ots S)) (theta S) a x d ->
    theta S < x -> result C = pt_inf CV ->
    exists S' C', session dbg live e iv S C d = Ok (S', C') /\ multiple (sr S') (d_r (sd_prep d)) /\
      den CV (result C') = gadd CV (gmul CV (sd_random d) (ggen CV))
        (gadd CV (gmul CV (sum_to (d_ok (sd_prep d)) 16) (den CV (sr S'))) (gmul CV x (den CV (ga S)))).
  Proof.
    intros A SR CR SC GD LE R0.
    assert (MZ : multiple (result C) 0) by (rewrite R0; apply multiple_inf).
    destruct (L_session dbg live e iv S C d a x 0 A SR CR SC GD MZ) as [S' [C' [E [B [_ [_ [_ [_ M]]]]]]]].
    exists S', C'. split; [exact E|]. pose proof (ba_r _ _ _ _ B) as [V K]. split; [split; assumption|].
    destruct M as [_ M]. rewrite M, K, (proj2 (sr_ga _ _ _ SR)).
    assert (EQ : 0 + outcome_log d (theta S) a x = sd_random d + (sum_to (d_ok (sd_prep d)) 16 * d_r (sd_prep d) + x * a)).
    { unfold outcome_log. destruct (Z.compare_spec x (theta S)); try lia. }
    rewrite EQ. generalize (sum_to (d_ok (sd_prep d)) 16) as w. intros w.
    change (EccProofs.gk CV (sd_random d + (w * d_r (sd_prep d) + x * a)) =
      gadd CV (EccProofs.gk CV (sd_random d)) (gadd CV (gmul CV w (EccProofs.gk CV (d_r (sd_prep d)))) (gmul CV x (EccProofs.gk CV a)))).
    unfold gadd, gmul. rewrite !(gk_mul CV good_CV), !(gk_add CV good_CV). reflexivity.
  Qed.

  (** ** Shuffles *)
  Lemma open_key_cases R k l : (forall v, In v l -> exists t, opens dbg live e iv R k v t) ->
    exists r, open_key dbg live e iv R k l = Ok r /\
      match r with
      | None => forall v, In v l -> opens dbg live e iv R k v 0
      | Some t => t <> 0 /\ exists v, In v l /\ opens dbg live e iv R k v t
      end.
  Proof.
    induction l as [|v l IH]; intros H.
    - exists None. split; [reflexivity|]. intros v [].
    - cbn [open_key]. destruct (H v (or_introl eq_refl)) as [t [t0 [E1 E2]]]. rewrite E1. cbn [bind]. rewrite E2. cbn [bind].
      destruct (Z.eqb_spec t 0) as [->|N].
      + destruct IH as [r [E R0]]; [intros u U; apply H; right; exact U|]. exists r. split; [exact E|].
        destruct r as [t|].
        * destruct R0 as [N [u [I O]]]. split; [exact N|]. exists u. split; [right; exact I|exact O].
        * intros u [<-|U]; [exists t0; split; assumption|apply R0, U].
      + exists (Some t). split; [reflexivity|]. split; [exact N|]. exists v. split; [left; reflexivity|exists t0; split; assumption].
  Qed.
  Lemma opens_fun R k v t t' : opens dbg live e iv R k v t -> opens dbg live e iv R k v t' -> t = t'.
  Proof. intros [a [A B]] [b [A' B']]. rewrite A in A'. apply Ok_inj in A'. subst b. rewrite B in B'. apply Ok_inj in B'. exact B'. Qed.

  Lemma open_key_perm R k l l' : Permutation l l' -> (forall v, In v l -> exists t, opens dbg live e iv R k v t) ->
    (forall v v' t t', In v l -> In v' l -> opens dbg live e iv R k v t -> opens dbg live e iv R k v' t' -> t <> 0 -> t' <> 0 -> t = t') ->
    open_key dbg live e iv R k l = open_key dbg live e iv R k l'.
  Proof.
    intros P D U. destruct (open_key_cases R k l D) as [r [E K]].
    destruct (open_key_cases R k l') as [r' [E' K']]; [intros v I; apply D, (Permutation_in _ (Permutation_sym P)), I|].
    rewrite E, E'. f_equal. destruct r as [t|], r' as [t'|]; try reflexivity.
    - destruct K as [N [v [I O]]], K' as [N' [v' [I' O']]]. f_equal.
      apply (U v v'); try assumption. apply (Permutation_in _ (Permutation_sym P)), I'.
    - exfalso. destruct K as [N [v [I O]]]. apply N. apply (opens_fun R k v); [exact O|]. apply K', (Permutation_in _ P), I.
    - exfalso. destruct K' as [N [v [I O]]]. apply N. apply (opens_fun R k v); [exact O|]. apply K, (Permutation_in _ (Permutation_sym P)), I.
  Qed.

  Lemma L_C52_key C round c c' : Permutation (oc c) (oc c') -> ocprf c = ocprf c' -> round <> 16 ->
    (forall v, In v (oc c) -> exists t t', decryptMsgDecode dbg live (otr C) v = Ok t /\ decryptCRC (key C) t = Ok t') ->
    (forall v v' t t' u u', In v (oc c) -> In v' (oc c) ->
       decryptMsgDecode dbg live (otr C) v = Ok t -> decryptCRC (key C) t = Ok u -> u <> 0 ->
       decryptMsgDecode dbg live (otr C) v' = Ok t' -> decryptCRC (key C) t' = Ok u' -> u' <> 0 -> u = u') ->
    runOTRound_end dbg live e iv C round c = runOTRound_end dbg live e iv C round c'.
  Proof.
    intros P E N D U. unfold runOTRound_end. rewrite (proj2 (Z.eqb_neq round BITS)) by exact N. rewrite E.
    rewrite (open_key_perm (otr C) (key C) (oc c) (oc c') P); [reflexivity| |].
    - intros v I. destruct (D v I) as [t [t' [A B]]]. exists t', t. split; assumption.
    - intros v v' t t' I I' [a [A B]] [b [A' B']] Nt Nt'. exact (U v v' a b t t' I I' A B Nt A' B' Nt').
  Qed.

  Lemma open_mask_cases k l : (forall m, In m l -> exists t, decryptCRC k m = Ok t) ->
    exists r, open_mask e iv k l = Ok r /\
      match r with None => forall m, In m l -> decryptCRC k m = Ok 0 | Some t => t <> 0 /\ exists m, In m l /\ decryptCRC k m = Ok t end.
  Proof.
    induction l as [|v l IH]; intros H.
    - exists None. split; [reflexivity|]. intros v [].
    - cbn [open_mask]. destruct (H v (or_introl eq_refl)) as [t E]. rewrite E. cbn [bind].
      destruct (Z.eqb_spec t 0) as [->|N].
      + destruct IH as [r [E0 R0]]; [intros u U; apply H; right; exact U|]. exists r. split; [exact E0|].
        destruct r as [t|].
        * destruct R0 as [N [u [I O]]]. split; [exact N|]. exists u. split; [right; exact I|exact O].
        * intros u [<-|U]; [exact E|apply R0, U].
      + exists (Some t). split; [reflexivity|]. split; [exact N|]. exists v. split; [left; reflexivity|exact E].
  Qed.

  Lemma L_C52_mask C l l' d : Permutation l l' -> (forall m, In m l -> exists t, decryptCRC (key C) m = Ok t) ->
    (forall m m' t t', In m l -> In m' l -> decryptCRC (key C) m = Ok t -> decryptCRC (key C) m' = Ok t' -> t <> 0 -> t' <> 0 -> t = t') ->
    unmaskResult dbg live e iv C l d = unmaskResult dbg live e iv C l' d.
  Proof.
    intros P D U. unfold unmaskResult.
    assert (E : open_mask e iv (key C) l = open_mask e iv (key C) l'); [|rewrite E; reflexivity].
    destruct (open_mask_cases (key C) l D) as [r [E K]].
    destruct (open_mask_cases (key C) l') as [r' [E' K']]; [intros v I; apply D, (Permutation_in _ (Permutation_sym P)), I|].
    rewrite E, E'. f_equal. destruct r as [t|], r' as [t'|]; try reflexivity.
    - destruct K as [N [v [I O]]], K' as [N' [v' [I' O']]]. f_equal.
      apply (U v v'); try assumption. apply (Permutation_in _ (Permutation_sym P)), I'.
    - exfalso. destruct K as [N [v [I O]]]. apply N. specialize (K' v (Permutation_in _ P I)). rewrite O in K'. apply Ok_inj in K'. exact K'.
    - exfalso. destruct K' as [N [v [I O]]]. apply N. specialize (K v (Permutation_in _ (Permutation_sym P) I)). rewrite O in K. apply Ok_inj in K. exact K.
  Qed.

  Ltac inv H := let a := fresh "v" in let E := fresh "Q" in apply bind_Ok in H; destruct H as [a [E H]].

  Lemma L_C52_server S round pk qa qb qc qp u v S' c : runOTRound dbg live S round pk qa qb qc qp u v = Ok (S', c) ->
    forall u' v', exists c', runOTRound dbg live S round pk qa qb qc qp u' v' = Ok (S', c') /\
      Permutation (oc c) (oc c') /\ ocprf c = ocprf c' /\ (round = 16 -> c = c').
  Proof.
    unfold runOTRound. change BITS with 16. intros H u' v'. destruct (Z.eqb_spec round 16) as [->|N].
    - exists c. split; [exact H|]. repeat split; apply Permutation_refl.
    - do 6 inv H. apply Ok_inj in H. rewrite Q, Q0. cbn [bind]. rewrite Q1. cbn [bind]. rewrite Q2. cbn [bind]. rewrite Q3. cbn [bind].
      rewrite Q4. cbn [bind].
      assert (E1 : fst v5 = S') by congruence.
      assert (E2 : mkoc (shuffle3 [snd v2; snd v3; snd v4] u v) (snd v5) = c) by congruence.
      rewrite E1. eexists. split; [reflexivity|]. subst c. cbn [oc ocprf]. split; [|split; [reflexivity|intros; contradiction]].
      eapply Permutation_trans; [apply Permutation_sym, shuffle3_perm|apply shuffle3_perm].
  Qed.

  Lemma L_C52_masks S d u v l : sendEncryptedMasks dbg live e iv S d u v = Ok l ->
    forall u' v', exists l', sendEncryptedMasks dbg live e iv S d u' v' = Ok l' /\ Permutation l l'.
  Proof.
    unfold sendEncryptedMasks. intros H u' v'. do 16 inv H. apply Ok_inj in H. subst l.
    match goal with A : getEncodedX dbg live CV ?x = Ok ?a, B : getEncodedX dbg live CV ?x = Ok ?b |- _ =>
      rewrite A in B; apply Ok_inj in B; subst b end.
    repeat match goal with Q : ?x = Ok _ |- context [bind ?x] => rewrite Q; cbn [bind] end.
    eexists. split; [reflexivity|]. eapply Permutation_trans; [apply Permutation_sym, shuffle3_perm|apply shuffle3_perm].
  Qed.

  (** ** Several evaluations *)
  Lemma clean_ready S0 S a d g : server_ready live S0 a -> based live S0 S d ->
    exists S', server_clean dbg live S g = Ok S' /\ server_ready live S' a /\ sdme (ots S') = sdme (ots S0) /\ theta S' = theta S0.
  Proof.
    intros [O CU TH G K R] B. pose proof O as [[c [Ec L]] _].
    unfold server_clean. rewrite (ba_cur _ _ _ _ B), CU, Ec. destruct (randP_m dbg live c g L) as [T [ET _]]. rewrite ET. cbn [bind].
    eexists. split; [reflexivity|]. cbn [ots theta]. rewrite (ba_ots _ _ _ _ B), (ba_theta _ _ _ _ B). split; [|split; reflexivity].
    constructor; cbn [ots scur theta ga k_lt k_eq k_gt ok Si0 Si1].
    - rewrite (ba_ots _ _ _ _ B). exact O.
    - rewrite (ba_ots _ _ _ _ B). symmetry. exact Ec.
    - exact TH.
    - rewrite (ba_ga _ _ _ _ B). exact G.
    - repeat split.
    - unfold fresh_rows. rewrite repeat_length. split; reflexivity.
  Qed.

  Lemma L_C53_accumulate l : forall S C a z, aes_ready e iv -> server_ready live S a ->
    dme_ok live (rdme (otr C)) -> ccur C = dcurve (rdme (otr C)) ->
    same_crs (dcrs (sdme (ots S))) (dcrs (rdme (otr C))) -> multiple (result C) z ->
    (forall x d g, In (x, d, g) l -> 0 <= x < 2 ^ 16 /\
       good_draws dbg live e iv (dcrs (rdme (otr C))) (sdme (ots S)) (theta S) a x d) ->
    exists S' C', evaluations dbg live e iv l S C = Ok (S', C') /\
      multiple (result C') (z + fold_right Z.add 0 (map (eval_log (theta S) a) l)).
  Proof.
    induction l as [|[[x d] g] l IH]; intros S C a z A SR OC CC SC MZ GD.
    - exists S, C. split; [reflexivity|]. cbn [map fold_right]. rewrite Z.add_0_r. exact MZ.
    - cbn [evaluations]. destruct (GD x d g (or_introl eq_refl)) as [X G].
      assert (CR : client_ready live (setMessage C x) x).
      { constructor; cbn [setMessage otr ccur cx result]; [exact OC|exact CC|split; [reflexivity|exact X]|apply MZ]. }
      destruct (L_session dbg live e iv S (setMessage C x) d a x z A SR CR SC G MZ) as [S1 [C1 [E [B [R1 [R2 [_ [_ M]]]]]]]].
      rewrite E. cbn [bind fst snd]. destruct (clean_ready S S1 a _ g SR B) as [S2 [E2 [SR2 [D2 T2]]]]. rewrite E2. cbn [bind].
      cbn [setMessage otr ccur] in R1, R2.
      destruct (IH S2 C1 a (z + outcome_log d (theta S) a x)) as [S3 [C3 [E3 M3]]].
      + exact A.
      + exact SR2.
      + rewrite R1. exact OC.
      + rewrite R1, R2. exact CC.
      + rewrite R1, D2. exact SC.
      + exact M.
      + intros x' d' g' I. rewrite R1, D2, T2. apply (GD x' d' g'). right. exact I.
      + exists S3, C3. split; [exact E3|]. rewrite T2 in M3. apply (mult_cong live _ _ _ M3).
        cbn [map fold_right eval_log]. ring.
  Qed.

  (** ** Round numbers *)
  Lemma L_C54_server_out S round pk qa qb qc qp u v : length (Si0 S) = 16%nat -> round < 0 \/ 16 < round ->
    runOTRound dbg live S round pk qa qb qc qp u v = Err OutOfBounds.
  Proof.
    intros L R. unfold runOTRound. rewrite (proj2 (Z.eqb_neq round BITS)) by (change BITS with 16; lia).
    assert (E : vat (Si0 S) round = Err OutOfBounds); [|rewrite E; reflexivity].
    unfold vat. destruct (Z.ltb_spec round 0); [reflexivity|].
    rewrite (proj2 (nth_error_None _ _)); [reflexivity|]. rewrite L. lia.
  Qed.

  Lemma Enc_total D pk b m r1 r2 : dme_ok live D -> pk_valid live pk -> branch b -> is_valid live m ->
    exists ct, Enc dbg live D pk b m r1 r2 = Ok ct.
  Proof.
    intros OK [V1 V2] B V. destruct (ok_drf live _ OK) as [c [a0 [a1 [b0 [b1 K]]]]].
    destruct (val_rf live _ V1) as [x X], (val_rf live _ V2) as [y Y], (val_rf live _ V) as [z Z].
    destruct (Enc_rf dbg live D c a0 a1 b0 b1 b pk x y m z r1 r2 K B X Y Z) as [ct [E _]]. exists ct. exact E.
  Qed.
  Lemma EncZ_total D pk b m r1 r2 : dme_ok live D -> pk_valid live pk -> branch b ->
    exists ct, EncZ dbg live D pk b m r1 r2 = Ok ct.
  Proof.
    intros OK PK B. pose proof OK as [[c [Ec L]] _]. destruct (L_C32_encode dbg live c D m Ec L) as [i [R [_ [E [F _]]]]].
    unfold EncZ. rewrite E. cbn [bind]. apply Enc_total; try assumption. right. exact F.
  Qed.
  Lemma encZ_total S pk m0 m1 q : dme_ok live (sdme (ots S)) -> pk_valid live pk ->
    exists o v, encZ dbg live S pk m0 m1 q = Ok (set_ots S o, v) /\ sdme o = sdme (ots S).
  Proof.
    intros OK PK. unfold encZ, encMsgsZ.
    destruct (EncZ_total (sdme (ots S)) pk 0 m0 (q_s0 q) (q_t0 q) OK PK (or_introl eq_refl)) as [c0 E0]. rewrite E0. cbn [bind].
    destruct (EncZ_total (sdme (ots S)) pk 1 m1 (q_s1 q) (q_t1 q) OK PK (or_intror eq_refl)) as [c1 E1]. rewrite E1. cbn [bind].
    do 2 eexists. split; reflexivity.
  Qed.
  Lemma encP_total S pk m0 m1 q : dme_ok live (sdme (ots S)) -> pk_valid live pk -> is_valid live m0 -> is_valid live m1 ->
    exists o v, encP dbg live S pk m0 m1 q = Ok (set_ots S o, v) /\ sdme o = sdme (ots S).
  Proof.
    intros OK PK V0 V1. unfold encP, encMsgs.
    destruct (Enc_total (sdme (ots S)) pk 0 m0 (q_s0 q) (q_t0 q) OK PK (or_introl eq_refl) V0) as [c0 E0]. rewrite E0. cbn [bind].
    destruct (Enc_total (sdme (ots S)) pk 1 m1 (q_s1 q) (q_t1 q) OK PK (or_intror eq_refl) V1) as [c1 E1]. rewrite E1. cbn [bind].
    do 2 eexists. split; reflexivity.
  Qed.

  Lemma nth_total {A} (P : A -> Prop) (l : list A) i : length l = 16%nat -> Forall P l -> 0 <= i < 16 -> exists r, vat l i = Ok r /\ P r.
  Proof.
    intros L F I. unfold vat. rewrite (proj2 (Z.ltb_ge i 0)) by lia.
    destruct (nth_error l (Z.to_nat i)) as [r|] eqn:E.
    - exists r. split; [reflexivity|]. rewrite Forall_forall in F. apply F, (nth_error_In _ _ E).
    - apply nth_error_None in E. lia.
  Qed.

  Lemma L_C54_server_in S round pk qa qb qc qp u v : length (Si0 S) = 16%nat -> length (Si1 S) = 16%nat ->
    dme_ok live (sdme (ots S)) -> pk_valid live pk -> rows_valid live S -> 0 <= round <= 16 ->
    exists r, runOTRound dbg live S round pk qa qb qc qp u v = Ok r.
  Proof.
    intros L0 L1 OK PK [V0 [V1 [F0 F1]]] R. unfold runOTRound. change BITS with 16. destruct (Z.eqb_spec round 16) as [->|N].
    - destruct (encZ_total S pk (lk (Sl0 S)) (lk (Sl1 S)) qa OK PK) as [o1 [v1 [E1 D1]]]. rewrite E1. cbn [bind fst snd].
      destruct (encP_total (set_ots S o1) pk (lprf (Sl0 S)) (lprf (Sl1 S)) qp) as [o2 [v2 [E2 D2]]].
      { cbn [set_ots ots]. rewrite D1. exact OK. } { exact PK. } { exact V0. } { exact V1. }
      rewrite E2. cbn [bind fst snd]. eexists. reflexivity.
    - destruct (nth_total _ _ round L0 F0 ltac:(lia)) as [r0 [N0 W0]]. destruct (nth_total _ _ round L1 F1 ltac:(lia)) as [r1 [N1 W1]].
      rewrite N0, N1. cbn [bind].
      destruct (encZ_total S pk (ilt r0) (ilt r1) qa OK PK) as [o1 [v1 [E1 D1]]]. rewrite E1. cbn [bind fst snd].
      assert (OK1 : dme_ok live (sdme (ots (set_ots S o1)))) by (cbn [set_ots ots]; rewrite D1; exact OK).
      destruct (encZ_total (set_ots S o1) pk (ieq r0) (ieq r1) qb OK1 PK) as [o2 [v2 [E2 D2]]]. rewrite E2. cbn [bind fst snd].
      assert (OK2 : dme_ok live (sdme (ots (set_ots (set_ots S o1) o2)))) by (cbn [set_ots ots]; rewrite D2; exact OK1).
      destruct (encZ_total _ pk (igt r0) (igt r1) qc OK2 PK) as [o3 [v3 [E3 D3]]]. rewrite E3. cbn [bind fst snd].
      assert (OK3 : dme_ok live (sdme (ots (set_ots (set_ots (set_ots S o1) o2) o3)))) by (cbn [set_ots ots]; rewrite D3; exact OK2).
      destruct (encP_total _ pk (iprf r0) (iprf r1) qp OK3 PK W0 W1) as [o4 [v4 [E4 D4]]]. rewrite E4. cbn [bind fst snd].
      eexists. reflexivity.
  Qed.

  Lemma L_C54_client_out C round x d : cx C = Some x -> round <= 0 \/ 33 <= round ->
    runOTRound_start dbg live C round d = Err SignedOverflow.
  Proof.
    intros X R. unfold runOTRound_start, shl1. rewrite X.
    assert (E : (round - 1 <? 0) || (31 <? round - 1) = true).
    { destruct R; [rewrite (proj2 (Z.ltb_lt (round - 1) 0)) by lia; reflexivity|].
      rewrite (proj2 (Z.ltb_lt 31 (round - 1))) by lia. apply orb_true_r. }
    rewrite E. reflexivity.
  Qed.
  Lemma L_C54_client_none C round d : cx C = None -> runOTRound_start dbg live C round d = Err Uninit.
  Proof. intros X. unfold runOTRound_start. rewrite X. reflexivity. Qed.

  Lemma happens_cx S C v S' C' : happens dbg live e iv (S, C) v = Ok (S', C') -> (forall x, v <> EMessage x) -> cx C' = cx C.
  Proof.
    destruct v; cbn [happens]; intros H N.
    - inv H. apply Ok_inj in H. congruence.
    - inv H. apply Ok_inj in H. congruence.
    - inv H. apply Ok_inj in H. congruence.
    - inv H. apply Ok_inj in H. congruence.
    - exfalso. apply (N x). reflexivity.
    - inv H. apply Ok_inj in H. assert (fst v = C') as <- by congruence.
      unfold runOTRound_start in Q. destruct (cx C) eqn:X; [|discriminate Q]. inv Q. inv Q. apply Ok_inj in Q. subst v. cbn [fst cx]. reflexivity.
    - inv H. apply Ok_inj in H. assert (v = C') as <- by congruence. unfold runOTRound_end in Q. do 3 inv Q. apply Ok_inj in Q. subst v. reflexivity.
    - inv H. apply Ok_inj in H. assert (v = C') as <- by congruence.
      unfold unmaskResult in Q. inv Q. destruct v0; [|destruct dbg; discriminate Q]. do 3 inv Q. apply Ok_inj in Q. subst v. reflexivity.
    - apply Ok_inj in H. assert (client_clean C = C') as <- by congruence. reflexivity.
  Qed.
  Lemma history_cx l : forall S C S' C', history dbg live e iv l (S, C) = Ok (S', C') -> (forall x, ~ In (EMessage x) l) -> cx C' = cx C.
  Proof.
    unfold history. induction l as [|v l IH]; intros S C S' C' H N; cbn [foldM] in H.
    - apply Ok_inj in H. congruence.
    - inv H. destruct v0 as [S1 C1]. rewrite (IH _ _ _ _ H).
      + apply (happens_cx _ _ _ _ _ Q). intros x E. apply (N x). left. exact E.
      + intros x I. apply (N x). right. exact I.
  Qed.
  Lemma L_C54_history c k S l S' C' round d : history dbg live e iv l (S, client_new c k) = Ok (S', C') ->
    (forall x, ~ In (EMessage x) l) -> runOTRound_start dbg live C' round d = Err Uninit.
  Proof. intros H N. apply L_C54_client_none. rewrite (history_cx l _ _ _ _ H N). reflexivity. Qed.

  Lemma L_C54_client_in C round x d : cx C = Some x -> 0 <= x < 2 ^ 16 -> 1 <= round <= 32 -> dme_ok live (rdme (otr C)) ->
    exists C' pk, runOTRound_start dbg live C round d = Ok (C', pk) /\ pk_valid live pk /\
      rbr (otr C') = Some (if round <=? 16 then bit x (Z.to_nat (round - 1)) else 0).
  Proof.
    intros X XR R OK. unfold runOTRound_start, shl1. rewrite X.
    rewrite (proj2 (Z.ltb_ge (round - 1) 0)), (proj2 (Z.ltb_ge 31 (round - 1))) by lia. cbn [orb bind].
    assert (B : negb (Z.land x (if round - 1 =? 31 then - 2 ^ 31 else 2 ^ (round - 1)) =? 0) = ((round <=? 16) && Z.testbit x (round - 1))).
    { destruct (Z.eqb_spec (round - 1) 31) as [E|N].
      - rewrite (proj2 (Z.leb_gt round 16)) by lia. cbn [andb].
        assert (Z.land x (- 2 ^ 31) = 0) as ->; [|reflexivity].
        apply Z.bits_inj'. intros i I. rewrite Z.land_spec, Z.bits_0. destruct (Z.ltb_spec i 16).
        + replace (- 2 ^ 31) with (Z.shiftl (-1) 31) by reflexivity. rewrite Z.shiftl_spec_low by lia. apply andb_false_r.
        + rewrite (Z.bits_above_log2 x i); [reflexivity|lia|]. destruct (Z.eq_dec x 0) as [->|]; [cbn; lia|]. apply Z.log2_lt_pow2; [lia|].
          apply Z.lt_le_trans with (2 ^ 16); [lia|apply Z.pow_le_mono_r; lia].
      - rewrite land_pow2 by lia. destruct (Z.leb_spec round 16); [reflexivity|]. cbn [andb].
        apply Z.bits_above_log2; [lia|]. destruct (Z.eq_dec x 0) as [->|]; [cbn; lia|]. apply Z.log2_lt_pow2; [lia|].
        apply Z.lt_le_trans with (2 ^ 16); [lia|apply Z.pow_le_mono_r; lia]. }
    rewrite B. clear B. destruct (ok_drf live _ OK) as [c [a0 [a1 [b0 [b1 K]]]]].
    assert (HS : forall b, branch b -> exists C' pk,
      (do r <- selectMsg dbg live (otr C) b d; Ok (mkcli (fst r) (ccur C) (Some x) (result C) (key C), snd r)) = Ok (C', pk) /\
      pk_valid live pk /\ rbr (otr C') = Some b).
    { intros b HB. destruct (KeyGen_rf dbg live _ c _ _ _ _ _ d K HB) as [kp [E [P1 [P2 _]]]]. unfold selectMsg. rewrite E. cbn [bind fst snd].
      do 2 eexists. split; [reflexivity|]. cbn [otr rbr]. split; [|reflexivity]. split; [apply (rf_val live _ _ P1)|apply (rf_val live _ _ P2)]. }
    destruct (round <=? 16); cbn [andb]; [|apply HS; left; reflexivity].
    rewrite bit_testbit, Z2Nat.id by lia. destruct (Z.testbit x (round - 1)); apply HS; [right|left]; reflexivity.
  Qed.
End Opprf3.
