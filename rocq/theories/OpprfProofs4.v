(** Failures of the oblivious programmable PRF: short keys, a zero draw, unchecked secrets. *)
From Coq Require Import ZArith Znumtheory Bool List Lia Permutation.
From Verif Require Import Outcome FieldModel SpecField ZpField CurveParams EccModel SpecEcc EccProofs RF Emb EccThms DmeModel SpecDme DmeProofs
  OtModel SpecOt OtProofs CrcModel SpecCrc CrcProofs3 AesModel SpecAes AesProofs OpprfModel SpecOpprf OpprfProofs OpprfProofs2 OpprfProofs3.
Import ListNotations.
Open Scope Z_scope.

Section Opprf4.
  Variables (dbg : bool) (live : Z -> bool) (e : env) (iv : list Z).
  Ltac inv H := let a := fresh "v" in let E := fresh "Q" in apply bind_Ok in H; destruct H as [a [E H]].

  Lemma enc_long k m c : encryptCRC e iv k m = Ok c -> 2 ^ 120 <= Z.abs k.
  Proof.
    unfold encryptCRC. intros H. inv H. destruct (Z.le_gt_cases (2 ^ 120) (Z.abs k)) as [L|L]; [exact L|].
    destruct (L_C47_key e iv v k L) as [E _]. rewrite E in H. discriminate H.
  Qed.

  Lemma prep_row_long S j r : prep_row dbg live e iv S j = Ok r ->
    forall k, vat (k_lt S) (Z.of_nat (Datatypes.S j)) = Ok k \/ vat (k_eq S) (Z.of_nat (Datatypes.S j)) = Ok k \/
      vat (k_gt S) (Z.of_nat (Datatypes.S j)) = Ok k -> 2 ^ 120 <= Z.abs k.
  Proof.
    unfold prep_row. intros H k K. do 7 inv H.
    assert (W : exists c0 c1 c2 m0 m1 m2, encryptCRC e iv v m0 = Ok c0 /\ encryptCRC e iv v0 m1 = Ok c1 /\ encryptCRC e iv v1 m2 = Ok c2).
    { destruct (negb (tbit S j)); do 3 inv H; eauto 10. }
    destruct W as [c0 [c1 [c2 [m0 [m1 [m2 [W0 [W1 W2]]]]]]]]. apply enc_long in W0, W1, W2.
    destruct K as [K|[K|K]]; [rewrite Q in K|rewrite Q0 in K|rewrite Q1 in K]; apply Ok_inj in K; subst k; assumption.
  Qed.

  Lemma prep_steps_rows l j : In j l -> forall S S', foldM (prep_step dbg live e iv) l S = Ok S' ->
    exists T r, keyparts T = keyparts S /\ prep_row dbg live e iv T j = Ok r.
  Proof.
    induction l as [|i l IH]; intros I S S' H; [destruct I|]. cbn [foldM] in H. inv H. destruct I as [->|I].
    - unfold prep_step in Q. inv Q. exists S, v0. split; [reflexivity|exact Q0].
    - destruct (IH I _ _ H) as [T [r [K E]]]. exists T, r. split; [|exact E]. rewrite K.
      unfold prep_step in Q. do 3 inv Q. apply Ok_inj in Q. subst v. reflexivity.
  Qed.

  Lemma fresh_keys S0 d S s j : fresh_server S0 -> prepareKeysAndInputs dbg live e iv S0 d = Ok S -> (j < 16)%nat ->
    vat (match s with Lt => k_lt S | Eq => k_eq S | Gt => k_gt S end) (Z.of_nat j) = Ok (level_key d s j).
  Proof.
    intros [F1 [F2 [F3 _]]] H J. apply prepare_keys in H. destruct H as [o [_ [K1 [K2 [K3 _]]]]].
    rewrite F1 in K1. rewrite F2 in K2. rewrite F3 in K3. cbn [app] in *.
    destruct s; cbn [level_key]; [rewrite K2|rewrite K1|rewrite K3]; apply vat_map'; exact J.
  Qed.

  Lemma L_C59_prepare S0 d s j : fresh_server S0 -> (1 <= j < 16)%nat -> Z.abs (level_key d s j) < 2 ^ 120 ->
    exists f, prepareKeysAndInputs dbg live e iv S0 d = Err f.
  Proof.
    intros F J K. destruct (prepareKeysAndInputs dbg live e iv S0 d) as [S|f] eqn:E; [exfalso|exists f; reflexivity].
    pose proof (fresh_keys S0 d S s j F E ltac:(lia)) as V.
    unfold prepareKeysAndInputs in E. do 4 inv E.
    pose proof (prep_steps_keys dbg live e iv _ _ _ E) as [KP _].
    assert (IJ : In (j - 1)%nat (rev (seq 0 (MSG_BITS - 1)))) by (apply in_rev; rewrite rev_involutive; apply in_seq; unfold MSG_BITS; lia).
    destruct (prep_steps_rows _ _ IJ _ _ E) as [T [r [KT R]]].
    assert (KS : keyparts T = keyparts S) by congruence. unfold keyparts in KS.
    assert (K1 : k_lt T = k_lt S) by congruence. assert (K2 : k_eq T = k_eq S) by congruence. assert (K3 : k_gt T = k_gt S) by congruence.
    pose proof (prep_row_long T _ r R (level_key d s j)) as L. replace (Datatypes.S (j - 1)) with j in L by lia.
    rewrite K1, K2, K3 in L. assert (2 ^ 120 <= Z.abs (level_key d s j)); [|lia]. apply L. destruct s; tauto.
  Qed.

  Lemma L_C59_masks S k rnd u v : Z.abs k < 2 ^ 120 -> vat (k_lt S) 0 = Ok k \/ vat (k_eq S) 0 = Ok k \/ vat (k_gt S) 0 = Ok k ->
    exists f, sendEncryptedMasks dbg live e iv S rnd u v = Err f.
  Proof.
    intros K H. destruct (sendEncryptedMasks dbg live e iv S rnd u v) as [l|f] eqn:E; [exfalso|exists f; reflexivity].
    unfold sendEncryptedMasks in E. do 16 inv E.
    repeat match goal with Q : encryptCRC _ _ _ _ = Ok _ |- _ => apply enc_long in Q end.
    destruct H as [H|[H|H]];
      match goal with Q : vat ?l 0 = Ok ?a, H : vat ?l 0 = Ok k |- _ => rewrite Q in H; apply Ok_inj in H; subst a end; lia.
  Qed.

  Lemma encZ_keys S pk m0 m1 q r : encZ dbg live S pk m0 m1 q = Ok r -> keyparts (fst r) = keyparts S.
  Proof. unfold encZ. intros E. inv E. apply Ok_inj in E. subst r. reflexivity. Qed.
  Lemma encP_keys S pk m0 m1 q r : encP dbg live S pk m0 m1 q = Ok r -> keyparts (fst r) = keyparts S.
  Proof. unfold encP. intros E. inv E. apply Ok_inj in E. subst r. reflexivity. Qed.
  Lemma runOTRound_keys S round pk qa qb qc qp u v r : runOTRound dbg live S round pk qa qb qc qp u v = Ok r -> keyparts (fst r) = keyparts S.
  Proof.
    unfold runOTRound. destruct (round =? BITS); intros H.
    - inv H. inv H. apply Ok_inj in H. subst r. cbn [fst]. apply encZ_keys in Q. apply encP_keys in Q0. congruence.
    - do 6 inv H. apply Ok_inj in H. subst r. cbn [fst]. apply encZ_keys in Q1, Q2, Q3. apply encP_keys in Q4. congruence.
  Qed.
  Lemma rounds_keep l : forall SC SC', foldM (one_round dbg live e iv) l SC = Ok SC' -> keyparts (fst SC') = keyparts (fst SC).
  Proof.
    induction l as [|a l IH]; intros SC SC' H; cbn [foldM] in H; [apply Ok_inj in H; subst; reflexivity|].
    inv H. rewrite (IH _ _ H). unfold one_round in Q. do 3 inv Q. apply Ok_inj in Q. subst v. cbn [fst].
    apply (runOTRound_keys _ _ _ _ _ _ _ _ _ _ Q1).
  Qed.

  (** one short key among the forty-eight, and no evaluation completes *)
  Lemma L_C59_session S C d s j : fresh_server S -> (j < 16)%nat -> Z.abs (level_key (sd_prep d) s j) < 2 ^ 120 ->
    exists f, session dbg live e iv S C d = Err f.
  Proof.
    intros F J K. unfold session. destruct (Nat.eq_dec j 0) as [->|N].
    - destruct (prepareKeysAndInputs dbg live e iv S (sd_prep d)) as [S1|f] eqn:E; [|exists f; reflexivity]. cbn [bind].
      destruct (foldM (one_round dbg live e iv) _ _) as [SC|f] eqn:E2; [|exists f; reflexivity]. cbn [bind].
      pose proof (fresh_keys S _ S1 s 0 F E ltac:(lia)) as V. change (Z.of_nat 0) with 0 in V.
      apply rounds_keep in E2. cbn [fst] in E2. unfold keyparts in E2.
      assert (K1 : k_lt (fst SC) = k_lt S1) by congruence. assert (K2 : k_eq (fst SC) = k_eq S1) by congruence.
      assert (K3 : k_gt (fst SC) = k_gt S1) by congruence.
      destruct (L_C59_masks (fst SC) (level_key (sd_prep d) s 0) (sd_random d) (sd_u d) (sd_v d) K) as [f E3].
      { rewrite K1, K2, K3. destruct s; tauto. }
      rewrite E3. exists f. reflexivity.
    - destruct (L_C59_prepare S (sd_prep d) s j F ltac:(lia) K) as [f E]. rewrite E. exists f. reflexivity.
  Qed.

  (** ** A zero draw in unmaskResult *)
  Lemma L_C61 C c masks d m : ccur C = Some c -> live c = true -> (order | d) -> open_mask e iv (key C) masks = Ok (Some m) ->
    unmaskResult dbg live e iv C masks d = Err NullDeref.
  Proof.
    intros CU L D O. unfold unmaskResult. rewrite O. cbn [bind]. rewrite CU.
    destruct (getRandomPoint_rf dbg live CV good_CV c d L) as [R [E K]]. rewrite E. cbn [bind].
    assert (Z : mk (FIELD_n) d = f0 FIELD_n) by (apply mk_order_0; exact D).
    change (rf live CV R (mk FIELD_n d)) in K. rewrite Z in K. apply (rf_zero live CV good_CV) in K. subst R.
    unfold setEncodedX. destruct (Z.odd m); reflexivity.
  Qed.

  (** ** setSecret *)
  Lemma L_C60_release S P : exists S', setSecret false live S P = Ok (S', set_curve P (scur S)) /\ ga S' = set_curve P (scur S).
  Proof. unfold setSecret. cbn [bind assert_ andb negb]. eexists. split; reflexivity. Qed.

  Lemma L_C60_debug S P c : canon (fieldp CV) (px P) -> canon (fieldp CV) (py P) -> pinf P = false ->
    scur S = Some c -> live c = true ->
    (equation CV (fval (px P)) (fval (py P)) ->
       exists S', setSecret true live S P = Ok (S', set_curve P (scur S)) /\ ga S' = set_curve P (scur S) /\ is_valid live (ga S')) /\
    (~ equation CV (fval (px P)) (fval (py P)) -> setSecret true live S P = Err AssertFail).
  Proof.
    intros X Y I CU L. unfold setSecret. rewrite CU.
    pose proof (L_C17_canonical true live CV good_CV (set_curve P (Some c)) X Y) as E. cbn [set_curve pinf pcur px py] in E.
    rewrite I, L in E. change (mkpoint (px P) (py P) (pinf P) (Some c)) with (set_curve P (Some c)) in E.
    assert (E' : isValid true live CV (set_curve P (Some c)) = Ok ((fval (py P) * fval (py P)) mod c_prime CV =?
               (fval (px P) * fval (px P) * fval (px P) + c_a CV * fval (px P) + c_b CV) mod c_prime CV)).
    { exact E. }
    rewrite E'. clear E E'. cbn [bind]. unfold equation. split; intros H.
    - rewrite (proj2 (Z.eqb_eq _ _) H). cbn [assert_ andb negb bind]. eexists. split; [reflexivity|]. split; [reflexivity|].
      cbn [ga]. right. unfold finite_valid, set_curve. cbn [pinf px py pcur]. rewrite I. repeat (split; [first [reflexivity|assumption]|]).
      split; [exists c; split; [reflexivity|exact L]|exact H].
    - rewrite (proj2 (Z.eqb_neq _ _) H). reflexivity.
  Qed.
End Opprf4.

Section Ready.
  Variables (dbg : bool) (live : Z -> bool).

  Lemma L_ready_server c th k P a d : live c = true -> crs_finite k -> 0 <= th < 2 ^ 16 -> multiple live P a -> ~ (order | a) ->
    exists S0 S, server_new dbg live c th k d = Ok S0 /\ setSecret dbg live S0 P = Ok (S, set_curve P (Some c)) /\
      server_ready live S a /\ theta S = th /\ same_crs (dcrs (sdme (ots S))) k /\ fresh_server S /\ den CV (ga S) = den CV P.
  Proof.
    intros L [F0 [F1 [F2 F3]]] TH M N. unfold server_new. cbn [otsndr_new sdme dme_new_crs dcurve].
    destruct (randP_m dbg live c d L) as [g [Eg _]]. rewrite Eg. cbn [bind]. eexists. 
    pose proof (L_new_crs live c k L F0 F1 F2 F3) as [OK SC].
    pose proof (finite_m live P a M N) as FP.
    assert (FA : finite all_alive P).
    { destruct FP as [I [A [B [[c' [E _]] Q]]]]. split; [exact I|]. split; [exact A|]. split; [exact B|]. split; [exists c'; split; [exact E|reflexivity]|exact Q]. }
    destruct (set_curve_finite live P c L FA) as [V D].
    unfold setSecret. cbn [scur].
    assert (E : (if dbg then isValid dbg live CV (set_curve P (Some c)) else Ok true) = Ok true).
    { destruct dbg; [|reflexivity]. apply (valid_isValid true live CV good_CV). right. exact V. }
    eexists. split; [reflexivity|]. cbn [scur]. rewrite E. cbn [bind].
    assert (T : assert_ dbg true = Ok tt) by (destruct dbg; reflexivity). rewrite T. cbn [bind].
    split; [reflexivity|]. split.
    - constructor; cbn [ots scur theta ga k_lt k_eq k_gt ok Si0 Si1 otsndr_new sdme dme_new_crs dcurve].
      + exact OK.
      + reflexivity.
      + exact TH.
      + split; [right; exact V|]. rewrite D. apply M.
      + repeat split.
      + split; reflexivity.
    - split; [reflexivity|]. split; [exact SC|]. split; [repeat split|exact D].
  Qed.

  Lemma L_ready_client c k x : live c = true -> crs_finite k -> 0 <= x < 2 ^ 16 ->
    client_ready live (setMessage (client_new c k) x) x /\ same_crs (dcrs (rdme (otr (client_new c k)))) k /\
    result (client_new c k) = pt_inf CV.
  Proof.
    intros L [F0 [F1 [F2 F3]]] X. pose proof (L_new_crs live c k L F0 F1 F2 F3) as [OK SC].
    split; [|split; [exact SC|reflexivity]]. constructor; cbn [setMessage client_new otr ccur cx result otrecv_new rdme dme_new_crs dcurve].
    - exact OK.
    - reflexivity.
    - split; [reflexivity|exact X].
    - left. reflexivity.
  Qed.
End Ready.

(** ** Shuffles and whole evaluations *)
Lemma L_C52_reach {A} (a b c : A) l : Permutation [a; b; c] l -> exists u v, 0 <= u /\ 0 <= v /\ shuffle3 [a; b; c] u v = l.
Proof.
  intros P. assert (H : In l [[a; b; c]; [b; a; c]; [a; c; b]; [b; c; a]; [c; a; b]; [c; b; a]]).
  { pose proof (Permutation_length P) as L. destruct l as [|x [|y [|z [|]]]]; try discriminate L.
    assert (X : In x [a; b; c]) by (apply (Permutation_in _ (Permutation_sym P)); left; reflexivity).
    destruct X as [<-|[<-|[<-|[]]]].
    - apply Permutation_cons_inv in P. apply Permutation_length_2_inv in P. destruct P as [E|E]; injection E as -> ->; cbn; tauto.
    - assert (Q : Permutation [a; c] [y; z]).
      { apply (Permutation_cons_inv (a := b)). eapply Permutation_trans; [|exact P]. apply perm_swap. }
      apply Permutation_length_2_inv in Q. destruct Q as [E|E]; injection E as -> ->; cbn; tauto.
    - assert (Q : Permutation [a; b] [y; z]).
      { apply (Permutation_cons_inv (a := c)). eapply Permutation_trans; [|exact P].
        eapply Permutation_trans; [apply perm_swap|]. apply perm_skip. apply perm_swap. }
      apply Permutation_length_2_inv in Q. destruct Q as [E|E]; injection E as -> ->; cbn; tauto. }
  destruct H as [<-|[<-|[<-|[<-|[<-|[<-|[]]]]]]].
  - exists 1, 2. repeat split; lia.
  - exists 0, 2. repeat split; lia.
  - exists 1, 1. repeat split; lia.
  - exists 0, 1. repeat split; lia.
  - exists 0, 0. repeat split; lia.
  - exists 1, 0. repeat split; lia.
Qed.

Section Shuffles.
  Variables (dbg : bool) (live : Z -> bool) (e : env) (iv : list Z).

  Lemma good_reshuffle k D th a x d fu fv u v : good_draws dbg live e iv k D th a x d ->
    good_draws dbg live e iv k D th a x (reshuffle d fu fv u v).
  Proof.
    intros [G1 G2 G3 G4 G5 G6 G7 G8]. constructor.
    - exact G1.
    - exact G2.
    - exact G3.
    - exact G4.
    - exact G5.
    - exact G6.
    - intros j J s c r E. specialize (G7 j J s c E). subst r. destruct s; exact G7.
    - exact G8.
  Qed.

  Lemma L_C52_session S C d a x z fu fv u v : aes_ready e iv -> server_ready live S a -> client_ready live C x ->
    same_crs (dcrs (sdme (ots S))) (dcrs (rdme (otr C))) ->
    good_draws dbg live e iv (dcrs (rdme (otr C))) (sdme (ots S)) (theta S) a x d -> multiple live (result C) z ->
    exists S1 C1 S2 C2, session dbg live e iv S C d = Ok (S1, C1) /\
      session dbg live e iv S C (reshuffle d fu fv u v) = Ok (S2, C2) /\
      key C1 = key C2 /\ den CV (result C1) = den CV (result C2).
  Proof.
    intros A SR CR SC GD M.
    destruct (L_C51 dbg live e iv S C d a x z A SR CR SC GD M) as [S1 [C1 [E1 [K1 [_ R1]]]]].
    destruct (L_C51 dbg live e iv S C (reshuffle d fu fv u v) a x z A SR CR SC (good_reshuffle _ _ _ _ _ _ fu fv u v GD) M)
      as [S2 [C2 [E2 [K2 [_ R2]]]]].
    exists S1, C1, S2, C2. split; [exact E1|]. split; [exact E2|]. split; [exact (eq_trans K1 (eq_sym K2))|].
    exact (eq_trans R1 (eq_sym R2)).
  Qed.
End Shuffles.
