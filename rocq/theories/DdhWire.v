(** Someone who listens to an evaluation of the oblivious PRF: the string passes through the server unseen. *)
From Coq Require Import ZArith Znumtheory Bool List Lia.
From Verif Require Import Outcome FieldModel ZpField SpecField FieldProofs ECGroup ECOrder CurveParams CurveFacts EccModel EccProofs SpecEcc EccThms Emb RF DmeModel SpecDme DmeProofs OtModel OtProofs CrcModel AesModel OpprfModel SpecOpprf SpecOpprf2 OpprfProofs SpecCount CountMath SpecDdh SpecDdh2 SpecDdh3 SpecDdh4 SpecDdh5 SpecDdh6 DdhProofs DdhProofs2 DdhHear DdhHear2.
Import ListNotations.
Open Scope Z_scope.

Lemma vset_length {A} (l l' : list A) i a : vset l i a = Ok l' -> length l' = length l.
Proof.
  unfold vset. destruct (Nat.ltb_spec i (length l)) as [H|H]; [|discriminate]. intros E. apply Ok_inj in E. subst l'.
  rewrite app_length. cbn [length]. rewrite firstn_length, skipn_length. lia.
Qed.

Section Unseen.
  Variables (dbg : bool) (live : Z -> bool) (e : env) (iv : list Z).
  Notation prepare := (prepareKeysAndInputs dbg live e iv).

  Lemma step_ots V o j : prep_step dbg live e iv (set_ots V o) j = do V' <- prep_step dbg live e iv V j; Ok (set_ots V' o).
  Proof.
    unfold prep_step. change (prep_row dbg live e iv (set_ots V o) j) with (prep_row dbg live e iv V j).
    destruct (prep_row dbg live e iv V j) as [r|f]; [|reflexivity]. cbn [bind]. change (Si0 (set_ots V o)) with (Si0 V). change (Si1 (set_ots V o)) with (Si1 V).
    destruct (vset (Si0 V) _ _) as [s0|f]; [|reflexivity]. cbn [bind]. destruct (vset (Si1 V) _ _) as [s1|f]; reflexivity.
  Qed.
  Lemma steps_ots o l : forall V, foldM (prep_step dbg live e iv) l (set_ots V o) = do V' <- foldM (prep_step dbg live e iv) l V; Ok (set_ots V' o).
  Proof.
    induction l as [|j l IH]; intros V; [reflexivity|]. cbn [foldM]. rewrite step_ots. destruct (prep_step dbg live e iv V j) as [V'|f]; [|reflexivity]. cbn [bind]. apply IH.
  Qed.
  Lemma top_ots V o : prep_top dbg live (set_ots V o) = do V' <- prep_top dbg live V; Ok (set_ots V' o).
  Proof.
    unfold prep_top. cbv zeta. change (ok (set_ots V o)) with (ok V). change (sr (set_ots V o)) with (sr V). change (ga (set_ots V o)) with (ga V).
    change (tbit (set_ots V o)) with (tbit V). change (k_lt (set_ots V o)) with (k_lt V). change (k_eq (set_ots V o)) with (k_eq V). change (k_gt (set_ots V o)) with (k_gt V).
    destruct (vat (ok V) (BITS - 1)) as [okt|f]; [|reflexivity]. cbn [bind]. destruct (pmul dbg live CV (sr V) okt) as [p0|f]; [|reflexivity]. cbn [bind].
    destruct (pmulz dbg live CV (ga V) _) as [g|f]; [|reflexivity]. cbn [bind]. destruct (padd dbg live CV g p0) as [p1|f]; [|reflexivity]. cbn [bind].
    destruct (vat (if tbit V _ then k_lt V else k_eq V) _) as [k0|f]; [|reflexivity]. cbn [bind].
    destruct (vat (if tbit V _ then k_eq V else k_gt V) _) as [k1|f]; reflexivity.
  Qed.
  Lemma prepare_ots V o d : prepare (set_ots V o) d = do V' <- prepare V d; Ok (set_ots V' o).
  Proof.
    unfold prepareKeysAndInputs. change (scur (set_ots V o)) with (scur V).
    destruct (getRandomPoint dbg live CV (scur V) (d_kopprf d)) as [kp|f]; [|reflexivity]. cbn [bind].
    destruct (getRandomPoint dbg live CV (scur V) (d_r d)) as [r|f]; [|reflexivity]. cbn [bind].
    destruct (mapM _ _) as [oks|f]; [|reflexivity]. cbn [bind]. cbv zeta.
    set (V1 := mksrv (ots V) _ _ _ _ _ _ _ _ _ _ _ _ _ _).
    change (mksrv (ots (set_ots V o)) _ _ _ _ _ _ _ _ _ _ _ _ _ _) with (set_ots V1 o) at 1. rewrite top_ots.
    destruct (prep_top dbg live V1) as [V2|f]; [|reflexivity]. cbn [bind]. apply steps_ots.
  Qed.
  Lemma masks_ots V o d u v : sendEncryptedMasks dbg live e iv (set_ots V o) d u v = sendEncryptedMasks dbg live e iv V d u v.
  Proof. reflexivity. Qed.
  Lemma serves_ots c k th g P : serves dbg live c k th g P = do V <- serves dbg live c crs_default th g P; Ok (set_ots V (otsndr_new (dme_new_crs c k))).
  Proof.
    unfold serves, server_new. cbv zeta. cbn [otsndr_new sdme dme_new_crs dcurve].
    destruct (getRandomPoint dbg live CV (Some c) g) as [G|f]; [|reflexivity]. cbn [bind]. unfold setSecret. cbn [scur].
    destruct (if dbg then isValid dbg live CV (set_curve P (Some c)) else Ok true) as [v|f]; [|reflexivity]. cbn [bind].
    destruct (assert_ dbg v) as [[]|f]; reflexivity.
  Qed.

  Lemma prepare_lengths V V' d : prepare V d = Ok V' -> length (Si0 V') = length (Si0 V) /\ length (Si1 V') = length (Si1 V).
  Proof.
    unfold prepareKeysAndInputs. intros H. apply bind_Ok in H. destruct H as [kp [_ H]]. apply bind_Ok in H. destruct H as [r [_ H]]. apply bind_Ok in H. destruct H as [oks [_ H]]. cbv zeta in H.
    apply bind_Ok in H. destruct H as [V2 [H2 H]].
    assert (E2 : Si0 V2 = Si0 V /\ Si1 V2 = Si1 V).
    { unfold prep_top in H2. do 6 (apply bind_Ok in H2; destruct H2 as [? [_ H2]]). apply Ok_inj in H2. subst V2. split; reflexivity. }
    destruct E2 as [<- <-]. clear H2. revert V2 H. induction (rev (seq 0 (MSG_BITS - 1))) as [|j l IH]; intros V2 H.
    - apply Ok_inj in H. subst V'. split; reflexivity.
    - cbn [foldM] in H. apply bind_Ok in H. destruct H as [V3 [H3 H]]. destruct (IH V3 H) as [E0 E1]. rewrite E0, E1. unfold prep_step in H3.
      apply bind_Ok in H3. destruct H3 as [rr [_ H3]]. apply bind_Ok in H3. destruct H3 as [s0 [H0 H3]]. apply bind_Ok in H3. destruct H3 as [s1 [H1 H3]]. apply Ok_inj in H3. subst V3.
      cbn [set_rows Si0 Si1]. split; [apply (vset_length _ _ _ _ H0)|apply (vset_length _ _ _ _ H1)].
  Qed.
  Lemma serves_lengths c k th g P V : serves dbg live c k th g P = Ok V -> length (Si0 V) = 16%nat /\ length (Si1 V) = 16%nat.
  Proof.
    unfold serves, server_new, setSecret. intros H. apply bind_Ok in H. destruct H as [V0 [H0 H]]. apply bind_Ok in H. destruct H as [r [H1 H]]. apply Ok_inj in H.
    cbv zeta in H0. apply bind_Ok in H0. destruct H0 as [? [_ H0]]. apply Ok_inj in H0. cbv zeta in H1. apply bind_Ok in H1. destruct H1 as [? [_ H1]]. apply bind_Ok in H1. destruct H1 as [? [_ H1]]. apply Ok_inj in H1.
    subst. split; reflexivity.
  Qed.

  (** ** The draws *)
  Lemma look_all (l : list (Z * round_draws)) : NoDup (map fst l) -> map (fun r => (r, look l r)) (map fst l) = l.
  Proof.
    induction l as [|[r q] l IH]; [reflexivity|]. cbn [map fst]. intros H. apply NoDup_cons_iff in H. destruct H as [NI ND]. unfold look at 1. cbn [find fst]. rewrite Z.eqb_refl. cbn [snd]. f_equal.
    refine (eq_trans _ (IH ND)). apply map_ext_in. intros s I. f_equal. unfold look. cbn [find fst]. destruct (Z.eqb_spec r s) as [->|]; [destruct (NI I)|reflexivity].
  Qed.
  Lemma deal_rounds d x rs : forall ds, shaped (flat_map (round_steps x) rs) ds -> map fst (deal d rs ds) = rs.
  Proof.
    induction rs as [|r rs IH]; intros ds H; [reflexivity|]. cbn [flat_map] in H. unfold round_steps in H. cbn [deal]. cbv zeta.
    destruct (r =? BITS); cbn [app] in H; inversion H as [|? k ? ds1 FK H1]; subst; destruct (one_fits _ k FK) as [q [-> _]];
      inversion H1 as [|? a ? ds2 FA H2]; subst; inversion H2 as [|? b ? ds3 FB H3]; subst.
    - cbn [map fst]. f_equal. apply IH, H3.
    - inversion H3 as [|? c ? ds4 FC H4]; subst. inversion H4 as [|? p ? ds5 FP H5]; subst. cbn [map fst]. f_equal. apply IH, H5.
  Qed.
  Lemma rounds_nodup : NoDup rounds.
  Proof. unfold rounds. apply FinFun.Injective_map_NoDup; [intros i j E; lia|]. apply NoDup_rev, seq_NoDup. Qed.
  Lemma schedule_dealt d x ds : shaped (script x) ds -> schedule (dealt d ds) = deal d rounds ds.
  Proof.
    intros H. unfold schedule, dealt. cbn [sd_round]. pose proof (deal_rounds d x rounds ds H) as E. rewrite <- E at 1. apply look_all. rewrite E. exact rounds_nodup.
  Qed.
  Lemma rounds_range : Forall (fun r => 1 <= r <= 16) rounds.
  Proof. apply Forall_map, Forall_rev, Forall_forall. intros j I. apply in_seq in I. unfold MSG_BITS in I. lia. Qed.
End Unseen.
