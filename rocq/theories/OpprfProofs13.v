(** Any history of calls on one server: proofs. *)
From Coq Require Import ZArith Znumtheory Bool List Lia.
From Verif Require Import Outcome FieldModel ZpField SpecField FieldProofs ECGroup ECOrder CurveParams CurveFacts EccModel EccProofs SpecEcc EccThms Emb RF.
From Verif Require Import DmeModel SpecDme DmeProofs DmeProofs2 OtModel SpecOt OtProofs OtProofs2 CrcModel SpecCrc CrcProofs CrcProofs2 AesModel SpecAes AesProofs.
From Verif Require Import OpprfModel SpecOpprf SpecOpprf6 OpprfProofs OpprfProofs2 OpprfProofs3.
Import ListNotations.
Open Scope Z_scope.

Lemma firstn_nil16 {A} (l : list A) : firstn 16 l = [] -> l = [].
Proof. destruct l; [reflexivity|discriminate]. Qed.
Lemma firstn_long {A} (l l' m : list A) : firstn 16 l = firstn 16 l' -> length l' = 16%nat -> firstn 16 (l ++ m) = firstn 16 l'.
Proof.
  intros E L. pose proof (f_equal (@length A) E) as K. rewrite !firstn_length, L in K.
  rewrite firstn_app. replace (16 - length l)%nat with 0%nat by lia. rewrite firstn_O, app_nil_r. exact E.
Qed.

Section Hist.
  Variables (dbg : bool) (live : Z -> bool) (e : env) (iv : list Z).
  Ltac inv H := let a := fresh "v" in let E := fresh "Q" in apply bind_Ok in H; destruct H as [a [E H]].
  Notation prepare := (prepareKeysAndInputs dbg live e iv).
  Notation history := (history dbg live e iv).
  Notation happens := (happens dbg live e iv).

  Definition tracked (S0 S : server) (st : option prep_draws) : Prop :=
    match st with None => like0 S S0 | Some p => exists T, prepare S0 p = Ok T /\ like S T end.

  Lemma like_sym S T : like S T -> like T S.
  Proof. intros H. symmetry. exact H. Qed.
  Lemma like_like0 S' S S0 : fresh_server S0 -> like S' S -> like0 S S0 -> like0 S' S0.
  Proof.
    intros [F1 [F2 [F3 [F4 _]]]] L L0. apply like_fields in L. apply like0_fields in L0.
    destruct L as [A0 [A1 [A2 [A3 [_ [_ [A4 [A5 [A6 [A7 [_ [_ [A8 A9]]]]]]]]]]]]]. destruct L0 as [B0 [B1 [B2 [B3 [B4 [B5 [B6 [B7 [B8 B9]]]]]]]]].
    rewrite B4, F1 in A4. rewrite B5, F2 in A5. rewrite B6, F3 in A6. rewrite B7, F4 in A7. apply firstn_nil16 in A4, A5, A6, A7.
    unfold like0, blank0. rewrite A0, A1, A2, A3, A4, A5, A6, A7, A8, A9, B0, B1, B2, B3, B8, B9, F1, F2, F3, F4. reflexivity.
  Qed.
  Lemma tracked_like S0 S' S st : fresh_server S0 -> like S' S -> tracked S0 S st -> tracked S0 S' st.
  Proof.
    intros F L. destruct st as [p|]; cbn [tracked].
    - intros [T [E K]]. exists T. split; [exact E|]. unfold like in *. congruence.
    - intros K. apply (like_like0 _ _ _ F L K).
  Qed.
  Lemma tracked_config S0 S st : tracked S0 S st -> config S = config S0.
  Proof.
    destruct st as [p|]; cbn [tracked].
    - intros [T [E L]]. apply like_config in L. apply prepare_keeps in E. destruct L as [L _], E as [E _]. congruence.
    - intros L. apply like0_fields in L. destruct L as [A [B [D [G _]]]]. unfold config. congruence.
  Qed.
  Lemma tracked_lengths S0 S st : fresh_server S0 -> tracked S0 S st -> length (Si0 S) = 16%nat /\ length (Si1 S) = 16%nat.
  Proof.
    intros [_ [_ [_ [_ [F5 F6]]]]]. destruct st as [p|]; cbn [tracked].
    - intros [T [E L]]. apply like_config in L. apply prepare_keeps in E. destruct L as [_ [-> ->]], E as [_ [-> ->]]. rewrite F5, F6. split; reflexivity.
    - intros L. apply like0_fields in L. destruct L as [_ [_ [_ [_ [_ [_ [_ [_ [-> ->]]]]]]]]]. rewrite F5, F6. split; reflexivity.
  Qed.

  Lemma agree_fresh {A} (x : A) (l : list A) : length l = 16%nat -> nth_error l 0 = nth_error (repeat x 16) 0 -> agree 15 l (repeat x 16).
  Proof.
    intros L N. split; [rewrite repeat_length; exact L|]. intros i [->|I]; [exact N|].
    rewrite !(proj2 (nth_error_None _ _)); [reflexivity|rewrite repeat_length; lia|lia].
  Qed.

  (** preparing again *)
  Lemma again_alike S0 S T p d : fresh_server S0 -> prepare S0 p = Ok T -> like S T -> alike like (prepare S d) (prepare S0 (keep_keys p d)).
  Proof.
    intros F E L. pose proof (tracked_config S0 S (Some p)) as CF. pose proof (tracked_lengths S0 S (Some p) F) as LN.
    assert (TR : tracked S0 S (Some p)) by (exists T; split; assumption). specialize (CF TR). specialize (LN TR). clear TR.
    destruct F as [F1 [F2 [F3 [F4 [F5 F6]]]]]. pose proof (prepare_keys _ _ _ _ _ _ _ E) as [o [EO [K1 [K2 [K3 [K4 [N0 N1]]]]]]].
    apply like_fields in L. destruct L as [A0 [A1 [A2 [A3 [_ [_ [A4 [A5 [A6 [A7 [_ [_ [A8 A9]]]]]]]]]]]]].
    rewrite F1 in K1. rewrite F2 in K2. rewrite F3 in K3. rewrite F4 in K4. cbn [app] in K1, K2, K3, K4.
    assert (LM : forall (f : nat -> Z), length (map f (seq 0 16)) = 16%nat) by (intros f; rewrite map_length, seq_length; reflexivity).
    unfold config in CF.
    apply prepare_alike.
    - unfold before, keep_keys. cbn [d_kopprf d_r d_lt d_eq d_gt d_ok]. rewrite F1, F2, F3. cbn [app].
      rewrite K1 in A4. rewrite K2 in A5. rewrite K3 in A6.
      repeat (match goal with |- _ /\ _ => split end); try congruence; try (apply firstn_long; [assumption|apply LM]).
      + rewrite F5. apply agree_fresh; [apply LN|]. rewrite A8, N0, F5. reflexivity.
      + rewrite F6. apply agree_fresh; [apply LN|]. rewrite A9, N1, F6. reflexivity.
    - cbn [keep_keys d_ok]. intros o1 o2 E1 E2. rewrite EO in E2. apply Ok_inj in E2. subst o2. rewrite F4. cbn [app].
      apply firstn_long; [rewrite A7, K4; reflexivity|]. rewrite (mapM_length _ _ _ EO). apply seq_length.
  Qed.
  Lemma prepare_tracked S0 S st d : fresh_server S0 -> tracked S0 S st ->
    alike like (prepare S d) (prepare S0 (match st with None => d | Some p => keep_keys p d end)).
  Proof.
    intros F. destruct st as [p|]; cbn [tracked].
    - intros [T [E L]]. apply (again_alike S0 S T p d F E L).
    - intros L. apply prepare_like. exact L.
  Qed.

  Lemma happens_tracked S0 S C st v S' C' : fresh_server S0 -> tracked S0 S st -> happens (S, C) v = Ok (S', C') -> tracked S0 S' (effect st v).
  Proof.
    intros F TR H. destruct v; cbn [SpecOpprf.happens effect] in *.
    - inv H. apply Ok_inj in H. assert (v = S') as -> by congruence. pose proof (prepare_tracked S0 S st d F TR) as A. rewrite Q in A.
      destruct (prepare S0 _) as [T|f] eqn:E; cbn [alike] in A; [|destruct A]. exists T. split; [exact E|exact A].
    - inv H. apply Ok_inj in H. assert (fst v0 = S') as <- by congruence. apply runOTRound_keeps in Q. apply (tracked_like S0 _ S st F Q TR).
    - inv H. apply Ok_inj in H. assert (S = S') as <- by congruence. exact TR.
    - inv H. apply Ok_inj in H. assert (v = S') as -> by congruence. cbn [tracked].
      apply (clean_like0 dbg live S0 S d S' F (tracked_config _ _ _ TR) Q).
    - apply Ok_inj in H. assert (S = S') as <- by congruence. exact TR.
    - inv H. apply Ok_inj in H. assert (S = S') as <- by congruence. exact TR.
    - inv H. apply Ok_inj in H. assert (S = S') as <- by congruence. exact TR.
    - inv H. apply Ok_inj in H. assert (S = S') as <- by congruence. exact TR.
    - apply Ok_inj in H. assert (S = S') as <- by congruence. exact TR.
  Qed.
  Lemma history_tracked S0 l : fresh_server S0 -> forall S C st S' C', tracked S0 S st -> history l (S, C) = Ok (S', C') ->
    tracked S0 S' (fold_left effect l st).
  Proof.
    intros F. unfold SpecOpprf.history. induction l as [|v l IH]; intros S C st S' C' TR H; cbn [foldM fold_left] in *.
    - apply Ok_inj in H. assert (S = S') as <- by congruence. exact TR.
    - inv H. destruct v0 as [S1 C1]. apply (IH S1 C1 _ S' C'); [|exact H]. apply (happens_tracked S0 S C st v S1 C1 F TR Q).
  Qed.
  Lemma tracked_start S0 : tracked S0 S0 None.
  Proof. reflexivity. Qed.

  Lemma L_C101_sessions S0 C0 l S C : fresh_server S0 -> history l (S0, C0) = Ok (S, C) -> forall C' d,
    alike same_outcome (session dbg live e iv S C' d)
      (session dbg live e iv S0 C' (match effective l with None => d | Some p => with_prep d (keep_keys p (sd_prep d)) end)).
  Proof.
    intros F H C' d. pose proof (history_tracked S0 l F S0 C0 None S C (tracked_start S0) H) as TR. fold (effective l) in TR.
    apply alike_outcome. destruct (effective l) as [p|].
    - apply session_alike; [|repeat split|apply likec_refl]. apply (prepare_tracked S0 S (Some p) (sd_prep d) F TR).
    - apply session_like; [exact TR|apply likec_refl].
  Qed.
  Lemma L_C101_answers S0 C0 l S C p : fresh_server S0 -> history l (S0, C0) = Ok (S, C) -> effective l = Some p ->
    exists T, prepare S0 p = Ok T /\
      (forall round pk qa qb qc qp u v, alike (fun a b => snd a = snd b)
         (runOTRound dbg live S round pk qa qb qc qp u v) (runOTRound dbg live T round pk qa qb qc qp u v)) /\
      (forall d u v, sendEncryptedMasks dbg live e iv S d u v = sendEncryptedMasks dbg live e iv T d u v).
  Proof.
    intros F H EF. pose proof (history_tracked S0 l F S0 C0 None S C (tracked_start S0) H) as TR. fold (effective l) in TR. rewrite EF in TR.
    destruct TR as [T [E L]]. exists T. split; [exact E|]. split.
    - intros round pk qa qb qc qp u v. pose proof (runOTRound_like dbg live S T round pk qa qb qc qp u v L) as A.
      destruct (runOTRound dbg live S round pk qa qb qc qp u v), (runOTRound dbg live T round pk qa qb qc qp u v); cbn [alike] in *; try exact A.
      apply A.
    - intros d u v. apply masks_like, L.
  Qed.
  Lemma L_C101_early S0 C0 l S C d u v : fresh_server S0 -> history l (S0, C0) = Ok (S, C) -> effective l = None ->
    sendEncryptedMasks dbg live e iv S d u v = Err OutOfBounds.
  Proof.
    intros F H EF. pose proof (history_tracked S0 l F S0 C0 None S C (tracked_start S0) H) as TR. fold (effective l) in TR. rewrite EF in TR.
    apply like0_fields in TR. destruct TR as [_ [_ [_ [_ [_ [_ [_ [K _]]]]]]]]. destruct F as [_ [_ [_ [F4 _]]]].
    unfold sendEncryptedMasks. rewrite K, F4. reflexivity.
  Qed.
End Hist.
