(** Proofs about what is seen over several timestamps (C94). *)
From Coq Require Import ZArith Znumtheory Bool List Lia Field.
From Verif Require Import Outcome FieldModel ZpField SpecField FieldProofs ECGroup ECOrder CurveParams CurveFacts EccModel EccProofs SpecEcc EccThms Emb RF DmeModel SpecDme DmeProofs OtModel SpecOt OtProofs PudaModel SpecPuda SpecPuda2 SpecPuda3 PudaProofs PudaProofs2.
Import ListNotations.
Open Scope Z_scope.

Section Puda3.
  Variables (dbg : bool) (live : Z -> bool).
  Notation n := (fieldn CV).
  Let Hn : prime n := prime_n CV good_CV.
  Let HF := field_Fp n Hn.
  Add Field PudaField3 : HF.
  Notation F := (Fp n).
  Notation mk := (mk n).
  Infix "+" := (fadd n).
  Infix "*" := (fmul n).
  Infix "-" := (fsub n).
  Notation "'O'" := (f0 n).

  Lemma map_combine (g : Z * Z -> Z -> F) : forall ds ms ds' ms', length ds = length ms -> length ds' = length ds -> length ms' = length ds ->
    (map (fun x => g (fst x) (snd x)) (combine ds ms) = map (fun x => g (fst x) (snd x)) (combine ds' ms') <->
     forall i, (i < length ds)%nat -> g (nth i ds (0, 0)%Z) (nth i ms 0%Z) = g (nth i ds' (0, 0)%Z) (nth i ms' 0%Z)).
  Proof.
    induction ds as [|d ds IH]; intros [|m ms] [|d' ds'] [|m' ms'] A B C; try discriminate A; try discriminate B; try discriminate C.
    - split; [intros _ i H; inversion H|reflexivity].
    - cbn [combine map length fst snd]. split.
      + intros E. apply cons_inj in E. destruct E as [E1 E2]. intros [|i] H; [exact E1|]. cbn [nth]. apply (IH ms ds' ms'); [injection A; auto|injection B; auto|injection C; auto|exact E2|lia].
      + intros H. apply f_equal2; [exact (H 0%nat ltac:(lia))|]. apply (IH ms ds' ms'); [injection A; auto|injection B; auto|injection C; auto|]. intros i I. exact (H (Datatypes.S i) ltac:(lia)).
  Qed.

  Definition moved (u a : F) (x : (Z * Z) * Z) : Z * Z :=
    (val n (mk (fst (fst x)) + mk (snd x) * u), val n (mk (snd (fst x)) + a * mk (snd x) * u)).
  Lemma moved_sum u a : forall ds sh, length sh = length ds ->
    zsum (map (fun d => mk (fst d)) (map (moved u a) (combine ds sh))) = zsum (map (fun d => mk (fst d)) ds) + mk (sumz sh) * u /\
    zsum (map (fun d => mk (snd d)) (map (moved u a) (combine ds sh))) = zsum (map (fun d => mk (snd d)) ds) + a * mk (sumz sh) * u.
  Proof.
    induction ds as [|d ds IH]; intros [|s sh] L; try discriminate L.
    - cbn [combine map zsum sumz fold_right]. change (mk 0) with O. split; ring.
    - destruct (IH sh) as [I1 I2]; [injection L; auto|]. cbn [combine map zsum]. rewrite I1, I2. unfold moved. cbn [fst snd]. rewrite !mk_val.
      change (sumz (s :: sh)) with (s + sumz sh)%Z. rewrite <- mk_add. split; ring.
  Qed.
  Lemma moved_nth u a ds sh i : length sh = length ds -> (i < length ds)%nat ->
    nth i (map (moved u a) (combine ds sh)) (0, 0)%Z = moved u a (nth i ds (0, 0)%Z, nth i sh 0%Z).
  Proof.
    intros L I. rewrite (nth_indep _ (0, 0)%Z (moved u a (0, 0, 0)%Z)) by (rewrite map_length, combine_length; lia). rewrite map_nth. rewrite combine_nth by (symmetry; exact L). reflexivity.
  Qed.

  Lemma mapM_view c1 c2 rh ra ds hist : live c1 = true -> live c2 = true -> complete (length ds) hist ->
    exists vs, views dbg live c1 c2 rh ra ds hist = Ok vs /\ Forall2 (fun h v => view dbg live c1 c2 rh ra ds (snd h) (fst h) = Ok v) hist vs.
  Proof.
    intros L1 L2 H. induction H as [|[t ms] hist A _ IH]; [exists []; split; [reflexivity|constructor]|]. destruct IH as [vs [E G]]. cbn [snd] in A.
    destruct (L_C85_total dbg live c1 c2 rh ra ds ms t L1 L2 (eq_sym A)) as [v V]. exists (v :: vs). split; [|constructor; [exact V|exact G]].
    unfold views in *. cbn [mapM fst snd]. rewrite V. cbn [bind]. rewrite E. reflexivity.
  Qed.
  Lemma views_each c1 c2 rh ra ds : forall hist vs, views dbg live c1 c2 rh ra ds hist = Ok vs ->
    Forall2 (fun h v => view dbg live c1 c2 rh ra ds (snd h) (fst h) = Ok v) hist vs.
  Proof.
    induction hist as [|h hist IH]; intros vs E; unfold views in *; cbn [mapM] in E; [apply Ok_inj in E; subst vs; constructor|].
    apply bind_Ok in E. destruct E as [v [V E]]. apply bind_Ok in E. destruct E as [ws [W E]]. apply Ok_inj in E. subst vs. constructor; [exact V|exact (IH ws W)].
  Qed.

  Lemma L_C94_total c1 c2 rh ra ds hist : live c1 = true -> live c2 = true -> complete (length ds) hist -> exists vs, views dbg live c1 c2 rh ra ds hist = Ok vs.
  Proof. intros L1 L2 H. destruct (mapM_view c1 c2 rh ra ds hist L1 L2 H) as [vs [E _]]. exists vs. exact E. Qed.

  (** one timestamp *)
  Lemma view_moved c1 c2 rh ra ds ms ms' t sh u v v' : live c1 = true -> live c2 = true -> length ms = length ds -> length ms' = length ds -> length sh = length ds ->
    mk rh * u = f1 n -> (order | sumz sh)%Z -> (forall i, (i < length sh)%nat -> (order | (nth i ms 0 - nth i ms' 0 - t * nth i sh 0)%Z)%Z) ->
    view dbg live c1 c2 rh ra ds ms t = Ok v -> view dbg live c1 c2 rh ra (map (moved u (mk ra)) (combine ds sh)) ms' t = Ok v' -> same_view v v'.
  Proof.
    intros L1 L2 Q Q' QS U D SH E E'. set (ds' := map (moved u (mk ra)) (combine ds sh)) in *. assert (QD : length ds' = length ds) by (unfold ds'; rewrite map_length, combine_length; lia).
    apply (view_iff dbg live c1 c2 rh ra ds ms ds' ms' t v v' L1 L2 (eq_sym Q) (eq_trans QD (eq_sym Q')) E E'). apply mk_order_0 in D.
    destruct (moved_sum u (mk ra) ds sh QS) as [S1 S2]. fold ds' in S1, S2. rewrite D in S1, S2.
    split; [rewrite S1; ring|]. split; [rewrite S2; ring|].
    assert (P : forall i, (i < length ds)%nat -> mk (nth i ms 0%Z) = mk (nth i ms' 0%Z) + mk t * mk (nth i sh 0%Z)).
    { intros i I. specialize (SH i ltac:(lia)). apply mk_order_0 in SH. rewrite <- !mk_sub, <- mk_mul in SH.
      transitivity ((mk (nth i ms 0%Z) - mk (nth i ms' 0%Z) - mk t * mk (nth i sh 0%Z)) + (mk (nth i ms' 0%Z) + mk t * mk (nth i sh 0%Z))); [ring|]. rewrite SH. ring. }
    split.
    - apply (map_combine (fun d m => mk (fst d) * (mk t * mk rh) + mk m)); [symmetry; exact Q|exact QD|exact Q'|]. intros i I. rewrite (P i I). unfold ds'. rewrite moved_nth by assumption.
      unfold moved. cbn [fst snd]. rewrite mk_val. set (d := mk (fst (nth i ds (0, 0)%Z))). set (s := mk (nth i sh 0%Z)). set (m := mk (nth i ms' 0%Z)).
      transitivity (d * (mk t * mk rh) + (mk t * s) * (mk rh * u) + m); [rewrite U; ring|ring].
    - apply (map_combine (fun d m => mk (snd d) * (mk t * mk rh) + mk ra * mk m)); [symmetry; exact Q|exact QD|exact Q'|]. intros i I. rewrite (P i I). unfold ds'. rewrite moved_nth by assumption.
      unfold moved. cbn [fst snd]. rewrite mk_val. set (d := mk (snd (nth i ds (0, 0)%Z))). set (s := mk (nth i sh 0%Z)). set (m := mk (nth i ms' 0%Z)).
      transitivity (d * (mk t * mk rh) + mk ra * (mk t * s) * (mk rh * u) + mk ra * m); [rewrite U; ring|ring].
  Qed.

  Definition gap (rh : Z) (x : (Z * Z) * (Z * Z)) : Z := val n ((mk (fst (snd x)) - mk (fst (fst x))) * mk rh).
  Lemma gap_sum rh : forall ds ds', length ds' = length ds ->
    mk (sumz (map (gap rh) (combine ds ds'))) = (zsum (map (fun d => mk (fst d)) ds') - zsum (map (fun d => mk (fst d)) ds)) * mk rh.
  Proof.
    induction ds as [|d ds IH]; intros [|d' ds'] L; try discriminate L.
    - cbn [combine map zsum sumz fold_right]. change (mk 0) with O. ring.
    - cbn [combine map zsum]. change (sumz (gap rh (d, d') :: map (gap rh) (combine ds ds'))) with (gap rh (d, d') + sumz (map (gap rh) (combine ds ds')))%Z.
      rewrite <- mk_add, IH by (injection L; auto). unfold gap. cbn [fst snd]. rewrite mk_val. ring.
  Qed.
  Lemma gap_nth rh ds ds' i : length ds' = length ds -> (i < length ds)%nat ->
    mk (nth i (map (gap rh) (combine ds ds')) 0%Z) = (mk (fst (nth i ds' (0, 0)%Z)) - mk (fst (nth i ds (0, 0)%Z))) * mk rh.
  Proof.
    intros L I. rewrite (nth_indep _ 0%Z (gap rh (0, 0, (0, 0))%Z)) by (rewrite map_length, combine_length; lia). rewrite map_nth. rewrite combine_nth by (symmetry; exact L). unfold gap. cbn [fst snd]. apply mk_val.
  Qed.

  Lemma L_C94 (J : nat -> Prop) c1 c2 rh ra ds hist hist' vs : live c1 = true -> live c2 = true -> ~ (order | rh)%Z -> Forall draws ds -> complete (length ds) hist -> complete (length ds) hist' -> map fst hist' = map fst hist ->
    views dbg live c1 c2 rh ra ds hist = Ok vs ->
    ((exists sh, length sh = length ds /\ (order | sumz sh)%Z /\ (forall i, J i -> (order | nth i sh 0)%Z) /\ Forall2 (shifted sh) hist hist') <->
     exists ds' vs', length ds' = length ds /\ Forall draws ds' /\ keys_known J ds ds' /\ views dbg live c1 c2 rh ra ds' hist' = Ok vs' /\ Forall2 same_view vs vs').
  Proof.
    intros L1 L2 Nh DR CH CH' TS V. rewrite <- mk_order_0 in Nh. split.
    - intros [sh [LS [D [KJ SH]]]]. set (u := finv n (mk rh)). assert (U : mk rh * u = f1 n) by (unfold u; field; exact Nh).
      set (ds' := map (moved u (mk ra)) (combine ds sh)). assert (QD : length ds' = length ds) by (unfold ds'; rewrite map_length, combine_length; lia).
      destruct (mapM_view c1 c2 rh ra ds' hist' L1 L2) as [vs' [V' EV']]; [rewrite QD; exact CH'|]. exists ds', vs'. split; [exact QD|]. split; [|split; [|split; [exact V'|]]].
      + unfold ds'. apply Forall_forall. intros x X. apply in_map_iff in X. destruct X as [y [<- _]]. split; apply (val_range n Hn).
      + intros i JI. destruct (Nat.lt_ge_cases i (length ds)) as [I|I].
        * rewrite (nth_error_nth' ds' (0, 0)%Z) by lia. rewrite (nth_error_nth' ds (0, 0)%Z) by exact I. apply f_equal. unfold ds'. rewrite moved_nth by assumption. unfold moved. cbn [fst snd].
          pose proof (proj1 (Forall_forall _ _) DR _ (nth_In ds (0, 0)%Z I)) as [R1 R2]. specialize (KJ i JI). apply mk_order_0 in KJ. rewrite KJ. destruct (nth i ds (0, 0)%Z) as [x y]. cbn [fst snd] in *.
          apply f_equal2.
          -- transitivity (val n (mk x)); [apply (f_equal (val n)); ring|apply draw_val; exact R1].
          -- transitivity (val n (mk y)); [apply (f_equal (val n)); ring|apply draw_val; exact R2].
        * rewrite !(proj2 (nth_error_None _ _)) by lia. reflexivity.
      + apply views_each in V. clear V' TS. revert vs vs' V EV'. induction SH as [|[t ms] [t' ms'] hist hist' [T S] _ IH]; intros vs vs' V W.
        * inversion V; subst. inversion W; subst. constructor.
        * inversion V as [|? v ? vs1 V1 V2]; subst. inversion W as [|? w ? ws1 W1 W2]; subst. cbn [fst snd] in *. subst t'.
          inversion CH as [|? ? C1 C2]; subst. inversion CH' as [|? ? C1' C2']; subst. cbn [snd] in *.
          constructor; [|exact (IH C2 C2' vs1 ws1 V2 W2)].
          apply (view_moved c1 c2 rh ra ds ms ms' t sh u v w L1 L2 C1 C1' LS U D S V1 W1).
    - intros [ds' [vs' [QD [DR' [KJ [V' SV]]]]]]. apply views_each in V, V'.
      destruct hist as [|h0 hist].
      { destruct hist' as [|]; [|discriminate TS]. exists (repeat 0%Z (length ds)). split; [apply repeat_length|]. split; [|split; [|constructor]].
        - assert (Z0 : forall k, sumz (repeat 0%Z k) = 0%Z) by (induction k as [|k IH]; [reflexivity|change (0 + sumz (repeat 0%Z k) = 0)%Z; rewrite IH; reflexivity]). rewrite Z0. exists 0%Z. reflexivity.
        - intros i _. rewrite nth_repeat. exists 0%Z. reflexivity. }
      exists (map (gap rh) (combine ds ds')). assert (LG : length (map (gap rh) (combine ds ds')) = length ds) by (rewrite map_length, combine_length; lia).
      split; [exact LG|]. split; [|split].
      + inversion V as [|? v ? vs1 V1 V2]; subst. destruct hist' as [|h0' hist']; [discriminate TS|]. inversion V' as [|? w ? ws1 W1 W2]; subst. inversion SV as [|? ? ? ? S1 S2]; subst.
        inversion CH as [|? ? C1 C2]; subst. inversion CH' as [|? ? C1' C2']; subst. cbn [map] in TS. injection TS as TS0 _. rewrite TS0 in W1.
        apply (view_iff dbg live c1 c2 rh ra ds (snd h0) ds' (snd h0') (fst h0) v w L1 L2 (eq_sym C1) (eq_trans QD (eq_sym C1')) V1 W1) in S1. destruct S1 as [S1 _].
        apply mk_order_0. rewrite gap_sum by exact QD. rewrite S1. ring.
      + intros i JI. apply mk_order_0. destruct (Nat.lt_ge_cases i (length ds)) as [I|I].
        * rewrite gap_nth by assumption. specialize (KJ i JI). rewrite (nth_error_nth' ds' (0, 0)%Z), (nth_error_nth' ds (0, 0)%Z) in KJ by lia. injection KJ as ->. ring.
        * rewrite nth_overflow by lia. reflexivity.
      + revert hist' vs vs' CH CH' TS V V' SV. generalize (h0 :: hist). clear h0 hist.
        induction l as [|[t ms] hist IH]; intros [|[t' ms'] hist'] vs vs' CH CH' TS V V' SV; try discriminate TS; [constructor|]. cbn [map fst] in TS. injection TS as T TS. subst t'.
        inversion V as [|? v ? vs1 V1 V2]; subst. inversion V' as [|? w ? ws1 W1 W2]; subst. inversion SV as [|? ? ? ? S1 S2]; subst. inversion CH as [|? ? C1 C2]; subst. inversion CH' as [|? ? C1' C2']; subst. cbn [fst snd] in *.
        constructor; [|exact (IH hist' vs1 ws1 C2 C2' TS V2 W2 S2)]. split; [reflexivity|]. cbn [fst snd]. intros i I. rewrite LG in I.
        apply (view_iff dbg live c1 c2 rh ra ds ms ds' ms' t v w L1 L2 (eq_sym C1) (eq_trans QD (eq_sym C1')) V1 W1) in S1. destruct S1 as [_ [_ [S1 _]]].
        pose proof (proj1 (map_combine (fun d m => mk (fst d) * (mk t * mk rh) + mk m) ds ms ds' ms' (eq_sym C1) QD C1') S1 i I) as E. cbn beta in E.
        apply mk_order_0. rewrite <- !mk_sub, <- mk_mul. rewrite gap_nth by assumption. clear S1.
        set (x := mk (fst (nth i ds (0, 0)%Z))) in *. set (y := mk (fst (nth i ds' (0, 0)%Z))) in *. set (m := mk (nth i ms 0%Z)) in *. set (m' := mk (nth i ms' 0%Z)) in *.
        transitivity ((x * (mk t * mk rh) + m) - (y * (mk t * mk rh) + m')); [ring|]. rewrite E. ring.
  Qed.

  Lemma L_C94_unique c1 c2 rh ra hist t ds ds' vs vs' : live c1 = true -> live c2 = true -> ~ (order | rh)%Z -> Forall draws ds -> Forall draws ds' -> length ds' = length ds ->
    complete (length ds) hist -> In t (map fst hist) -> int32 t -> t <> 0%Z ->
    views dbg live c1 c2 rh ra ds hist = Ok vs -> views dbg live c1 c2 rh ra ds' hist = Ok vs' -> Forall2 same_view vs vs' -> ds' = ds.
  Proof.
    intros L1 L2 Nh D D' QD CH IT B Nt V V' SV. pose proof (int_order t B Nt) as Nt'. rewrite <- mk_order_0 in Nh, Nt'. apply views_each in V, V'.
    revert vs vs' V V' SV. induction hist as [|[t0 ms] hist IH]; intros vs vs' V V' SV; [destruct IT|].
    inversion V as [|? v ? vs1 V1 V2]; subst. inversion V' as [|? w ? ws1 W1 W2]; subst. inversion SV as [|? ? ? ? S1 S2]; subst. inversion CH as [|? ? C1 C2]; subst. cbn [map fst snd] in *.
    destruct IT as [->|IT]; [|exact (IH C2 IT vs1 ws1 V2 W2 S2)].
    apply (view_iff dbg live c1 c2 rh ra ds ms ds' ms t v w L1 L2 (eq_sym C1) (eq_trans QD (eq_sym C1)) V1 W1) in S1. destruct S1 as [_ [_ [S1 S3]]].
    symmetry. apply (keys_unique (mk t * mk rh) (finv n (mk t) * finv n (mk rh)) (mk ra)) with (ms := ms); [field; split; assumption|symmetry; exact C1|rewrite QD; symmetry; exact C1|exact D|exact D'|exact S1|exact S3].
  Qed.

  (** a coalition at one timestamp *)
  Lemma L_C94_coalition (J : nat -> Prop) c1 c2 rh ra ds ms t v ms' : live c1 = true -> live c2 = true -> Forall draws ds -> length ds = length ms -> length ms' = length ms ->
    ~ (order | rh)%Z -> int32 t -> t <> 0%Z -> view dbg live c1 c2 rh ra ds ms t = Ok v ->
    (((order | (sumz ms - sumz ms')%Z)%Z /\ forall i, J i -> (order | (nth i ms 0 - nth i ms' 0)%Z)%Z) <->
     exists! ds', length ds' = length ms' /\ Forall draws ds' /\ keys_known J ds ds' /\ exists v', view dbg live c1 c2 rh ra ds' ms' t = Ok v' /\ same_view v v').
  Proof.
    intros L1 L2 DR Q Q' Nh B Nt E. pose proof (L_C85 dbg live c1 c2 rh ra ds ms t v ms' L1 L2 Q Q' Nh B Nt E) as C85.
    assert (K : forall ds' v', length ds' = length ms' -> Forall draws ds' -> view dbg live c1 c2 rh ra ds' ms' t = Ok v' -> same_view v v' ->
      (keys_known J ds ds' <-> forall i, J i -> (order | (nth i ms 0 - nth i ms' 0)%Z)%Z)).
    { intros ds' v' QD DR' E' S. pose proof (int_order t B Nt) as Nt'. rewrite <- mk_order_0 in Nh, Nt'.
      apply (view_iff dbg live c1 c2 rh ra ds ms ds' ms' t v v' L1 L2 Q QD E E') in S. destruct S as [_ [_ [S1 S2]]].
      pose proof (proj1 (map_combine (fun d m => mk (fst d) * (mk t * mk rh) + mk m) ds ms ds' ms' Q ltac:(lia) ltac:(lia)) S1) as A1.
      pose proof (proj1 (map_combine (fun d m => mk (snd d) * (mk t * mk rh) + mk ra * mk m) ds ms ds' ms' Q ltac:(lia) ltac:(lia)) S2) as A2. cbn beta in A1, A2. clear S1 S2.
      split; intros H i JI; specialize (H i JI); destruct (Nat.lt_ge_cases i (length ds)) as [I|I].
      - specialize (A1 i I). rewrite (nth_error_nth' ds' (0, 0)%Z), (nth_error_nth' ds (0, 0)%Z) in H by lia. injection H as H. rewrite H in A1. apply mk_order_eq.
        set (x := mk (fst (nth i ds (0, 0)%Z)) * (mk t * mk rh)) in *. transitivity (x + mk (nth i ms 0%Z) - x); [ring|]. rewrite A1. ring.
      - rewrite !nth_overflow by lia. exists 0%Z. reflexivity.
      - apply mk_order_eq in H. specialize (A1 i I). specialize (A2 i I). rewrite H in A1, A2. rewrite (nth_error_nth' ds' (0, 0)%Z), (nth_error_nth' ds (0, 0)%Z) by lia. apply f_equal.
        pose proof (proj1 (Forall_forall _ _) DR _ (nth_In ds (0, 0)%Z I)) as [R1 R2]. assert (I' : (i < length ds')%nat) by lia. pose proof (proj1 (Forall_forall _ _) DR' _ (nth_In ds' (0, 0)%Z I')) as [R1' R2'].
        assert (C : forall x y z, x * (mk t * mk rh) + z = y * (mk t * mk rh) + z -> x = y).
        { intros x y z H0. transitivity ((x * (mk t * mk rh) + z - z) * (finv n (mk t) * finv n (mk rh))); [field; split; assumption|]. rewrite H0. field. split; assumption. }
        destruct (nth i ds (0, 0)%Z) as [x y], (nth i ds' (0, 0)%Z) as [x' y']. cbn [fst snd] in *. apply f_equal2; apply range_eq; try assumption; symmetry; [exact (C _ _ _ A1)|exact (C _ _ _ A2)].
      - rewrite !(proj2 (nth_error_None _ _)) by lia. reflexivity. }
    split.
    - intros [D KJ]. apply C85 in D. destruct D as [ds' [[I1 [I2 [v' [E' S]]]] UN]]. exists ds'. split.
      + split; [exact I1|]. split; [exact I2|]. split; [apply (K ds' v' I1 I2 E' S); exact KJ|]. exists v'. split; [exact E'|exact S].
      + intros ds2 [J1 [J2 [_ J3]]]. apply UN. split; [exact J1|]. split; [exact J2|exact J3].
    - intros [ds' [[I1 [I2 [I3 [v' [E' S]]]]] _]]. split.
      + exact (L_C85_reveals dbg live c1 c2 rh ra ds ms ds' ms' t v v' L1 L2 Q I1 E E' S).
      + apply (K ds' v' I1 I2 E' S). exact I3.
  Qed.
End Puda3.

(** for the examples *)
Lemma h11 : ~ (order | 11).
Proof. apply DmeProofs.ndiv. split; vm_compute; reflexivity. Qed.
Lemma d3 : Forall draws [(3, 4); (5, 6); (7, 8)].
Proof. repeat constructor; vm_compute; try discriminate; reflexivity. Qed.
