(** Proofs about what the aggregator of private data aggregation sees. *)
From Coq Require Import ZArith Znumtheory Bool List Lia Field.
From Verif Require Import Outcome FieldModel ZpField SpecField FieldProofs ECGroup ECOrder CurveParams CurveFacts EccModel EccProofs SpecEcc EccThms Emb RF DmeModel SpecDme DmeProofs OtModel SpecOt OtProofs PudaModel SpecPuda SpecPuda2 PudaProofs.
Import ListNotations.
Open Scope Z_scope.

Section Puda2.
  Variables (dbg : bool) (live : Z -> bool).
  Notation n := (fieldn CV).
  Let Hn : prime n := prime_n CV good_CV.
  Let HF := field_Fp n Hn.
  Add Field PudaField2 : HF.
  Notation F := (Fp n).
  Notation rf := (rf live CV).
  Notation em := (em n).
  Notation mk := (mk n).
  Infix "+" := (fadd n).
  Infix "*" := (fmul n).
  Infix "-" := (fsub n).
  Notation "'O'" := (f0 n).

  Lemma Setup_pp pp0 rh ra ds ds' pp r pp' r' : Setup dbg live pp0 rh ra ds = Ok (pp, r) ->
    Setup dbg live pp0 rh ra ds' = Ok (pp', r') -> pp = pp'.
  Proof.
    unfold Setup. intros E E'.
    apply bind_Ok in E. destruct E as [G1 [E1 E]]. apply bind_Ok in E. destruct E as [G2 [E2 E]]. apply bind_Ok in E. destruct E as [h [Eh E]].
    apply bind_Ok in E. destruct E as [a [Ea E]]. apply bind_Ok in E. destruct E as [[[[ekv skv] ak] tks] [_ E]].
    apply bind_Ok in E. destruct E as [v1 [_ E]]. apply bind_Ok in E. destruct E as [v2 [_ E]]. injection E as <- _.
    rewrite E1 in E'. cbn [bind] in E'. rewrite E2 in E'. cbn [bind] in E'. rewrite Eh in E'. cbn [bind] in E'.
    apply bind_Ok in E'. destruct E' as [a' [Ea' E']]. apply bind_Ok in E'. destruct E' as [[[[ekv' skv'] ak'] tks'] [_ E']].
    apply bind_Ok in E'. destruct E' as [v1' [_ E']]. apply bind_Ok in E'. destruct E' as [v2' [_ E']]. injection E' as <- _. reflexivity.
  Qed.

  Lemma view_rf c1 c2 rh ra ds ms t : live c1 = true -> live c2 = true -> length ds = length ms ->
    exists v r, view dbg live c1 c2 rh ra ds ms t = Ok v /\ Setup dbg live (puda_new c1 c2) rh ra ds = Ok (v_pp v, r) /\
      v_ak v = em (O - zsum (map (fun d => mk (fst d)) ds)) /\
      rf (vk_1 (v_vk v)) (zsum (map (fun d => mk (snd d)) ds)) /\ rf (vk_2 (v_vk v)) (mk ra) /\
      Forall2 rf (v_ctxts v) (map (fun x => mk (fst (fst x)) * (mk t * mk rh) + mk (snd x)) (combine ds ms)) /\
      Forall2 rf (v_tags v) (map (fun x => mk (snd (fst x)) * (mk t * mk rh) + mk ra * mk (snd x)) (combine ds ms)).
  Proof.
    intros L1 L2 E. destruct (Setup_rf dbg live c1 c2 rh ra ds L1 L2) as [pp [vk [ES [P [K1 K2]]]]].
    unfold view. rewrite ES. cbn [bind].
    destruct (enc_list dbg live pp _ t P ds ms E) as [cs [-> Kc]]. cbn [bind].
    destruct (tag_list dbg live pp _ (val n (mk ra)) (mk ra) t P (mk_val n (mk ra)) ds ms E) as [ts [-> Kt]]. cbn [bind].
    do 2 eexists. split; [reflexivity|]. cbn [v_pp v_ak v_vk v_ctxts v_tags].
    split; [reflexivity|]. split; [reflexivity|]. split; [exact K1|]. split; [exact K2|]. split; [exact Kc|exact Kt].
  Qed.

  Lemma same_list ps qs xs ys : Forall2 rf ps xs -> Forall2 rf qs ys -> (Forall2 same_point ps qs <-> xs = ys).
  Proof.
    intros A. revert qs ys. induction A as [|p x ps xs Hp _ IH]; intros qs ys B; inversion B as [|q y qs' ys' Hq B']; subst.
    - split; [reflexivity|constructor].
    - split; intros H; [inversion H|discriminate H].
    - split; intros H; [inversion H|discriminate H].
    - specialize (IH _ _ B'). split; intros H.
      + inversion H as [|? ? ? ? H1 H2]; subst. apply (same_rf live _ _ _ _ Hp Hq) in H1. apply IH in H2. subst. reflexivity.
      + injection H as -> ->. constructor; [apply (same_rf live _ _ _ _ Hp Hq); reflexivity|apply IH; reflexivity].
  Qed.

  Lemma view_iff c1 c2 rh ra ds ms ds' ms' t v v' : live c1 = true -> live c2 = true -> length ds = length ms -> length ds' = length ms' ->
    view dbg live c1 c2 rh ra ds ms t = Ok v -> view dbg live c1 c2 rh ra ds' ms' t = Ok v' ->
    (same_view v v' <->
     zsum (map (fun d => mk (fst d)) ds) = zsum (map (fun d => mk (fst d)) ds') /\
     zsum (map (fun d => mk (snd d)) ds) = zsum (map (fun d => mk (snd d)) ds') /\
     map (fun x => mk (fst (fst x)) * (mk t * mk rh) + mk (snd x)) (combine ds ms) =
     map (fun x => mk (fst (fst x)) * (mk t * mk rh) + mk (snd x)) (combine ds' ms') /\
     map (fun x => mk (snd (fst x)) * (mk t * mk rh) + mk ra * mk (snd x)) (combine ds ms) =
     map (fun x => mk (snd (fst x)) * (mk t * mk rh) + mk ra * mk (snd x)) (combine ds' ms')).
  Proof.
    intros L1 L2 Q Q' E E'.
    destruct (view_rf c1 c2 rh ra ds ms t L1 L2 Q) as [w [r [Ew [ES [A [V1 [V2 [C T]]]]]]]]. rewrite E in Ew. apply Ok_inj in Ew. subst w.
    destruct (view_rf c1 c2 rh ra ds' ms' t L1 L2 Q') as [w [r' [Ew [ES' [A' [V1' [V2' [C' T']]]]]]]]. rewrite E' in Ew. apply Ok_inj in Ew. subst w.
    unfold same_view. rewrite (same_list _ _ _ _ C C'), (same_list _ _ _ _ T T'), (same_rf live _ _ _ _ V1 V1'), (same_rf live _ _ _ _ V2 V2').
    rewrite A, A'. pose proof (Setup_pp _ _ _ _ _ _ _ _ _ ES ES') as P. split.
    - intros [_ [H1 [H2 [_ [H3 H4]]]]]. split; [|split; [exact H2|split; [exact H3|exact H4]]]. apply em_inj in H1.
      set (x := zsum (map (fun d => mk (fst d)) ds)) in *. set (y := zsum (map (fun d => mk (fst d)) ds')) in *.
      transitivity (O - (O - x)); [ring|]. rewrite H1. ring.
    - intros [H1 [H2 [H3 H4]]]. split; [exact P|]. split; [rewrite H1; reflexivity|]. split; [exact H2|]. split; [reflexivity|]. split; [exact H3|exact H4].
  Qed.

  (** the keys that make other messages fit *)
  Fixpoint refit (u a : F) (ds : list (Z * Z)) (ms ms' : list Z) : list (Z * Z) :=
    match ds, ms, ms' with
    | d :: ds, m :: ms, m' :: ms' =>
        (val n (mk (fst d) + (mk m - mk m') * u), val n (mk (snd d) + a * (mk m - mk m') * u)) :: refit u a ds ms ms'
    | _, _, _ => []
    end.
  Lemma refit_spec u w a : w * u = f1 n -> forall ds ms ms', length ds = length ms -> length ms' = length ms ->
    let ds' := refit u a ds ms ms' in
    length ds' = length ms' /\ Forall draws ds' /\
    zsum (map (fun d => mk (fst d)) ds') = zsum (map (fun d => mk (fst d)) ds) + (mk (sumz ms) - mk (sumz ms')) * u /\
    zsum (map (fun d => mk (snd d)) ds') = zsum (map (fun d => mk (snd d)) ds) + a * (mk (sumz ms) - mk (sumz ms')) * u /\
    map (fun x => mk (fst (fst x)) * w + mk (snd x)) (combine ds' ms') = map (fun x => mk (fst (fst x)) * w + mk (snd x)) (combine ds ms) /\
    map (fun x => mk (snd (fst x)) * w + a * mk (snd x)) (combine ds' ms') = map (fun x => mk (snd (fst x)) * w + a * mk (snd x)) (combine ds ms).
  Proof.
    intros W. induction ds as [|d ds IH]; intros ms ms' Q Q'; destruct ms as [|m ms]; try discriminate Q; destruct ms' as [|m' ms']; try discriminate Q'.
    - cbn [refit length combine map zsum sumz fold_right]. split; [reflexivity|]. split; [constructor|]. 
      split; [ring|]. split; [ring|]. split; reflexivity.
    - destruct (IH ms ms') as [I1 [I2 [I3 [I4 [I5 I6]]]]]; [injection Q; auto|injection Q'; auto|].
      cbn [refit length combine map zsum fst snd] in *. change (sumz (m :: ms)) with (m + sumz ms)%Z. change (sumz (m' :: ms')) with (m' + sumz ms')%Z.
      rewrite I3, I4, I5, I6, !mk_val. rewrite <- !mk_add. split; [rewrite I1; reflexivity|]. split.
      + constructor; [|exact I2]. split; cbn [fst snd]; apply (val_range n Hn).
      + split; [ring|]. split; [ring|]. split; (apply f_equal2; [|reflexivity]).
        * transitivity (mk (fst d) * w + (w * u) * (mk m - mk m') + mk m'); [ring|]. rewrite W. ring.
        * transitivity (mk (snd d) * w + a * (w * u) * (mk m - mk m') + a * mk m'); [ring|]. rewrite W. ring.
  Qed.

  Lemma cons_inj (A : Type) (x y : A) l l' : x :: l = y :: l' -> x = y /\ l = l'.
  Proof. intros H. split; [exact (f_equal (hd x) H)|exact (f_equal (@tl A) H)]. Qed.
  Lemma range_eq x y : 0 <= x < order -> 0 <= y < order -> mk x = mk y -> x = y.
  Proof. intros A B E. apply mk_order_eq in E. destruct E as [k E]. assert (k = 0)%Z by nia. lia. Qed.

  Lemma keys_unique w u a : w * u = f1 n -> forall ds ds' ms, length ds = length ms -> length ds' = length ms -> Forall draws ds -> Forall draws ds' ->
    map (fun x => mk (fst (fst x)) * w + mk (snd x)) (combine ds ms) = map (fun x => mk (fst (fst x)) * w + mk (snd x)) (combine ds' ms) ->
    map (fun x => mk (snd (fst x)) * w + a * mk (snd x)) (combine ds ms) = map (fun x => mk (snd (fst x)) * w + a * mk (snd x)) (combine ds' ms) ->
    ds = ds'.
  Proof.
    intros W. induction ds as [|d ds IH]; intros ds' ms Q Q' D D' A B; destruct ms as [|m ms]; try discriminate Q; destruct ds' as [|d' ds']; try discriminate Q'.
    - reflexivity.
    - cbn [combine map fst snd] in A, B. inversion D as [|? ? [R1 R2] D2]; subst. inversion D' as [|? ? [R1' R2'] D2']; subst.
      apply cons_inj in A. destruct A as [A1 A2]. apply cons_inj in B. destruct B as [B1 B2].
      assert (C : forall x y z, x * w + z = y * w + z -> x = y).
      { intros x y z H. transitivity ((x * w + z - z) * u); [transitivity (x * (w * u)); [rewrite W; ring|ring]|].
        rewrite H. transitivity (y * (w * u)); [ring|rewrite W; ring]. }
      rewrite (IH ds' ms); [|injection Q; auto|injection Q'; auto|assumption|assumption|exact A2|exact B2].
      f_equal. destruct d as [x y], d' as [x' y']. cbn [fst snd] in *. f_equal; apply range_eq; try assumption; [exact (C _ _ _ A1)|exact (C _ _ _ B1)].
  Qed.

  Lemma L_C85_total c1 c2 rh ra ds ms t : live c1 = true -> live c2 = true -> length ds = length ms ->
    exists v, view dbg live c1 c2 rh ra ds ms t = Ok v.
  Proof. intros L1 L2 Q. destruct (view_rf c1 c2 rh ra ds ms t L1 L2 Q) as [v [r [E _]]]. exists v. exact E. Qed.

  Lemma L_C85_reveals c1 c2 rh ra ds ms ds' ms' t v v' : live c1 = true -> live c2 = true -> length ds = length ms -> length ds' = length ms' ->
    view dbg live c1 c2 rh ra ds ms t = Ok v -> view dbg live c1 c2 rh ra ds' ms' t = Ok v' -> same_view v v' ->
    (order | (sumz ms - sumz ms')%Z)%Z.
  Proof.
    intros L1 L2 Q I1 E E' S. apply (view_iff c1 c2 rh ra ds ms ds' ms' t v v' L1 L2 Q I1 E E') in S.
    destruct S as [S1 [_ [S2 _]]]. apply mk_order_eq. set (w := mk t * mk rh) in *.
    pose proof (f_equal zsum S2) as S3. rewrite !(zsum_comb (fun d => mk (fst d)) mk w) in S3 by assumption. rewrite S1, !zsum_mk in S3.
    set (a := zsum (map (fun d => mk (fst d)) ds')) in *. transitivity (a * w + mk (sumz ms) - a * w); [ring|]. rewrite S3. ring.
  Qed.

  Lemma L_C85 c1 c2 rh ra ds ms t v ms' : live c1 = true -> live c2 = true -> length ds = length ms -> length ms' = length ms ->
    ~ (order | rh)%Z -> int32 t -> t <> 0%Z -> view dbg live c1 c2 rh ra ds ms t = Ok v ->
    ((order | (sumz ms - sumz ms')%Z)%Z <->
     exists! ds', length ds' = length ms' /\ Forall draws ds' /\
       exists v', view dbg live c1 c2 rh ra ds' ms' t = Ok v' /\ same_view v v').
  Proof.
    intros L1 L2 Q Q' Nh B Nt E. pose proof (int_order t B Nt) as Nt'.
    rewrite <- mk_order_0 in Nh, Nt'.
    set (w := mk t * mk rh). assert (W : w * (finv n (mk t) * finv n (mk rh)) = f1 n) by (unfold w; field; split; assumption).
    set (u := finv n (mk t) * finv n (mk rh)) in *. clearbody u.
    split.
    - intros D. apply mk_order_eq in D. 
      destruct (refit_spec u w (mk ra) W ds ms ms' Q Q') as [I1 [I2 [I3 [I4 [I5 I6]]]]]. set (ds' := refit u (mk ra) ds ms ms') in *.
      exists ds'. split.
      + split; [exact I1|]. split; [exact I2|]. destruct (L_C85_total c1 c2 rh ra ds' ms' t L1 L2 I1) as [v' E']. exists v'. split; [exact E'|].
        apply (view_iff c1 c2 rh ra ds ms ds' ms' t v v' L1 L2 Q I1 E E'). rewrite I3, I4. split; [rewrite D; ring|]. split; [rewrite D; ring|].
        split; symmetry; [exact I5|exact I6].
      + intros ds2 [J1 [J2 [v2 [E2 J3]]]]. apply (view_iff c1 c2 rh ra ds ms ds2 ms' t v v2 L1 L2 Q J1 E E2) in J3.
        destruct J3 as [_ [_ [J3 J4]]]. fold w in J3, J4. apply (keys_unique w u (mk ra) W ds' ds2 ms' I1 J1 I2 J2).
        * rewrite I5. exact J3.
        * rewrite I6. exact J4.
    - intros [ds' [[I1 [_ [v' [E' S]]]] _]]. exact (L_C85_reveals c1 c2 rh ra ds ms ds' ms' t v v' L1 L2 Q I1 E E' S).
  Qed.

  (** ** Two timestamps *)
  Lemma cross_rf A B x y t1 t2 : rf A x -> rf B y -> exists R, cross dbg live A B t1 t2 = Ok R /\ rf R (mk t2 * x - mk t1 * y).
  Proof.
    intros KA KB. unfold cross. destruct (pmulz_rf dbg live CV good_CV _ _ t2 KA) as [P [-> KP]]. cbn [bind].
    destruct (pmulz_rf dbg live CV good_CV _ _ (- t1) KB) as [Q [-> KQ]]. cbn [bind].
    destruct (padd_rf dbg live CV good_CV _ _ _ _ KP KQ) as [R [-> K]]. exists R. split; [reflexivity|].
    apply (rf_cong live CV _ _ _ K). rewrite <- mk_opp. ring.
  Qed.

  Lemma L_C86 pp rh ek m1 t1 c1 m2 t2 c2 : multiple live (ppg1 pp) 1 -> multiple live (pphash pp) rh -> scal ek ->
    PEnc dbg live pp ek m1 t1 = Ok c1 -> PEnc dbg live pp ek m2 t2 = Ok c2 ->
    exists R, cross dbg live c1 c2 t1 t2 = Ok R /\ multiple live R (t2 * m1 - t1 * m2)%Z.
  Proof.
    intros G H S E1 E2. apply (multiple_rf live) in G, H. change (mk 1) with (f1 n) in G.
    rewrite (em_surj n ek S) in *. set (k := mk (fval ek)) in *. clearbody k.
    destruct (PEnc_rf' dbg live pp _ k m1 t1 G H) as [R [E K1]]. rewrite E1 in E. apply Ok_inj in E. subst R.
    destruct (PEnc_rf' dbg live pp _ k m2 t2 G H) as [R [E K2]]. rewrite E2 in E. apply Ok_inj in E. subst R.
    destruct (cross_rf _ _ _ _ t1 t2 K1 K2) as [R [ER KR]]. exists R. split; [exact ER|]. apply (multiple_rf live).
    apply (rf_cong live CV _ _ _ KR). rewrite <- mk_sub, <- !mk_mul. ring.
  Qed.

  (** the guesses that agree with the difference *)
  Lemma small_int t1 t2 m1 m2 x1 x2 : int32 t1 -> int32 t2 -> u16 m1 -> u16 m2 -> u16 x1 -> u16 x2 ->
    (order | ((t2 * m1 - t1 * m2) - (t2 * x1 - t1 * x2))%Z)%Z -> (t2 * (m1 - x1) = t1 * (m2 - x2))%Z.
  Proof.
    unfold int32, u16. intros T1 T2 M1 M2 X1 X2 [k D]. assert (O1 : (2 ^ 60 < order)%Z) by (vm_compute; reflexivity).
    assert (A : (- 2 ^ 60 < (t2 * m1 - t1 * m2) - (t2 * x1 - t1 * x2) < 2 ^ 60)%Z).
    { replace ((t2 * m1 - t1 * m2) - (t2 * x1 - t1 * x2))%Z with (t2 * (m1 - x1) - t1 * (m2 - x2))%Z by ring.
      assert (P : forall t d, (- 2 ^ 31 <= t < 2 ^ 31 -> -65536 < d < 65536 -> - 2 ^ 47 <= t * d <= 2 ^ 47)%Z) by (intros; nia).
      pose proof (P t2 (m1 - x1)%Z T2 ltac:(lia)). pose proof (P t1 (m2 - x2)%Z T1 ltac:(lia)). lia. }
    assert (k = 0)%Z by nia. subst k. lia.
  Qed.
  Lemma steps t1 t2 d1 d2 : (t1 <> 0 \/ t2 <> 0)%Z -> (t2 * d1 = t1 * d2 <->
    exists j, d1 = j * (t1 / Z.gcd t1 t2) /\ d2 = j * (t2 / Z.gcd t1 t2))%Z.
  Proof.
    intros N. set (g := Z.gcd t1 t2). assert (G0 : (g <> 0)%Z) by (unfold g; rewrite Z.gcd_eq_0; lia).
    destruct (Z.gcd_divide_l t1 t2) as [a A], (Z.gcd_divide_r t1 t2) as [b B]. fold g in A, B.
    assert (Ea : (t1 / g = a)%Z) by (rewrite A; apply Z.div_mul, G0). assert (Eb : (t2 / g = b)%Z) by (rewrite B; apply Z.div_mul, G0).
    rewrite Ea, Eb. assert (R : (Z.gcd a b = 1)%Z) by (rewrite <- Ea, <- Eb; apply Z.gcd_div_gcd; [exact G0|reflexivity]).
    rewrite A, B. split.
    - intros E. assert (E' : (b * d1 = a * d2)%Z) by (apply (Z.mul_reg_l _ _ g G0); nia).
      destruct (Z.eq_dec a 0) as [->|Na].
      + assert (Hb : (b = 1 \/ b = -1)%Z) by (rewrite Z.gcd_0_l in R; lia). exists (d2 * b)%Z. destruct Hb; subst b; lia.
      + assert (D : (a | d1)%Z). { apply Z.gauss with b; [exists d2; lia|]. exact R. }
        destruct D as [j D]. exists j. split; [exact D|]. subst d1. apply (Z.mul_reg_l _ _ a Na). lia.
    - intros [j [-> ->]]. ring.
  Qed.

  Lemma L_C86_guess t1 t2 m1 m2 R x1 x2 : int32 t1 -> int32 t2 -> (t1 <> 0 \/ t2 <> 0)%Z -> u16 m1 -> u16 m2 -> u16 x1 -> u16 x2 ->
    multiple live R (t2 * m1 - t1 * m2)%Z ->
    (den CV R = gmul CV (t2 * x1 - t1 * x2) (ggen CV) <->
     exists j, x1 = (m1 + j * (t1 / Z.gcd t1 t2))%Z /\ x2 = (m2 + j * (t2 / Z.gcd t1 t2))%Z).
  Proof.
    intros T1 T2 N M1 M2 X1 X2 [_ ->].
    assert (A : gmul CV (t2 * m1 - t1 * m2) (ggen CV) = gmul CV (t2 * x1 - t1 * x2) (ggen CV) <-> (t2 * (x1 - m1) = t1 * (x2 - m2))%Z).
    { split.
      - intros E. apply (gk_eq CV good_CV) in E. change (c_order CV) with order in E. pose proof (small_int _ _ _ _ _ _ T1 T2 M1 M2 X1 X2 E). lia.
      - intros E. replace (t2 * m1 - t1 * m2)%Z with (t2 * x1 - t1 * x2)%Z by lia. reflexivity. }
    rewrite A, (steps t1 t2 _ _ N). split; intros [j [J1 J2]]; exists j; split; lia.
  Qed.

  Lemma L_C86_determined t1 t2 m1 m2 R x1 x2 : int32 t1 -> int32 t2 -> (Z.gcd t1 t2 = 1)%Z -> (65536 <= Z.abs t1 \/ 65536 <= Z.abs t2)%Z ->
    u16 m1 -> u16 m2 -> u16 x1 -> u16 x2 -> multiple live R (t2 * m1 - t1 * m2)%Z ->
    (den CV R = gmul CV (t2 * x1 - t1 * x2) (ggen CV) <-> x1 = m1 /\ x2 = m2).
  Proof.
    intros T1 T2 G Big M1 M2 X1 X2 K. rewrite (L_C86_guess t1 t2 m1 m2 R x1 x2 T1 T2 ltac:(lia) M1 M2 X1 X2 K). rewrite G, !Z.div_1_r. unfold u16 in *. split.
    - intros [j [J1 J2]]. assert (j = 0)%Z by nia. subst j. lia.
    - intros [-> ->]. exists 0%Z. lia.
  Qed.

  (** and nothing else is in the two ciphertexts *)
  Lemma L_C86_fits pp rh ek m1 t1 c1 m2 t2 c2 x1 x2 : multiple live (ppg1 pp) 1 -> multiple live (pphash pp) rh -> scal ek ->
    ~ (order | rh)%Z -> int32 t1 -> t1 <> 0%Z -> int32 t2 -> t2 <> 0%Z -> u16 m1 -> u16 m2 -> u16 x1 -> u16 x2 ->
    PEnc dbg live pp ek m1 t1 = Ok c1 -> PEnc dbg live pp ek m2 t2 = Ok c2 ->
    ((t2 * m1 - t1 * m2 = t2 * x1 - t1 * x2)%Z <->
     exists! ek', scal ek' /\ exists c1' c2', PEnc dbg live pp ek' x1 t1 = Ok c1' /\ PEnc dbg live pp ek' x2 t2 = Ok c2' /\
       same_point c1' c1 /\ same_point c2' c2).
  Proof.
    intros G H S Nh T1 N1 T2 N2 M1 M2 X1 X2 E1 E2. pose proof (int_order _ T1 N1) as D1. pose proof (int_order _ T2 N2) as D2.
    rewrite <- mk_order_0 in Nh, D1, D2. apply (multiple_rf live) in G, H. change (mk 1) with (f1 n) in G.
    rewrite (em_surj n ek S) in *. set (k := mk (fval ek)) in *. clearbody k.
    destruct (PEnc_rf' dbg live pp _ k m1 t1 G H) as [R [E K1]]. rewrite E1 in E. apply Ok_inj in E. subst R.
    destruct (PEnc_rf' dbg live pp _ k m2 t2 G H) as [R [E K2]]. rewrite E2 in E. apply Ok_inj in E. subst R.
    assert (A : forall k', (exists c1' c2', PEnc dbg live pp (em k') x1 t1 = Ok c1' /\ PEnc dbg live pp (em k') x2 t2 = Ok c2' /\
       same_point c1' c1 /\ same_point c2' c2) <-> 
       (k' * (mk t1 * mk rh) + mk x1 = k * (mk t1 * mk rh) + mk m1 /\ k' * (mk t2 * mk rh) + mk x2 = k * (mk t2 * mk rh) + mk m2)).
    { intros k'. destruct (PEnc_rf' dbg live pp _ k' x1 t1 G H) as [R1 [F1 J1]]. destruct (PEnc_rf' dbg live pp _ k' x2 t2 G H) as [R2 [F2 J2]].
      split.
      - intros [a [b [Fa [Fb [Q1 Q2]]]]]. rewrite F1 in Fa. apply Ok_inj in Fa. subst a. rewrite F2 in Fb. apply Ok_inj in Fb. subst b.
        apply (same_rf live _ _ _ _ J1 K1) in Q1. apply (same_rf live _ _ _ _ J2 K2) in Q2. split; assumption.
      - intros [Q1 Q2]. exists R1, R2. split; [exact F1|]. split; [exact F2|]. split; [apply (same_rf live _ _ _ _ J1 K1), Q1|apply (same_rf live _ _ _ _ J2 K2), Q2]. }
    split.
    - intros Q. set (k' := k + (mk m1 - mk x1) * finv n (mk t1 * mk rh)).
      assert (Nz : mk t1 * mk rh <> O). { intros Z0. apply fmul_0 in Z0; [|exact Hn]. destruct Z0; contradiction. }
      assert (Q' : mk t2 * mk m1 - mk t1 * mk m2 = mk t2 * mk x1 - mk t1 * mk x2) by (rewrite !mk_mul, !mk_sub, Q; reflexivity).
      assert (A1 : k' * (mk t1 * mk rh) + mk x1 = k * (mk t1 * mk rh) + mk m1) by (unfold k'; field; split; assumption).
      exists (em k'). split.
      + split; [apply (em_canon n Hn)|]. apply A. split; [exact A1|].
        (* t1 * (k' t2 h + x2) = t1 (k t2 h + m2) *)
        assert (Z0 : mk t1 * (k' * (mk t2 * mk rh) + mk x2 - (k * (mk t2 * mk rh) + mk m2)) = O).
        { transitivity (mk t2 * (k' * (mk t1 * mk rh) + mk x1 - (k * (mk t1 * mk rh) + mk m1)) + ((mk t2 * mk m1 - mk t1 * mk m2) - (mk t2 * mk x1 - mk t1 * mk x2))); [ring|].
          rewrite A1, Q'. ring. }
        apply fmul_0 in Z0; [|exact Hn]. destruct Z0 as [Z0|Z0]; [contradiction|]. exact (fsub0 _ _ Z0).
      + intros e [Se He]. rewrite (em_surj n e Se) in *. set (k2 := mk (fval e)) in *. clearbody k2. apply A in He. destruct He as [He _]. f_equal.
        assert (Z0 : (k' - k2) * (mk t1 * mk rh) = O).
        { transitivity ((k' * (mk t1 * mk rh) + mk x1) - (k2 * (mk t1 * mk rh) + mk x1)); [ring|]. rewrite A1, He. ring. }
        apply fmul_0 in Z0; [|exact Hn]. destruct Z0 as [Z0|Z0]; [exact (fsub0 _ _ Z0)|contradiction].
    - intros [e [[Se He] _]]. rewrite (em_surj n e Se) in He. set (k2 := mk (fval e)) in *. clearbody k2. apply A in He. destruct He as [H1 H2].
      enough (D : (order | ((t2 * m1 - t1 * m2) - (t2 * x1 - t1 * x2))%Z)%Z) by (pose proof (small_int _ _ _ _ _ _ T1 T2 M1 M2 X1 X2 D); lia).
      apply mk_order_eq. rewrite <- !mk_sub, <- !mk_mul.
      transitivity (mk t2 * (k * (mk t1 * mk rh) + mk m1) - mk t1 * (k * (mk t2 * mk rh) + mk m2)); [ring|]. rewrite <- H1, <- H2. ring.
  Qed.
End Puda2.
