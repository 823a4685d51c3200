(** Someone who listens to an evaluation of the oblivious PRF: the evaluation is a conversation. *)
From Coq Require Import ZArith Znumtheory Bool List Lia.
From Verif Require Import Outcome FieldModel ZpField SpecField FieldProofs ECGroup ECOrder CurveParams CurveFacts EccModel EccProofs SpecEcc EccThms Emb RF DmeModel SpecDme DmeProofs OtModel OtProofs CrcModel AesModel OpprfModel SpecOpprf SpecOpprf2 OpprfProofs OpprfProofs5 OpprfProofs11 SpecCount CountMath SpecDdh SpecDdh2 SpecDdh3 SpecDdh4 SpecDdh5 SpecDdh6 DdhProofs DdhProofs2 DdhMany2 DdhHear DdhHear2 DdhHear4 DdhHear5 DdhWire.
Import ListNotations.
Open Scope Z_scope.

Section Simulate.
  Variables (dbg : bool) (live : Z -> bool) (e : env) (iv : list Z).
  Variable c2 : Z.
  Hypothesis LC2 : live c2 = true.
  Notation point_of := (point_of dbg live c2).
  Notation encMsgs := (encMsgs dbg live).
  Notation selectMsg := (selectMsg dbg live).

  Lemma point_encode D m : dcurve D = Some c2 -> encode dbg live D m = Ok (point_of m).
  Proof.
    intros E. unfold SpecDdh6.point_of.
    assert (X : encode dbg live (dme_new_crs c2 crs_default) m = encode dbg live D m) by (unfold encode; rewrite E; reflexivity).
    rewrite X. destruct (L_C32_encode dbg live c2 D m E LC2) as [i [P [_ [-> _]]]]. reflexivity.
  Qed.
  Lemma point_valid m : is_valid live (point_of m).
  Proof.
    unfold SpecDdh6.point_of. destruct (L_C32_encode dbg live c2 (dme_new_crs c2 crs_default) m eq_refl LC2) as [i [P [_ [-> [F _]]]]]. right. exact F.
  Qed.
  Lemma encZ_is V pk m0 m1 s0 t0 s1 t1 : dcurve (sdme (ots V)) = Some c2 ->
    encZ dbg live V pk m0 m1 (quad_of [s0; t0; s1; t1]) = do r <- encMsgs (ots V) pk (point_of m0) (point_of m1) s0 t0 s1 t1; Ok (set_ots V (fst r), snd r).
  Proof.
    intros E. unfold encZ, encMsgsZ, OtModel.encMsgs, EncZ. cbn [quad_of nth q_s0 q_t0 q_s1 q_t1]. rewrite !(point_encode _ _ E). reflexivity.
  Qed.
  Lemma encMsgs_dme o pk m0 m1 s0 t0 s1 t1 r : encMsgs o pk m0 m1 s0 t0 s1 t1 = Ok r -> sdme (fst r) = sdme o.
  Proof. unfold OtModel.encMsgs. intros H. apply bind_Ok in H. destruct H as [? [_ H]]. apply bind_Ok in H. destruct H as [? [_ H]]. apply Ok_inj in H. subst r. reflexivity. Qed.
  Lemma start_is C x r k : cx C = Some x -> 1 <= r <= 16 ->
    runOTRound_start dbg live C r k = do s <- selectMsg (otr C) (round_bit x r) k; Ok (mkcli (fst s) (ccur C) (cx C) (result C) (key C), snd s).
  Proof.
    intros X R. unfold runOTRound_start. rewrite X. replace r with (Z.of_nat (Datatypes.S (Z.to_nat (r - 1)))) at 1 by lia. rewrite shl1_small by lia. cbn [bind]. cbv zeta.
    rewrite land_pow2 by lia. unfold round_bit. rewrite bit_testbit. destruct (Z.testbit x (Z.of_nat (Z.to_nat (r - 1)))); reflexivity.
  Qed.
  Lemma vat_row (l : list inputi) r : length l = 16%nat -> 0 <= r < 16 -> vat l r = Ok (nth (Z.to_nat r) l inputi_default).
  Proof.
    intros L R. replace r with (Z.of_nat (Z.to_nat r)) at 1 by lia. apply vat_nth. apply nth_error_nth'. lia.
  Qed.

  Variables (d : session_draws) (x : Z) (V0 : server) (L : list (point * point)) (M : heard -> point * point).
  Hypothesis LEN : length (Si0 V0) = 16%nat /\ length (Si1 V0) = 16%nat.
  Hypothesis EM : forall h, M h = nth (length h) L no_message.
  Notation item := (list (elt * elt)).

  Lemma encZ_step o pk m0 m1 s0 t0 s1 t1 y : dcurve (sdme o) = Some c2 -> encMsgs o pk (point_of m0) (point_of m1) s0 t0 s1 t1 = Ok y ->
    encZ dbg live (set_ots V0 o) pk m0 m1 (quad_of [s0; t0; s1; t1]) = Ok (set_ots V0 (fst y), snd y).
  Proof. intros E H. rewrite (encZ_is (set_ots V0 o) pk m0 m1 s0 t0 s1 t1 E). change (ots (set_ots V0 o)) with o. rewrite H. reflexivity. Qed.
  Lemma encP_step o pk m0 m1 s0 t0 s1 t1 y : encMsgs o pk m0 m1 s0 t0 s1 t1 = Ok y ->
    encP dbg live (set_ots V0 o) pk m0 m1 (quad_of [s0; t0; s1; t1]) = Ok (set_ots V0 (fst y), snd y).
  Proof. intros H. unfold encP. change (ots (set_ots V0 o)) with o. change (q_s0 (quad_of [s0; t0; s1; t1])) with s0. change (q_t0 (quad_of [s0; t0; s1; t1])) with t0.
    change (q_s1 (quad_of [s0; t0; s1; t1])) with s1. change (q_t1 (quad_of [s0; t0; s1; t1])) with t1. rewrite H. reflexivity. Qed.
  Notation row l r := (nth (Z.to_nat r) l inputi_default).
  Lemma run_last o r pk a0 a1 a2 a3 b g p0 p1 p2 p3 u v xa xp : r = BITS -> dcurve (sdme o) = Some c2 ->
    encMsgs o pk (point_of (lk (Sl0 V0))) (point_of (lk (Sl1 V0))) a0 a1 a2 a3 = Ok xa -> encMsgs (fst xa) pk (lprf (Sl0 V0)) (lprf (Sl1 V0)) p0 p1 p2 p3 = Ok xp ->
    runOTRound dbg live (set_ots V0 o) r pk (quad_of [a0; a1; a2; a3]) b g (quad_of [p0; p1; p2; p3]) u v = Ok (set_ots V0 (fst xp), mkoc [snd xa; []; []] (snd xp)).
  Proof.
    intros -> E HA HP. unfold runOTRound. rewrite Z.eqb_refl. change (Sl0 (set_ots V0 o)) with (Sl0 V0). change (Sl1 (set_ots V0 o)) with (Sl1 V0).
    rewrite (encZ_step _ _ _ _ _ _ _ _ _ E HA). cbn [bind fst snd]. rewrite (encP_step _ _ _ _ _ _ _ _ _ HP). reflexivity.
  Qed.
  Lemma run_other o r pk a0 a1 a2 a3 b0 b1 b2 b3 g0 g1 g2 g3 p0 p1 p2 p3 u v xa xb xg xp : r <> BITS -> 0 <= r < 16 -> dcurve (sdme o) = Some c2 ->
    encMsgs o pk (point_of (ilt (row (Si0 V0) r))) (point_of (ilt (row (Si1 V0) r))) a0 a1 a2 a3 = Ok xa ->
    encMsgs (fst xa) pk (point_of (ieq (row (Si0 V0) r))) (point_of (ieq (row (Si1 V0) r))) b0 b1 b2 b3 = Ok xb ->
    encMsgs (fst xb) pk (point_of (igt (row (Si0 V0) r))) (point_of (igt (row (Si1 V0) r))) g0 g1 g2 g3 = Ok xg ->
    encMsgs (fst xg) pk (iprf (row (Si0 V0) r)) (iprf (row (Si1 V0) r)) p0 p1 p2 p3 = Ok xp ->
    runOTRound dbg live (set_ots V0 o) r pk (quad_of [a0; a1; a2; a3]) (quad_of [b0; b1; b2; b3]) (quad_of [g0; g1; g2; g3]) (quad_of [p0; p1; p2; p3]) u v =
    Ok (set_ots V0 (fst xp), mkoc (shuffle3 [snd xa; snd xb; snd xg] u v) (snd xp)).
  Proof.
    intros NR R E HA HB HG HP. unfold runOTRound. rewrite (proj2 (Z.eqb_neq _ _) NR). change (Si0 (set_ots V0 o)) with (Si0 V0). change (Si1 (set_ots V0 o)) with (Si1 V0).
    rewrite (vat_row _ r (proj1 LEN) R), (vat_row _ r (proj2 LEN) R). cbn [bind]. rewrite (encZ_step _ _ _ _ _ _ _ _ _ E HA). cbn [bind fst snd].
    assert (DA : dcurve (sdme (fst xa)) = Some c2) by (rewrite (encMsgs_dme _ _ _ _ _ _ _ _ _ HA); exact E). rewrite (encZ_step _ _ _ _ _ _ _ _ _ DA HB). cbn [bind fst snd].
    assert (DB : dcurve (sdme (fst xb)) = Some c2) by (rewrite (encMsgs_dme _ _ _ _ _ _ _ _ _ HB); exact DA). rewrite (encZ_step _ _ _ _ _ _ _ _ _ DB HG). cbn [bind fst snd].
    rewrite (encP_step _ _ _ _ _ _ _ _ _ HP). reflexivity.
  Qed.
  Lemma exchanges_step V V' C r dr q l s c V2 tr : rd_key dr = q -> 1 <= r <= 16 -> cx C = Some x -> selectMsg (otr C) (round_bit x r) q = Ok s ->
    runOTRound dbg live V r (snd s) (rd_a dr) (rd_b dr) (rd_c dr) (rd_p dr) (rd_u dr) (rd_v dr) = Ok (V', c) ->
    exchanges dbg live V' (mkcli (fst s) (ccur C) (cx C) (result C) (key C)) l = Ok (V2, tr) ->
    exchanges dbg live V C ((r, dr) :: l) = Ok (V2, (snd s, c) :: tr).
  Proof. intros <- HR HX ES ER EX. cbn [exchanges]. rewrite (start_is C x r _ HX HR), ES. cbn [bind fst snd]. rewrite ER. cbn [bind fst snd]. rewrite EX. reflexivity. Qed.

  Lemma heard_key R o pk seen b l q ds h : overheard dbg live R o pk M seen (Key b :: l) ([q] :: ds) = Ok h ->
    exists s, selectMsg R b q = Ok s /\ overheard dbg live (fst s) o (snd s) M (seen ++ [[elts (snd s)]]) l ds = Ok h.
  Proof. intros H. cbn [overheard] in H. apply bind_Ok in H. exact H. Qed.
  Lemma heard_pair R o pk seen l s0 t0 s1 t1 ds h m0 m1 : M seen = (m0, m1) -> overheard dbg live R o pk M seen (Pair :: l) ([s0; t0; s1; t1] :: ds) = Ok h ->
    exists y, encMsgs o pk m0 m1 s0 t0 s1 t1 = Ok y /\ sdme (fst y) = sdme o /\ overheard dbg live R (fst y) pk M (seen ++ [map view (snd y)]) l ds = Ok h.
  Proof. intros E H. cbn [overheard] in H. rewrite E in H. apply bind_Ok in H. destruct H as [y [A B]]. exists y. split; [exact A|]. split; [exact (encMsgs_dme _ _ _ _ _ _ _ _ _ A)|exact B]. Qed.
  Lemma next_says seen n rest (y : item) : (forall i, nth (length seen + i) L no_message = nth i (n :: rest) no_message) ->
    forall i, nth (length (seen ++ [y]) + i) L no_message = nth i rest no_message.
  Proof. intros H i. rewrite app_length. cbn [length]. replace (length seen + 1 + i)%nat with (length seen + Datatypes.S i)%nat by lia. rewrite H. reflexivity. Qed.
  Lemma now_says seen n rest : (forall i, nth (length seen + i) L no_message = nth i (n :: rest) no_message) -> M seen = n.
  Proof. intros H. rewrite EM. rewrite <- (Nat.add_0_r (length seen)). rewrite H. reflexivity. Qed.
  Lemma wire_last s xa xp : wire (s, mkoc [xa; []; []] xp) = (elts s, ([map view xa; []; []], map view xp)).
  Proof. reflexivity. Qed.
  Lemma wire_other s xa xb xg xp u v : wire (s, mkoc (shuffle3 [xa; xb; xg] u v) xp) = (elts s, (shuffle3 [map view xa; map view xb; map view xg] u v, map view xp)).
  Proof. unfold wire. cbn [fst snd oc ocprf]. rewrite <- shuffle3_map. reflexivity. Qed.

  Lemma simulate rs : Forall (fun r => 1 <= r <= 16) rs -> forall o C pk seen ds h, dcurve (sdme o) = Some c2 -> cx C = Some x ->
    (forall i, nth (length seen + i) L no_message = nth i (flat_map (round_says dbg live c2 V0) rs) no_message) ->
    shaped (flat_map (round_steps x) rs) ds -> overheard dbg live (otr C) o pk M seen (flat_map (round_steps x) rs) ds = Ok h ->
    exists o' tr h', exchanges dbg live (set_ots V0 o) C (deal d rs ds) = Ok (set_ots V0 o', tr) /\ h = seen ++ h' /\ arrange d rs h' = map wire tr.
  Proof.
    induction 1 as [|r rs HR HRS IH]; intros o C pk seen ds h HD HX HL HS HO.
    - inversion HS. subst. cbn in HO. apply Ok_inj in HO. subst h. exists o, [], []. split; [reflexivity|]. split; [rewrite app_nil_r; reflexivity|reflexivity].
    - cbn [flat_map] in HS, HO, HL. unfold round_steps at 1 in HS. unfold round_steps at 1 in HO. unfold round_says at 1 in HL. cbn [deal arrange]. cbv zeta in HL |- *.
      destruct (r =? BITS) eqn:ER; cbn [app] in HS, HO, HL.
      + apply Z.eqb_eq in ER.
        inversion HS as [|? k ? ds1 FK T1]; subst ds. destruct (one_fits _ k FK) as [q [-> _]]. inversion T1 as [|? a ? ds2 FA T2]; subst ds1. destruct (four_fits a FA) as [a0 [a1 [a2 [a3 [-> _]]]]].
        inversion T2 as [|? p ? ds3 FP T3]; subst ds2. destruct (four_fits p FP) as [p0 [p1 [p2 [p3 [-> _]]]]].
        destruct (heard_key _ _ _ _ _ _ _ _ _ HO) as [s [ES O1]]. pose proof (next_says _ _ _ [elts (snd s)] HL) as L1.
        destruct (heard_pair _ _ _ _ _ _ _ _ _ _ _ _ _ (now_says _ _ _ L1) O1) as [xa [EA [DA O2]]]. pose proof (next_says _ _ _ (map view (snd xa)) L1) as L2.
        destruct (heard_pair _ _ _ _ _ _ _ _ _ _ _ _ _ (now_says _ _ _ L2) O2) as [xp [EP [DP O3]]]. pose proof (next_says _ _ _ (map view (snd xp)) L2) as L3.
        destruct (IH (fst xp) (mkcli (fst s) (ccur C) (cx C) (result C) (key C)) (snd s) _ ds3 h (eq_trans (f_equal dcurve (eq_trans DP DA)) HD) HX L3 T3 O3) as [o' [tr [h' [EX [EH EW]]]]].
        exists o', ((snd s, mkoc [snd xa; []; []] (snd xp)) :: tr), ([elts (snd s)] :: map view (snd xa) :: map view (snd xp) :: h'). split; [|split].
        * eapply exchanges_step; [reflexivity|exact HR|exact HX|exact ES| |exact EX]. cbn [rd_a rd_b rd_c rd_p rd_u rd_v]. exact (run_last o r (snd s) a0 a1 a2 a3 _ _ p0 p1 p2 p3 _ _ xa xp ER HD EA EP).
        * rewrite EH, <- !app_assoc. reflexivity.
        * cbn [map]. rewrite wire_last, EW. reflexivity.
      + apply Z.eqb_neq in ER. assert (R15 : 0 <= r < 16) by (change BITS with 16 in ER; lia).
        inversion HS as [|? k ? ds1 FK T1]; subst ds. destruct (one_fits _ k FK) as [q [-> _]]. inversion T1 as [|? a ? ds2 FA T2]; subst ds1. destruct (four_fits a FA) as [a0 [a1 [a2 [a3 [-> _]]]]].
        inversion T2 as [|? b ? ds3 FB T3]; subst ds2. destruct (four_fits b FB) as [b0 [b1 [b2 [b3 [-> _]]]]]. inversion T3 as [|? g ? ds4 FG T4]; subst ds3. destruct (four_fits g FG) as [g0 [g1 [g2 [g3 [-> _]]]]].
        inversion T4 as [|? p ? ds5 FP T5]; subst ds4. destruct (four_fits p FP) as [p0 [p1 [p2 [p3 [-> _]]]]].
        destruct (heard_key _ _ _ _ _ _ _ _ _ HO) as [s [ES O1]]. pose proof (next_says _ _ _ [elts (snd s)] HL) as L1.
        destruct (heard_pair _ _ _ _ _ _ _ _ _ _ _ _ _ (now_says _ _ _ L1) O1) as [xa [EA [DA O2]]]. pose proof (next_says _ _ _ (map view (snd xa)) L1) as L2.
        destruct (heard_pair _ _ _ _ _ _ _ _ _ _ _ _ _ (now_says _ _ _ L2) O2) as [xb [EB [DB O3]]]. pose proof (next_says _ _ _ (map view (snd xb)) L2) as L3.
        destruct (heard_pair _ _ _ _ _ _ _ _ _ _ _ _ _ (now_says _ _ _ L3) O3) as [xg [EG [DG O4]]]. pose proof (next_says _ _ _ (map view (snd xg)) L3) as L4.
        destruct (heard_pair _ _ _ _ _ _ _ _ _ _ _ _ _ (now_says _ _ _ L4) O4) as [xp [EP [DP O5]]]. pose proof (next_says _ _ _ (map view (snd xp)) L4) as L5.
        destruct (IH (fst xp) (mkcli (fst s) (ccur C) (cx C) (result C) (key C)) (snd s) _ ds5 h (eq_trans (f_equal dcurve (eq_trans DP (eq_trans DG (eq_trans DB DA)))) HD) HX L5 T5 O5) as [o' [tr [h' [EX [EH EW]]]]].
        exists o', ((snd s, mkoc (shuffle3 [snd xa; snd xb; snd xg] (rd_u (sd_round d r)) (rd_v (sd_round d r))) (snd xp)) :: tr),
          ([elts (snd s)] :: map view (snd xa) :: map view (snd xb) :: map view (snd xg) :: map view (snd xp) :: h'). split; [|split].
        * eapply exchanges_step; [reflexivity|exact HR|exact HX|exact ES| |exact EX]. cbn [rd_a rd_b rd_c rd_p rd_u rd_v]. exact (run_other o r (snd s) a0 a1 a2 a3 b0 b1 b2 b3 g0 g1 g2 g3 p0 p1 p2 p3 _ _ xa xb xg xp ER R15 HD EA EB EG EP).
        * rewrite EH, <- !app_assoc. reflexivity.
        * cbn [map]. rewrite wire_other, EW. reflexivity.
  Qed.
End Simulate.
