(** One round of the oblivious PRF with a client that sends any public key it likes. *)
From Coq Require Import ZArith Znumtheory Bool List Lia.
From Verif Require Import Outcome FieldModel ZpField SpecField FieldProofs ECGroup ECOrder CurveParams CurveFacts EccModel EccProofs SpecEcc EccThms Emb RF DmeModel SpecDme DmeProofs OtModel OtProofs SpecOt CrcModel AesModel OpprfModel SpecOpprf SpecOpprf6 OpprfProofs OpprfProofs8 SpecCount CountMath SpecDdh SpecDdh2 SpecDdh3 SpecDdh4 DdhProofs DdhProofs2 DdhCases DdhMany DdhMany2 DdhHear DdhHear5 SpecCheat CheatProofs CheatProofs2 SpecIdeal IdealProofs SpecClient.
Import ListNotations.
Open Scope Z_scope.

Section Client.
  Variables (dbg : bool) (live : Z -> bool) (e : env) (iv : list Z).
  Notation like := (DdhMany2.like live).
  Notation dlike := (dlike live).
  Notation prepared := (prepared live e iv).

  (** ** The answer to a round *)
  Lemma encZ_like S c a0 a1 b0 b1 pk x y m0 m1 q : dlike (sdme (ots S)) c a0 a1 b0 b1 -> like (pg pk) x -> like (ph pk) y ->
    exists o' v, encZ dbg live S pk m0 m1 q = Ok (set_ots S o', v) /\ sdme o' = sdme (ots S).
  Proof.
    intros HD HX HY. pose proof HD as [Ec L _ _ _ _].
    destruct (L_C32_encode dbg live c _ m0 Ec L) as [i0 [P0 [_ [EP0 [F0 _]]]]]. destruct (L_C32_encode dbg live c _ m1 Ec L) as [i1 [P1 [_ [EP1 [F1 _]]]]].
    destruct (msgs_like dbg live (ots S) c a0 a1 b0 b1 pk x y P0 P1 (q_s0 q) (q_t0 q) (q_s1 q) (q_t1 q) HD HX HY (or_intror F0) (or_intror F1)) as [o' [cs [E [D _]]]].
    exists o', cs. split; [|exact D]. revert E. unfold encZ, encMsgsZ, encMsgs, EncZ. rewrite EP0, EP1. cbn [bind]. intros E. rewrite E. reflexivity.
  Qed.
  Lemma encP_like S c a0 a1 b0 b1 pk x y m0 m1 q : dlike (sdme (ots S)) c a0 a1 b0 b1 -> like (pg pk) x -> like (ph pk) y -> is_valid live m0 -> is_valid live m1 ->
    exists o' v, encP dbg live S pk m0 m1 q = Ok (set_ots S o', v) /\ sdme o' = sdme (ots S) /\
      map view v = [sees a0 b0 x y m0 (q_s0 q) (q_t0 q); sees a1 b1 x y m1 (q_s1 q) (q_t1 q)].
  Proof.
    intros HD HX HY V0 V1. destruct (msgs_like dbg live (ots S) c a0 a1 b0 b1 pk x y m0 m1 (q_s0 q) (q_t0 q) (q_s1 q) (q_t1 q) HD HX HY V0 V1) as [o' [cs [E [D X]]]].
    exists o', cs. split; [|split; [exact D|exact X]]. unfold encP. rewrite E. reflexivity.
  Qed.

  Lemma round_like B S p a c a0 a1 b0 b1 pk x y j qa qb qc qp u v : prepared B S p a -> dlike (sdme (ots B)) c a0 a1 b0 b1 -> like (pg pk) x -> like (ph pk) y -> (j < 16)%nat ->
    exists S' o m0 m1, runOTRound dbg live S (Z.of_nat (Datatypes.S j)) pk qa qb qc qp u v = Ok (S', o) /\ prepared B S' p a /\
      map view (ocprf o) = [sees a0 b0 x y m0 (q_s0 qp) (q_t0 qp); sees a1 b1 x y m1 (q_s1 qp) (q_t1 qp)] /\
      den CV m0 = pow (d_ok p j * d_r p) /\ den CV m1 = pow (2 ^ Z.of_nat j * a + d_ok p j * d_r p).
  Proof.
    intros P HD HX HY J. pose proof P as [BA [T0 [T1 RW]]]. unfold runOTRound.
    assert (H0 : forall T, sdme (ots T) = sdme (ots B) -> dlike (sdme (ots T)) c a0 a1 b0 b1) by (intros T ->; exact HD).
    destruct (Nat.eq_dec j 15) as [->|NJ].
    - change (Z.of_nat 16 =? BITS) with true. cbv iota.
      destruct (encZ_like S c a0 a1 b0 b1 pk x y (lk (Sl0 S)) (lk (Sl1 S)) qa (H0 S (ba_ots _ _ _ _ BA)) HX HY) as [o1 [v1 [E1 D1]]]. rewrite E1. cbn [bind fst snd].
      assert (D1' : sdme (ots (set_ots S o1)) = sdme (ots B)) by (cbn [set_ots ots]; rewrite D1; exact (ba_ots _ _ _ _ BA)).
      destruct (encP_like (set_ots S o1) c a0 a1 b0 b1 pk x y (lprf (Sl0 S)) (lprf (Sl1 S)) qp (H0 _ D1') HX HY (multiple_valid live _ _ (proj2 T0)) (multiple_valid live _ _ (proj2 T1))) as [o4 [v4 [E4 [D4 X4]]]].
      rewrite E4. cbn [bind fst snd]. do 4 eexists. split; [reflexivity|]. cbn [ocprf]. split; [|split; [exact X4|]].
      + apply prepared_ots; [|exact D4]. apply prepared_ots; [exact P|exact D1].
      + split; [exact (proj2 (proj2 T0))|]. pose proof (proj2 (proj2 T1)) as X. rewrite Z.mul_1_l in X. exact X.
    - rewrite (proj2 (Z.eqb_neq (Z.of_nat (Datatypes.S j)) BITS)) by (unfold BITS; cbn; lia). destruct (RW j ltac:(lia)) as [r0 [r1 [N0 [N1 [Q0 Q1]]]]].
      rewrite (vat_nth _ _ _ N0), (vat_nth _ _ _ N1). cbn [bind].
      destruct (encZ_like S c a0 a1 b0 b1 pk x y (ilt r0) (ilt r1) qa (H0 S (ba_ots _ _ _ _ BA)) HX HY) as [o1 [v1 [E1 D1]]]. rewrite E1. cbn [bind fst snd].
      assert (P1 : prepared B (set_ots S o1) p a) by (apply prepared_ots; [exact P|exact D1]). clear E1.
      destruct (encZ_like (set_ots S o1) c a0 a1 b0 b1 pk x y (ieq r0) (ieq r1) qb (H0 _ (ba_ots _ _ _ _ (proj1 P1))) HX HY) as [o2 [v2 [E2 D2]]]. rewrite E2. cbn [bind fst snd].
      assert (P2 : prepared B (set_ots (set_ots S o1) o2) p a) by (apply prepared_ots; [exact P1|exact D2]). clear E2.
      destruct (encZ_like (set_ots (set_ots S o1) o2) c a0 a1 b0 b1 pk x y (igt r0) (igt r1) qc (H0 _ (ba_ots _ _ _ _ (proj1 P2))) HX HY) as [o3 [v3 [E3 D3]]]. rewrite E3. cbn [bind fst snd].
      assert (P3 : prepared B (set_ots (set_ots (set_ots S o1) o2) o3) p a) by (apply prepared_ots; [exact P2|exact D3]). clear E3.
      destruct (encP_like (set_ots (set_ots (set_ots S o1) o2) o3) c a0 a1 b0 b1 pk x y (iprf r0) (iprf r1) qp (H0 _ (ba_ots _ _ _ _ (proj1 P3))) HX HY
        (multiple_valid live _ _ (proj2 Q0)) (multiple_valid live _ _ (proj2 Q1))) as [o4 [v4 [E4 [D4 X4]]]].
      rewrite E4. cbn [bind fst snd]. do 4 eexists. split; [reflexivity|]. cbn [ocprf]. split; [|split; [exact X4|]].
      + apply prepared_ots; [exact P3|exact D4].
      + split; [exact (proj2 (proj2 Q0))|]. pose proof (proj2 (proj2 Q1)) as X. rewrite Z.mul_1_l in X. exact X.
  Qed.

  (** two servers whose shares look alike answer alike *)
  Lemma round_alike B B' S S' p p' a a' c a0 a1 b0 b1 pk x y j qa qb qc qp qp' u v :
    prepared B S p a -> prepared B' S' p' a' -> sdme (ots B') = sdme (ots B) -> theta B' = theta B -> (forall s j, level_key p' s j = level_key p s j) ->
    dlike (sdme (ots B)) c a0 a1 b0 b1 -> like (pg pk) x -> like (ph pk) y -> (j < 16)%nat ->
    (forall m0 m1 m0' m1', den CV m0 = pow (d_ok p j * d_r p) -> den CV m1 = pow (2 ^ Z.of_nat j * a + d_ok p j * d_r p) ->
      den CV m0' = pow (d_ok p' j * d_r p') -> den CV m1' = pow (2 ^ Z.of_nat j * a' + d_ok p' j * d_r p') ->
      sees a0 b0 x y m0' (q_s0 qp') (q_t0 qp') = sees a0 b0 x y m0 (q_s0 qp) (q_t0 qp) /\ sees a1 b1 x y m1' (q_s1 qp') (q_t1 qp') = sees a1 b1 x y m1 (q_s1 qp) (q_t1 qp)) ->
    exists T T' o o', runOTRound dbg live S (Z.of_nat (Datatypes.S j)) pk qa qb qc qp u v = Ok (T, o) /\ prepared B T p a /\
      runOTRound dbg live S' (Z.of_nat (Datatypes.S j)) pk qa qb qc qp' u v = Ok (T', o') /\ prepared B' T' p' a' /\ reply_of o' = reply_of o.
  Proof.
    intros P P' ED ET EK HD HX HY J H. assert (HD' : dlike (sdme (ots B')) c a0 a1 b0 b1) by (rewrite ED; exact HD).
    destruct (round_like B S p a c a0 a1 b0 b1 pk x y j qa qb qc qp u v P HD HX HY J) as [T [o [m0 [m1 [E [PT [X [M0 M1]]]]]]]].
    destruct (round_like B' S' p' a' c a0 a1 b0 b1 pk x y j qa qb qc qp' u v P' HD' HX HY J) as [T' [o' [m0' [m1' [E' [PT' [X' [M0' M1']]]]]]]].
    exists T, T', o, o'. split; [exact E|]. split; [exact PT|]. split; [exact E'|]. split; [exact PT'|].
    pose proof (round_letters dbg live e iv B B' S S' p p' a a' (Z.of_nat (Datatypes.S j)) pk qa qb qc qp qp' u v _ _ P P' ED ET EK ltac:(lia) E E') as L. cbn [snd] in L.
    unfold reply_of. rewrite L, X, X'. destruct (H m0 m1 m0' m1' M0 M1 M0' M1') as [-> ->]. reflexivity.
  Qed.
End Client.
