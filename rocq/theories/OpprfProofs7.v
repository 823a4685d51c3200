(** The messages of the oblivious PRF in terms of discrete logarithms: proofs. *)
From Coq Require Import ZArith Znumtheory Bool List Lia Field.
From Verif Require Import Outcome FieldModel ZpField SpecField FieldProofs ECGroup ECOrder CurveParams CurveFacts EccModel EccProofs SpecEcc EccThms Emb RF.
From Verif Require Import DmeModel SpecDme DmeProofs DmeProofs2 OtModel SpecOt OtProofs OtProofs2 CrcModel AesModel SpecAes OpprfModel SpecOpprf SpecOpprf2.
From Verif Require Import OpprfProofs OpprfProofs2 OpprfProofs3 OpprfProofs4 OpprfProofs5.
Import ListNotations.
Open Scope Z_scope.

Section Opprf7.
  Variables (dbg : bool) (live : Z -> bool) (e : env) (iv : list Z).
  Notation n := (fieldn CV).
  Notation F := (Fp n).
  Notation rf := (rf live CV).
  Notation mk := (mk n).
  Notation drf := (drf live).
  Notation multiple := (multiple live).
  Local Infix "+'" := (fadd n) (at level 50, left associativity).
  Local Infix "*'" := (fmul n) (at level 40, left associativity).

  Lemma encP_logs S pk q m0 m1 c a0 a1 b0 b1 g h z0 z1 : drf (sdme (ots S)) c a0 a1 b0 b1 -> rf (pg pk) g -> rf (ph pk) h -> rf m0 z0 -> rf m1 z1 ->
    exists o c0 c1, encP dbg live S pk m0 m1 q = Ok (set_ots S o, [c0; c1]) /\ sdme o = sdme (ots S) /\
      (rf (cu c0) (mk (q_s0 q) *' a0 +' mk (q_t0 q) *' b0) /\ rf (cmv c0) (mk (q_s0 q) *' g +' mk (q_t0 q) *' h +' z0)) /\
      (rf (cu c1) (mk (q_s1 q) *' a1 +' mk (q_t1 q) *' b1) /\ rf (cmv c1) (mk (q_s1 q) *' g +' mk (q_t1 q) *' h +' z1)).
  Proof.
    intros K G H M0 M1. unfold encP, encMsgs.
    destruct (Enc_rf dbg live _ c _ _ _ _ 0 pk g h m0 z0 (q_s0 q) (q_t0 q) K (or_introl eq_refl) G H M0) as [c0 [E0 L0]].
    destruct (Enc_rf dbg live _ c _ _ _ _ 1 pk g h m1 z1 (q_s1 q) (q_t1 q) K (or_intror eq_refl) G H M1) as [c1 [E1 L1]].
    rewrite E0. cbn [bind]. rewrite E1. cbn [bind app fst snd]. do 3 eexists. split; [reflexivity|]. split; [reflexivity|].
    split; [exact L0|exact L1].
  Qed.
  Lemma encZ_logs S pk q m0 m1 c a0 a1 b0 b1 g h : drf (sdme (ots S)) c a0 a1 b0 b1 -> rf (pg pk) g -> rf (ph pk) h ->
    exists o v, encZ dbg live S pk m0 m1 q = Ok (set_ots S o, v) /\ sdme o = sdme (ots S).
  Proof.
    intros K G H. pose proof (dr_cur _ _ _ _ _ _ _ K) as Ec. pose proof (dr_live _ _ _ _ _ _ _ K) as L.
    destruct (L_C32_encode dbg live c _ m0 Ec L) as [i0 [P0 [_ [EP0 [F0 _]]]]].
    destruct (L_C32_encode dbg live c _ m1 Ec L) as [i1 [P1 [_ [EP1 [F1 _]]]]].
    destruct (val_rf live P0 (or_intror F0)) as [z0 M0]. destruct (val_rf live P1 (or_intror F1)) as [z1 M1].
    destruct (encP_logs S pk q P0 P1 c _ _ _ _ g h z0 z1 K G H M0 M1) as [o [c0 [c1 [E [SD _]]]]].
    exists o, [c0; c1]. split; [|exact SD]. revert E. unfold encZ, encP, encMsgsZ, encMsgs, EncZ. rewrite EP0, EP1. cbn [bind]. intros E; exact E.
  Qed.

  Definition answer (d : session_draws) (a a0 a1 b0 b1 g h : F) (r : Z) (l : list ctxt) : Prop :=
    let q := rd_p (sd_round d r) in let o := mk (d_ok (sd_prep d) (Z.to_nat (r - 1)) * d_r (sd_prep d)) in
    exists c0 c1, l = [c0; c1] /\
      (rf (cu c0) (mk (q_s0 q) *' a0 +' mk (q_t0 q) *' b0) /\ rf (cmv c0) (mk (q_s0 q) *' g +' mk (q_t0 q) *' h +' o)) /\
      (rf (cu c1) (mk (q_s1 q) *' a1 +' mk (q_t1 q) *' b1) /\ rf (cmv c1) (mk (q_s1 q) *' g +' mk (q_t1 q) *' h +' (mk (2 ^ (r - 1)) *' a +' o))).

  Lemma round_logs S0 S d a c a0 a1 b0 b1 g h round pk : prepared live e iv S0 S (sd_prep d) a -> drf (sdme (ots S0)) c a0 a1 b0 b1 ->
    rf (pg pk) g -> rf (ph pk) h -> 1 <= round <= 16 ->
    let r := sd_round d round in
    exists S' o, runOTRound dbg live S round pk (rd_a r) (rd_b r) (rd_c r) (rd_p r) (rd_u r) (rd_v r) = Ok (S', o) /\
      prepared live e iv S0 S' (sd_prep d) a /\ answer d (mk a) a0 a1 b0 b1 g h round (ocprf o).
  Proof.
    intros P K G H R r.
    assert (OTS : forall S', sdme (ots S') = sdme (ots S) -> drf (sdme (ots S')) c a0 a1 b0 b1).
    { intros S' ->. rewrite (ba_ots _ _ _ _ (proj1 P)). exact K. }
    unfold runOTRound. destruct (Z.eqb_spec round BITS) as [EB|NB].
    - unfold BITS in EB. subst round. destruct (encZ_logs S pk (rd_a r) (lk (Sl0 S)) (lk (Sl1 S)) c _ _ _ _ g h (OTS S eq_refl) G H) as [o1 [v1 [E1 D1]]].
      rewrite E1. cbn [bind fst snd].
      destruct P as [BA [T0 [T1 RW]]]. pose proof (proj2 T0) as M0. pose proof (proj2 T1) as M1. apply (multiple_rf live) in M0, M1.
      destruct (encP_logs (set_ots S o1) pk (rd_p r) (lprf (Sl0 S)) (lprf (Sl1 S)) c _ _ _ _ g h _ _ (OTS (set_ots S o1) D1) G H M0 M1) as [o2 [c0 [c1 [E2 [D2 [L0 L1]]]]]].
      rewrite E2. cbn [bind fst snd]. do 2 eexists. split; [reflexivity|]. split.
      + repeat (apply prepared_ots; [|assumption]). split; [exact BA|]. split; [exact T0|]. split; [exact T1|exact RW].
      + cbn [ocprf]. exists c0, c1. split; [reflexivity|].
        destruct L0 as [L0 L0'], L1 as [L1 L1']. split; [split; [exact L0|]|split; [exact L1|]].
        * apply (rf_cong live CV _ _ _ L0'). f_equal.
        * apply (rf_cong live CV _ _ _ L1'). f_equal. rewrite mk_mul, mk_add. f_equal; ring.
    - destruct P as [BA [T0 [T1 RW]]]. assert (NB16 : round <> 16) by exact NB. set (j := Z.to_nat (round - 1)).
      assert (EJ : round = Z.of_nat (Datatypes.S j)) by (subst j; lia).
      destruct (RW j ltac:(subst j; lia)) as [r0 [r1 [N0 [N1 [Q0 Q1]]]]].
      assert (V0 : vat (Si0 S) round = Ok r0) by (rewrite EJ; apply vat_nth, N0).
      assert (V1 : vat (Si1 S) round = Ok r1) by (rewrite EJ; apply vat_nth, N1).
      rewrite V0, V1. cbn [bind].
      destruct (encZ_logs S pk (rd_a r) (ilt r0) (ilt r1) c _ _ _ _ g h (OTS S eq_refl) G H) as [o1 [v1 [E1 D1]]]. rewrite E1. cbn [bind fst snd].
      destruct (encZ_logs (set_ots S o1) pk (rd_b r) (ieq r0) (ieq r1) c _ _ _ _ g h (OTS (set_ots S o1) D1) G H) as [o2 [v2 [E2 D2]]]. rewrite E2. cbn [bind fst snd].
      assert (D2' : sdme o2 = sdme (ots S)) by (rewrite D2; exact D1).
      destruct (encZ_logs (set_ots (set_ots S o1) o2) pk (rd_c r) (igt r0) (igt r1) c _ _ _ _ g h (OTS (set_ots (set_ots S o1) o2) D2') G H) as [o3 [v3 [E3 D3]]]. rewrite E3. cbn [bind fst snd].
      assert (D3' : sdme o3 = sdme (ots S)) by (rewrite D3; exact D2').
      pose proof (proj2 Q0) as M0. pose proof (proj2 Q1) as M1. apply (multiple_rf live) in M0, M1.
      destruct (encP_logs (set_ots (set_ots (set_ots S o1) o2) o3) pk (rd_p r) (iprf r0) (iprf r1) c _ _ _ _ g h _ _ (OTS (set_ots (set_ots (set_ots S o1) o2) o3) D3') G H M0 M1)
        as [o4 [c0 [c1 [E4 [D4 [L0 L1]]]]]].
      rewrite E4. cbn [bind fst snd]. do 2 eexists. split; [reflexivity|]. split.
      + repeat (apply prepared_ots; [|assumption]). split; [exact BA|]. split; [exact T0|]. split; [exact T1|exact RW].
      + cbn [ocprf]. exists c0, c1. split; [reflexivity|]. cbn zeta. fold j. replace (2 ^ (round - 1)) with (2 ^ Z.of_nat j) by (f_equal; lia).
        destruct L0 as [L0 L0'], L1 as [L1 L1']. split; [split; [exact L0|]|split; [exact L1|]].
        * apply (rf_cong live CV _ _ _ L0'). f_equal.
        * apply (rf_cong live CV _ _ _ L1'). f_equal. rewrite mk_mul, mk_add. f_equal; ring.
  Qed.

  Lemma exchanges_logs S0 C0 d a x c c' a0 a1 b0 b1 l : Forall (fun r => 1 <= r <= 16) l -> drf (sdme (ots S0)) c a0 a1 b0 b1 ->
    drf (rdme (otr C0)) c' a0 a1 b0 b1 ->
    forall S C, prepared live e iv S0 S (sd_prep d) a -> rdme (otr C) = rdme (otr C0) -> cx C = Some x ->
    exists S' t, exchanges dbg live S C (map (fun r => (r, sd_round d r)) l) = Ok (S', t) /\ prepared live e iv S0 S' (sd_prep d) a /\
      Forall2 (fun r m => answer d (mk a) a0 a1 b0 b1 (mk (rd_key (sd_round d r)) *' pick (round_bit x r) a0 a1)
                 (mk (rd_key (sd_round d r)) *' pick (round_bit x r) b0 b1) r (ocprf (snd m))) l t.
  Proof.
    intros FL K K'. induction FL as [|r l R FL IH]; intros S C P ED X.
    - exists S, []. split; [reflexivity|]. split; [exact P|constructor].
    - cbn [map exchanges]. rewrite (start_eq dbg live C x r _ X R), ED.
      destruct (KeyGen_rf dbg live _ c' _ _ _ _ (round_bit x r) (rd_key (sd_round d r)) K' (round_bit_branch x r)) as [kp [EK [G [H _]]]].
      rewrite EK. cbn [bind fst snd].
      destruct (round_logs S0 S d a c _ _ _ _ _ _ r (kpk kp) P K G H R) as [S1 [o [E1 [P1 A1]]]]. rewrite E1. cbn [bind fst snd].
      match goal with |- context [exchanges dbg live S1 ?Y _] => destruct (IH S1 Y P1 eq_refl X) as [S2 [t [E2 [P2 A2]]]] end.
      rewrite E2. cbn [bind fst snd]. exists S2, ((kpk kp, o) :: t). split; [reflexivity|]. split; [exact P2|]. constructor; assumption.
  Qed.

  Lemma talk_logs S C d a x c c' a0 a1 b0 b1 s : aes_ready e iv -> server_ready live S a -> drf (sdme (ots S)) c a0 a1 b0 b1 ->
    drf (rdme (otr C)) c' a0 a1 b0 b1 -> cx C = Some x ->
    (forall s j, (j < 16)%nat -> 2 ^ 120 <= level_key (sd_prep d) s j < 2 ^ 128) ->
    (forall s', ~ (order | mask_log d s') /\ forall P m, multiple P (mask_log d s') -> getEncodedX dbg live CV P = Ok m ->
      exists ct, encryptCRC e iv (level_key (sd_prep d) s' 0) m = Ok ct /\
        decryptCRC e iv (level_key (sd_prep d) s 0) ct = Ok (if same_letter s' s then m else 0)) ->
    exists t, talk dbg live e iv S C d = Ok t /\
      Forall2 (fun r m => answer d (mk a) a0 a1 b0 b1 (mk (rd_key (sd_round d r)) *' pick (round_bit x r) a0 a1)
                 (mk (rd_key (sd_round d r)) *' pick (round_bit x r) b0 b1) r (ocprf (snd m))) rounds (tr_rounds t).
  Proof.
    intros A SR K K' X GK GM. unfold talk, schedule.
    destruct (prepare_ok dbg live e iv S (sd_prep d) a A SR GK) as [S1 [E1 [B1 [T0 [T1 [_ RW]]]]]]. rewrite E1. cbn [bind].
    assert (P1 : prepared live e iv S S1 (sd_prep d) a) by (split; [exact B1|split; [exact T0|split; [exact T1|exact RW]]]).
    destruct (exchanges_logs S C d a x c c' _ _ _ _ rounds rounds_range K K' S1 C P1 eq_refl X) as [S2 [t [E2 [P2 A2]]]]. rewrite E2. cbn [bind fst snd].
    destruct (masks_ok dbg live e iv S S2 d a s SR GM (proj1 P2) (sd_u d) (sd_v d)) as [f [E4 _]]. rewrite E4. cbn [bind].
    eexists. split; [reflexivity|exact A2].
  Qed.

  (** ** Anyone can shift a ciphertext *)
  Lemma shift_exists c ct z k u : live c = true -> rf (cu ct) u -> u <> f0 n -> rf (cmv ct) z -> z <> f0 n -> z +' mk k <> f0 n ->
    exists P R, getRandomPoint dbg live CV (Some c) k = Ok P /\ padd dbg live CV (cmv ct) P = Ok R /\ shift_ctxt live k ct (mkct (cu ct) R).
  Proof.
    intros L U NU Z NZ NZ'. destruct (randP_m dbg live c k L) as [P [EP MP]]. apply (multiple_rf live) in MP.
    destruct (padd_rf dbg live CV good_CV _ _ _ _ Z MP) as [R [ER KR]].
    exists P, R. split; [exact EP|]. split; [exact ER|]. split; [reflexivity|]. split; [exact (rf_finite live CV good_CV _ _ U NU)|].
    split; [exact (rf_finite live CV good_CV _ _ Z NZ)|]. split; [exact (rf_finite live CV good_CV _ _ KR NZ')|]. cbn [cmv].
    rewrite (rf_den live CV _ _ Z), (rf_den live CV _ _ KR).
    change (EccProofs.gk CV (val n (z +' mk k)) = gadd CV (EccProofs.gk CV (val n z)) (EccProofs.gk CV k)). unfold gadd.
    rewrite (gk_add CV good_CV). apply (gk_eq CV good_CV), (mkn_eq CV good_CV). rewrite mk_val, <- mk_add, mk_val. reflexivity.
  Qed.

  Lemma L_C82_anyone c ct k : live c = true -> finite live (cu ct) -> finite live (cmv ct) ->
    gadd CV (den CV (cmv ct)) (gmul CV k (ggen CV)) <> None ->
    exists P R, getRandomPoint dbg live CV (Some c) k = Ok P /\ padd dbg live CV (cmv ct) P = Ok R /\ shift_ctxt live k ct (mkct (cu ct) R).
  Proof.
    intros L FU FM N. destruct (val_rf live _ (or_intror FU)) as [u U]. destruct (val_rf live _ (or_intror FM)) as [z Z].
    apply (shift_exists c ct z k u L U); [|exact Z| |].
    - apply (rf_pinf_false live CV good_CV _ _ U). exact (proj1 FU).
    - apply (rf_pinf_false live CV good_CV _ _ Z). exact (proj1 FM).
    - intros E. apply N. rewrite (rf_den live CV _ _ Z).
      change (gadd CV (EccProofs.gk CV (val n z)) (EccProofs.gk CV k) = None). unfold gadd. rewrite (gk_add CV good_CV).
      apply (gk_None CV good_CV). change (c_order CV) with order. apply mk_order_0. rewrite <- mk_add, mk_val. exact E.
  Qed.
End Opprf7.
