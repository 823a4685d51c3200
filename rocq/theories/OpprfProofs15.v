(** Asking for a round again, and preparing again without clean(): proofs. *)
From Coq Require Import ZArith Znumtheory Bool List Lia.
From Verif Require Import Outcome FieldModel ZpField SpecField FieldProofs ECGroup ECOrder CurveParams CurveFacts EccModel EccProofs SpecEcc EccThms Emb RF.
From Verif Require Import DmeModel SpecDme DmeProofs DmeProofs2 OtModel SpecOt OtProofs OtProofs2 CrcModel SpecCrc AesModel SpecAes AesProofs.
From Verif Require Import OpprfModel SpecOpprf SpecOpprf6 OpprfProofs OpprfProofs2 OpprfProofs3 OpprfProofs13 OpprfProofs14.
Import ListNotations.
Open Scope Z_scope.

Lemma halve_ok k : 0 <= k -> (order | halve k * 2 ^ k - 1).
Proof.
  intros K. unfold halve. rewrite <- Z.pow_mul_l. assert (H : (order + 1) / 2 * 2 = order + 1) by (vm_compute; reflexivity). rewrite H. clear H.
  revert k K. apply natlike_ind; [exists 0; reflexivity|]. intros k K [q E]. rewrite Z.pow_succ_r by exact K.
  exists ((order + 1) * q + 1). nia.
Qed.

Section Again.
  Variables (dbg : bool) (live : Z -> bool) (e : env) (iv : list Z).
  Ltac inv H := let a := fresh "v" in let E := fresh "Q" in apply bind_Ok in H; destruct H as [a [E H]].
  Notation prepare := (prepareKeysAndInputs dbg live e iv).
  Notation history := (history dbg live e iv).
  Notation happens := (happens dbg live e iv).
  Notation multiple := (multiple live).

  Lemma mult_mod P i j : multiple P i -> (order | i - j) -> multiple P j.
  Proof. intros M D. apply (multiple_rf live). apply (multiple_rf live) in M. rewrite <- (proj2 (mk_order_eq i j) D). exact M. Qed.

  Lemma same_crs_refl k : same_crs k k.
  Proof. repeat split. Qed.

  (** one round opened *)
  Lemma round_open S D b rk R pk r qa qb qc qp u v w : dme_ok live D -> selected dbg live D b rk R pk -> branch b ->
    dme_ok live (sdme (ots S)) -> same_crs (dcrs (sdme (ots S))) (dcrs D) -> 1 <= r <= 16 ->
    length (Si0 S) = 16%nat -> length (Si1 S) = 16%nat -> is_valid live (share S r 0) -> is_valid live (share S r 1) ->
    multiple (share S r b) w -> ot_ok live (dcrs D) b rk qp w ->
    exists S' c P, runOTRound dbg live S r pk qa qb qc qp u v = Ok (S', c) /\ decryptMsg dbg live R (ocprf c) = Ok P /\ multiple P w.
  Proof.
    intros OK SEL B OS SC RG L0 L1 V0 V1 M OT. unfold runOTRound. change BITS with 16. unfold share in V0, V1, M. cbn [Z.eqb] in V0, V1.
    destruct (Z.eqb_spec r 16) as [->|NE].
    - destruct (encZ_ok dbg live S pk R D b rk qa (lk (Sl0 S)) (lk (Sl1 S)) OK SEL B OS SC) as [o1 [v1 [E1 [D1 _]]]]. rewrite E1. cbn [bind fst snd].
      destruct (encP_ok dbg live (set_ots S o1) pk R D b rk qp (lprf (Sl0 S)) (lprf (Sl1 S)) OK SEL B) as [o2 [v2 [E2 [D2 H]]]].
      { cbn [set_ots ots]. rewrite D1. exact OS. } { cbn [set_ots ots]. rewrite D1. exact SC. } { exact V0. } { exact V1. }
      rewrite E2. cbn [bind fst snd].
      assert (M' : multiple (if b =? 0 then lprf (Sl0 S) else lprf (Sl1 S)) w) by (destruct (b =? 0); exact M).
      destruct (H w M' OT) as [P [EP MP]]. exists (set_ots (set_ots S o1) o2), (mkoc [v1; []; []] v2), P. split; [reflexivity|]. split; [exact EP|exact MP].
    - destruct (nth_error (Si0 S) (Z.to_nat r)) as [r0|] eqn:N0; [|apply nth_error_None in N0; lia].
      destruct (nth_error (Si1 S) (Z.to_nat r)) as [r1|] eqn:N1; [|apply nth_error_None in N1; lia].
      unfold vat. rewrite (proj2 (Z.ltb_ge r 0)) by lia. rewrite N0, N1. cbn [bind].
      destruct (encZ_ok dbg live S pk R D b rk qa (ilt r0) (ilt r1) OK SEL B OS SC) as [o1 [v1 [E1 [D1 _]]]]. rewrite E1. cbn [bind fst snd].
      assert (OK1 : dme_ok live (sdme (ots (set_ots S o1)))) by (cbn [set_ots ots]; rewrite D1; exact OS).
      assert (SC1 : same_crs (dcrs (sdme (ots (set_ots S o1)))) (dcrs D)) by (cbn [set_ots ots]; rewrite D1; exact SC).
      destruct (encZ_ok dbg live (set_ots S o1) pk R D b rk qb (ieq r0) (ieq r1) OK SEL B OK1 SC1) as [o2 [v2 [E2 [D2 _]]]]. rewrite E2. cbn [bind fst snd].
      assert (OK2 : dme_ok live (sdme (ots (set_ots (set_ots S o1) o2)))) by (cbn [set_ots ots]; rewrite D2; exact OK1).
      assert (SC2 : same_crs (dcrs (sdme (ots (set_ots (set_ots S o1) o2)))) (dcrs D)) by (cbn [set_ots ots]; rewrite D2; exact SC1).
      destruct (encZ_ok dbg live _ pk R D b rk qc (igt r0) (igt r1) OK SEL B OK2 SC2) as [o3 [v3 [E3 [D3 _]]]]. rewrite E3. cbn [bind fst snd].
      assert (OK3 : dme_ok live (sdme (ots (set_ots (set_ots (set_ots S o1) o2) o3)))) by (cbn [set_ots ots]; rewrite D3; exact OK2).
      assert (SC3 : same_crs (dcrs (sdme (ots (set_ots (set_ots (set_ots S o1) o2) o3)))) (dcrs D)) by (cbn [set_ots ots]; rewrite D3; exact SC2).
      destruct (encP_ok dbg live _ pk R D b rk qp (iprf r0) (iprf r1) OK SEL B OK3 SC3 V0 V1) as [o4 [v4 [E4 [D4 H]]]]. rewrite E4. cbn [bind fst snd].
      assert (M' : multiple (if b =? 0 then iprf r0 else iprf r1) w).
      { destruct (b =? 0); [rewrite N0 in M|rewrite N1 in M]; exact M. }
      destruct (H w M' OT) as [P [EP MP]]. do 3 eexists. split; [reflexivity|]. split; [exact EP|exact MP].
  Qed.

  (** calls that leave a round as it is *)
  Lemma share_like S T r b : like S T -> share S r b = share T r b.
  Proof.
    intros L. apply like_fields in L. destruct L as [_ [_ [_ [_ [_ [_ [_ [_ [_ [_ [E1 [E2 [E3 E4]]]]]]]]]]]]].
    unfold share. rewrite E1, E2, E3, E4. reflexivity.
  Qed.
  Lemma happens_quiet S C v S' C' r b : happens (S, C) v = Ok (S', C') -> quiet r v -> share S' r b = share S r b.
  Proof.
    intros H QU. destruct v; cbn [SpecOpprf.happens quiet] in *.
    - destruct QU.
    - inv H. apply Ok_inj in H. assert (fst v0 = S') as <- by congruence. apply runOTRound_keeps in Q. apply share_like, Q.
    - inv H. apply Ok_inj in H. assert (S = S') as <- by congruence. reflexivity.
    - inv H. apply Ok_inj in H. assert (v = S') as -> by congruence. unfold server_clean in Q. inv Q. apply Ok_inj in Q. subst S' r. reflexivity.
    - apply Ok_inj in H. assert (S = S') as <- by congruence. reflexivity.
    - inv H. apply Ok_inj in H. assert (S = S') as <- by congruence. reflexivity.
    - inv H. apply Ok_inj in H. assert (S = S') as <- by congruence. reflexivity.
    - inv H. apply Ok_inj in H. assert (S = S') as <- by congruence. reflexivity.
    - apply Ok_inj in H. assert (S = S') as <- by congruence. reflexivity.
  Qed.
  Lemma history_quiet r b l : forall S C S' C', history l (S, C) = Ok (S', C') -> Forall (quiet r) l -> share S' r b = share S r b.
  Proof.
    unfold SpecOpprf.history. induction l as [|v l IH]; intros S C S' C' H F; cbn [foldM] in H.
    - apply Ok_inj in H. assert (S = S') as <- by congruence. reflexivity.
    - inv H. destruct v0 as [S1 C1]. inversion F as [|? ? F1 F2]; subst. rewrite (IH S1 C1 S' C' H F2). apply (happens_quiet S C v S1 C1 r b Q F1).
  Qed.

  Lemma select_selected D b rk R pk : dme_ok live D -> branch b -> selectMsg dbg live (otrecv_new D) b rk = Ok (R, pk) -> selected dbg live D b rk R pk.
  Proof.
    intros OK B E. destruct (select_ok dbg live (otrecv_new D) b rk OK B) as [R' [pk' [E' [_ SEL]]]]. rewrite E in E'. apply Ok_inj in E'.
    assert (R = R' /\ pk = pk') as [-> ->] by (split; congruence). exact SEL.
  Qed.

  Lemma L_C102_secret S0 C0 a l S C r D rk0 rk1 R0 pk0 R1 pk1 qa qb qc q0 u v qa' qb' qc' q1 u' v' :
    fresh_server S0 -> server_ready live S0 a -> history l (S0, C0) = Ok (S, C) -> 1 <= r <= 16 -> loaded l r ->
    dme_ok live D -> same_crs (dcrs (sdme (ots S0))) (dcrs D) ->
    selectMsg dbg live (otrecv_new D) 0 rk0 = Ok (R0, pk0) -> selectMsg dbg live (otrecv_new D) 1 rk1 = Ok (R1, pk1) ->
    (forall w, multiple (share S r 0) w -> ot_ok live (dcrs D) 0 rk0 q0 w) -> (forall w, multiple (share S r 1) w -> ot_ok live (dcrs D) 1 rk1 q1 w) ->
    exists S1 c0 P0, runOTRound dbg live S r pk0 qa qb qc q0 u v = Ok (S1, c0) /\ decryptMsg dbg live R0 (ocprf c0) = Ok P0 /\
      forall l' S2 C2, history l' (S1, C) = Ok (S2, C2) -> Forall (quiet r) l' ->
      exists S3 c1 P1 N Q G, runOTRound dbg live S2 r pk1 qa' qb' qc' q1 u' v' = Ok (S3, c1) /\ decryptMsg dbg live R1 (ocprf c1) = Ok P1 /\
        pmulz dbg live CV P0 (-1) = Ok N /\ padd dbg live CV P1 N = Ok Q /\ pmulz dbg live CV Q (halve (r - 1)) = Ok G /\
        is_valid live G /\ same_point G (ga S0).
  Proof.
    intros F SR H RG LD OK SC ES0 ES1 OT0 OT1.
    destruct (history_share dbg live e iv S0 C0 a l S C r F SR H RG LD) as [w [M0 M1]].
    pose proof (history_keeps dbg live e iv l S0 C0 S C H) as [[CF RO] _]. unfold config in CF.
    assert (CF0 : sdme (ots S) = sdme (ots S0)) by congruence.
    destruct (RO (sr_rows _ _ _ SR)) as [L0 L1].
    pose proof (select_selected D 0 rk0 R0 pk0 OK (or_introl eq_refl) ES0) as SEL0. pose proof (select_selected D 1 rk1 R1 pk1 OK (or_intror eq_refl) ES1) as SEL1.
    assert (OKS : dme_ok live (sdme (ots S))) by (rewrite CF0; apply (sr_ots _ _ _ SR)).
    assert (SCS : same_crs (dcrs (sdme (ots S))) (dcrs D)) by (rewrite CF0; exact SC).
    destruct (round_open S D 0 rk0 R0 pk0 r qa qb qc q0 u v w OK SEL0 (or_introl eq_refl) OKS SCS RG L0 L1
                (multiple_valid live _ _ M0) (multiple_valid live _ _ M1) M0 (OT0 w M0)) as [S1 [c0 [P0 [E0 [EP0 MP0]]]]].
    exists S1, c0, P0. split; [exact E0|]. split; [exact EP0|]. intros l' S2 C2 H' QU.
    pose proof (runOTRound_keeps dbg live _ _ _ _ _ _ _ _ _ _ E0) as LK. cbn [fst] in LK.
    pose proof (like_config S1 S LK) as [CF1 [LA LB]]. unfold config in CF1.
    pose proof (history_keeps dbg live e iv l' S1 C S2 C2 H') as [[CF2 RO2] _]. unfold config in CF2.
    assert (CF3 : sdme (ots S2) = sdme (ots S0)) by congruence.
    destruct (RO2 (conj (eq_trans LA L0) (eq_trans LB L1))) as [L2 L3].
    assert (SH : forall b, share S2 r b = share S r b) by (intros b; rewrite (history_quiet r b l' S1 C S2 C2 H' QU); apply share_like, LK).
    destruct (round_open S2 D 1 rk1 R1 pk1 r qa' qb' qc' q1 u' v' (2 ^ (r - 1) * a + w) OK SEL1 (or_intror eq_refl)) as [S3 [c1 [P1 [E1 [EP1 MP1]]]]].
    { rewrite CF3. apply (sr_ots _ _ _ SR). } { rewrite CF3. exact SC. } { exact RG. } { exact L2. } { exact L3. }
    { rewrite SH. exact (multiple_valid live _ _ M0). } { rewrite SH. exact (multiple_valid live _ _ M1). } { rewrite SH. exact M1. } { apply OT1, M1. }
    destruct (pmulz_m dbg live P0 _ (-1) MP0) as [N [EN MN]]. destruct (padd_m dbg live P1 N _ _ MP1 MN) as [Q [EQ MQ]].
    destruct (pmulz_m dbg live Q _ (halve (r - 1)) MQ) as [G [EG MG]].
    exists S3, c1, P1, N, Q, G. split; [exact E1|]. split; [exact EP1|]. split; [exact EN|]. split; [exact EQ|]. split; [exact EG|].
    destruct (halve_ok (r - 1)) as [q Eq]; [lia|].
    assert (MA : multiple G a).
    { apply (mult_mod _ _ _ MG). exists (q * a). replace (halve (r - 1) * (2 ^ (r - 1) * a + w + -1 * w) - a) with ((halve (r - 1) * 2 ^ (r - 1) - 1) * a) by ring.
      rewrite Eq. ring. }
    split; [exact (multiple_valid live _ _ MA)|]. unfold same_point. rewrite (proj2 MA). symmetry. apply (sr_ga _ _ _ SR).
  Qed.

  (** with the secret, one value gives them all *)
  Lemma L_C102_values S0 C1 a d x1 G : aes_ready e iv -> server_ready live S0 a -> client_ready live C1 x1 ->
    same_crs (dcrs (sdme (ots S0))) (dcrs (rdme (otr C1))) ->
    good_draws dbg live e iv (dcrs (rdme (otr C1))) (sdme (ots S0)) (theta S0) a x1 d -> x1 <= theta S0 -> result C1 = pt_inf CV ->
    is_valid live G -> same_point G (ga S0) ->
    exists S C, session dbg live e iv S0 C1 d = Ok (S, C) /\ forall x, exists T V,
      pmulz dbg live CV G (x - x1) = Ok T /\ padd dbg live CV (result C) T = Ok V /\ is_valid live V /\
      den CV V = gadd CV (den CV (kopprf S)) (gmul CV x (den CV (ga S0))).
  Proof.
    intros A SR CR SC GD LE R0 VG SP.
    assert (MZ : multiple (result C1) 0) by (rewrite R0; split; [left; reflexivity|reflexivity]).
    destruct (L_session dbg live e iv S0 C1 d a x1 0 A SR CR SC GD MZ) as [S [C [E [B [_ [_ [_ [_ M]]]]]]]].
    exists S, C. split; [exact E|]. intros x.
    assert (MG : multiple G a) by (split; [exact VG|]; unfold same_point in SP; rewrite SP; apply (sr_ga _ _ _ SR)).
    destruct (pmulz_m dbg live G a (x - x1) MG) as [T [ET MT]]. destruct (padd_m dbg live (result C) T _ _ M MT) as [V [EV MV]].
    exists T, V. split; [exact ET|]. split; [exact EV|]. split; [exact (multiple_valid live _ _ MV)|].
    rewrite (proj2 MV), (proj2 (ba_kopprf _ _ _ _ B)), (proj2 (sr_ga _ _ _ SR)).
    change (gmul CV a (ggen CV)) with (EccProofs.gk CV a). change (gmul CV (d_kopprf (sd_prep d)) (ggen CV)) with (EccProofs.gk CV (d_kopprf (sd_prep d))).
    unfold gadd, gmul. rewrite !(gk_mul CV good_CV), !(gk_add CV good_CV). apply (f_equal (EccProofs.gk CV)).
    unfold outcome_log. destruct (Z.compare_spec x1 (theta S0)) as [L|L|L]; [| |lia]; ring.
  Qed.

  (** ** Preparing again without clean(): the key of the first session opens the masks of the second *)
  Lemma rounds_keep l : forall S C S' C', foldM (one_round dbg live e iv) l (S, C) = Ok (S', C') -> like S' S.
  Proof.
    induction l as [|v l IH]; intros S C S' C' H; cbn [foldM] in H.
    - apply Ok_inj in H. assert (S = S') as <- by congruence. unfold like; reflexivity.
    - inv H. destruct v0 as [S1 C1]. apply (eq_trans (y := blank S1)); [apply (IH _ _ _ _ H)|]. clear H. change (like S1 S). unfold one_round in Q. cbn [fst snd] in Q.
      inv Q. inv Q. inv Q. apply Ok_inj in Q. assert (fst v1 = S1) as <- by congruence. apply (runOTRound_keeps dbg live _ _ _ _ _ _ _ _ _ _ Q1).
  Qed.

  Lemma L_C103_bypass S0 C1 C2 d1 d2 a x1 x2 : aes_ready e iv -> fresh_server S0 -> server_ready live S0 a ->
    client_ready live C1 x1 -> client_ready live C2 x2 ->
    same_crs (dcrs (sdme (ots S0))) (dcrs (rdme (otr C1))) -> same_crs (dcrs (sdme (ots S0))) (dcrs (rdme (otr C2))) ->
    good_draws dbg live e iv (dcrs (rdme (otr C1))) (sdme (ots S0)) (theta S0) a x1 d1 -> x1 <= theta S0 ->
    result C1 = pt_inf CV -> result C2 = pt_inf CV ->
    (let d := with_prep d2 (keep_keys (sd_prep d1) (sd_prep d2)) in
     good_draws dbg live e iv (dcrs (rdme (otr C2))) (sdme (ots S0)) (theta S0) a x2 d /\ masks_open dbg live e iv d (x1 ?= theta S0)) ->
    exists S1 C1' S2 S3 C3 ms C4, session dbg live e iv S0 C1 d1 = Ok (S1, C1') /\ prepare S1 (sd_prep d2) = Ok S2 /\
      foldM (one_round dbg live e iv) (map (fun r => (r, sd_round d2 r)) rounds) (S2, C2) = Ok (S3, C3) /\
      sendEncryptedMasks dbg live e iv S3 (sd_random d2) (sd_u d2) (sd_v d2) = Ok ms /\
      unmaskResult dbg live e iv (with_key C3 (key C1')) ms (sd_mask d2) = Ok C4 /\
      is_valid live (result C4) /\ den CV (result C4) = gadd CV (den CV (kopprf S3)) (gmul CV x2 (den CV (ga S0))).
  Proof.
    intros A F SR CR1 CR2 SC1 SC2 GD1 LE R1 R2 [GD MO].
    set (d := with_prep d2 (keep_keys (sd_prep d1) (sd_prep d2))) in *.
    assert (MZ1 : multiple (result C1) 0) by (rewrite R1; split; [left; reflexivity|reflexivity]).
    assert (MZ2 : multiple (result C2) 0) by (rewrite R2; split; [left; reflexivity|reflexivity]).
    destruct (L_session dbg live e iv S0 C1 d1 a x1 0 A SR CR1 SC1 GD1 MZ1) as [S1 [C1' [E1 [B [_ [_ [_ [K1 _]]]]]]]].
    assert (exists T1, prepare S0 (sd_prep d1) = Ok T1 /\ like S1 T1) as [T1 [EP1 LK1]].
    { pose proof E1 as E. unfold session in E. inv E. inv E. inv E. inv E. apply Ok_inj in E. exists v. split; [exact Q|].
      destruct v0 as [Sx Cx]. cbn [fst snd] in *. assert (Sx = S1) as <- by congruence. apply (rounds_keep _ _ _ _ _ Q0). }
    pose proof (again_alike dbg live e iv S0 S1 T1 (sd_prep d1) (sd_prep d2) F EP1 LK1) as AL.
    destruct (prepare_ok dbg live e iv S0 (sd_prep d) a A SR (gd_keys _ _ _ _ _ _ _ _ _ _ GD)) as [T2 [E2 [B2 [T20 [T21 [_ RW]]]]]].
    change (keep_keys (sd_prep d1) (sd_prep d2)) with (sd_prep d) in AL. rewrite E2 in AL.
    destruct (prepare S1 (sd_prep d2)) as [S2|] eqn:ES2; [|destruct AL]. cbn [alike] in AL.
    assert (P1 : prepared live e iv S0 T2 (sd_prep d) a) by (split; [exact B2|split; [exact T20|split; [exact T21|exact RW]]]).
    destruct (top_round_ok dbg live e iv S0 C2 T2 d a x2 0 SR CR2 SC2 GD P1 MZ2) as [S2' [C2' [E3 [P2 A2]]]].
    destruct (rounds_ok dbg live e iv S0 C2 d a x2 0 SR CR2 SC2 GD 15 ltac:(lia) S2' C2' P2 A2) as [T3 [D3 [E4 [P3 A3]]]].
    assert (E : foldM (one_round dbg live e iv) (map (fun r => (r, sd_round d2 r)) rounds) (T2, C2) = Ok (T3, D3)).
    { unfold rounds, MSG_BITS. rewrite (seq_S 15), rev_app_distr. cbn [rev app map foldM]. change (Z.of_nat (1 + 15)) with 16.
      change (sd_round d2) with (sd_round d). rewrite E3. cbn [bind]. exact E4. }
    assert (AR : alike (fun a b => like (fst a) (fst b) /\ likec (snd a) (snd b))
              (foldM (one_round dbg live e iv) (map (fun r => (r, sd_round d2 r)) rounds) (S2, C2))
              (foldM (one_round dbg live e iv) (map (fun r => (r, sd_round d2 r)) rounds) (T2, C2))).
    { apply (alike_foldM (fun a b => like (fst a) (fst b) /\ likec (snd a) (snd b))).
      - intros [s c] [t c'] q [A' B']. apply one_round_like; [exact A'|exact B'].
      - split; [exact AL|apply likec_refl]. }
    rewrite E in AR. destruct (foldM _ _ (S2, C2)) as [[S3 C3]|] eqn:ES3; [|destruct AR]. cbn [alike fst snd] in AR. destruct AR as [L3 LC3].
    destruct (masks_ok dbg live e iv S0 T3 d a (x1 ?= theta S0) SR MO (proj1 P3) (sd_u d) (sd_v d)) as [f [E5 MF]].
    set (th := match x1 ?= theta S0 with Lt => x2 + 1 | _ => x2 end).
    assert (TH : (x2 ?= th) = (x1 ?= theta S0)).
    { unfold th. destruct (Z.compare_spec x1 (theta S0)) as [L|L|L]; [apply Z.compare_refl|apply Z.compare_lt_iff; lia|lia]. }
    assert (A4 : at_level live C2 d th a x2 0 0 (with_key D3 (key C1'))).
    { split; cbn [with_key otr ccur cx result key].
      - apply (al_dme _ _ _ _ _ _ _ _ _ A3). - apply (al_cur _ _ _ _ _ _ _ _ _ A3). - apply (al_x _ _ _ _ _ _ _ _ _ A3).
      - rewrite prefix_cmp_0, TH, K1. unfold level_key, d, with_prep, keep_keys. cbn [sd_prep]. destruct (x1 ?= theta S0); reflexivity.
      - apply (al_res _ _ _ _ _ _ _ _ _ A3). }
    destruct (unmask_ok dbg live e iv C2 d th a x2 0 (with_key D3 (key C1')) f (sd_u d) (sd_v d) CR2 A4 (gd_unmask _ _ _ _ _ _ _ _ _ _ GD)) as [C4 [E6 [_ [_ [_ [_ M4]]]]]].
    { rewrite TH. exact MO. } { exact MF. }
    assert (LK : likec (with_key C3 (key C1')) (with_key D3 (key C1'))).
    { revert LC3. unfold likec. cbn [with_key otr ccur cx result key rdme]. intros [H1 [H2 [H3 [H4 _]]]]. split; [exact H1|]. split; [exact H2|]. split; [exact H3|]. split; [exact H4|reflexivity]. }
    pose proof (unmask_like dbg live e iv _ _ (shuffle3 [f Lt; f Eq; f Gt] (sd_u d) (sd_v d)) (sd_mask d) LK) as AU. rewrite E6 in AU.
    destruct (unmaskResult dbg live e iv (with_key C3 (key C1')) _ _) as [C4'|] eqn:EU; [|destruct AU]. cbn [alike] in AU.
    exists S1, C1', S2, S3, C3, (shuffle3 [f Lt; f Eq; f Gt] (sd_u d) (sd_v d)), C4'.
    split; [exact E1|]. split; [exact ES2|]. split; [exact ES3|].
    split; [rewrite (masks_like dbg live e iv S3 T3 _ _ _ L3); exact E5|]. split; [exact EU|].
    assert (RE : result C4' = result C4) by apply AU. rewrite RE. split; [exact (multiple_valid live _ _ M4)|].
    assert (KO : kopprf S3 = kopprf T3) by (apply like_fields in L3; intuition congruence). rewrite KO.
    rewrite (proj2 M4), (proj2 (ba_kopprf _ _ _ _ (proj1 P3))), (proj2 (sr_ga _ _ _ SR)).
    change (gmul CV a (ggen CV)) with (EccProofs.gk CV a). change (gmul CV (d_kopprf (sd_prep d)) (ggen CV)) with (EccProofs.gk CV (d_kopprf (sd_prep d))).
    unfold gadd, gmul. rewrite !(gk_mul CV good_CV), !(gk_add CV good_CV). apply (f_equal (EccProofs.gk CV)).
    unfold outcome_log. rewrite TH. destruct (Z.compare_spec x1 (theta S0)) as [L|L|L]; [| |lia]; ring.
  Qed.
End Again.
