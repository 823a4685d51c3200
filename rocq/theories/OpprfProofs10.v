(** What the order of the ciphertexts tells: proofs. *)
From Coq Require Import ZArith Znumtheory Bool List Lia Field Permutation.
From Verif Require Import Outcome FieldModel ZpField SpecField FieldProofs ECGroup ECOrder CurveParams CurveFacts EccModel EccProofs SpecEcc EccThms Emb RF.
From Verif Require Import DmeModel SpecDme DmeProofs DmeProofs2 OtModel SpecOt OtProofs OtProofs2 CrcModel AesModel SpecAes OpprfModel SpecOpprf SpecOpprf2 SpecOpprf4.
From Verif Require Import OpprfProofs OpprfProofs2 OpprfProofs5.
Import ListNotations.
Open Scope Z_scope.

Section Opprf10.
  Variables (dbg : bool) (live : Z -> bool) (e : env) (iv : list Z).
  Notation multiple := (multiple live).
  Notation decryptCRC := (decryptCRC e iv).
  Notation prepared := (prepared live e iv).
  Notation based := (based live).
  Notation opens := (opens dbg live e iv).
  Notation at_level := (at_level live).

  Ltac inv H := let a := fresh "v" in let E := fresh "Q" in apply bind_Ok in H; destruct H as [a [E H]].

  Definition letter {A} (a b c : A) (s : comparison) : A := match s with Lt => a | Eq => b | Gt => c end.

  Lemma round_rows S0 C0 S C d a x z j : server_ready live S0 a -> client_ready live C0 x ->
    same_crs (dcrs (sdme (ots S0))) (dcrs (rdme (otr C0))) ->
    good_draws dbg live e iv (dcrs (rdme (otr C0))) (sdme (ots S0)) (theta S0) a x d ->
    prepared S0 S (sd_prep d) a -> (j < 15)%nat -> at_level C0 d (theta S0) a x z (Datatypes.S j) C ->
    let round := Z.of_nat (Datatypes.S j) in let r := sd_round d round in
    exists R pk S' v1 v2 v3 vp, runOTRound_start dbg live C round (rd_key r) = Ok (mkcli R (ccur C) (cx C) (result C) (key C), pk) /\
      runOTRound dbg live S round pk (rd_a r) (rd_b r) (rd_c r) (rd_p r) (rd_u r) (rd_v r) = Ok (S', mkoc (shuffle3 [v1; v2; v3] (rd_u r) (rd_v r)) vp) /\
      forall s, opens R (key C) (letter v1 v2 v3 s)
        (if same_letter s (prefix_cmp x (theta S0) (Datatypes.S j)) then level_key (sd_prep d) (prefix_cmp x (theta S0) j) j else 0).
  Proof.
    intros SR CR SC GD P J AL. set (round := Z.of_nat (Datatypes.S j)) in *. set (r := sd_round d round) in *. cbv zeta. fold r. set (D := rdme (otr C0)) in *.
    pose proof (sr_ots _ _ _ SR) as OS. pose proof (cr_otr _ _ _ CR) as OC. fold D in OC.
    assert (OC' : dme_ok live (rdme (otr C))) by (rewrite (al_dme _ _ _ _ _ _ _ _ _ AL); exact OC).
    destruct (start_ok dbg live C x j (rd_key r) OC' (al_x _ _ _ _ _ _ _ _ _ AL) ltac:(lia)) as [R [pk [E1 [ER SEL]]]].
    rewrite (al_dme _ _ _ _ _ _ _ _ _ AL) in SEL, ER. fold D in SEL, ER.
    exists R, pk.
    set (b := bit x j) in *. pose proof (bit_branch x j) as Hb. fold b in Hb.
    unfold runOTRound. rewrite (proj2 (Z.eqb_neq round BITS)) by (unfold BITS, round; cbn; lia).
    destruct P as [BA [T0 [T1 RW]]]. destruct (RW j J) as [r0 [r1 [N0 [N1 [Q0 Q1]]]]].
    assert (V0 : vat (Si0 S) round = Ok r0) by exact (vat_nth _ _ _ N0). assert (V1 : vat (Si1 S) round = Ok r1) by exact (vat_nth _ _ _ N1).
    rewrite V0, V1. cbn [bind].
    set (row := if b =? 0 then r0 else r1).
    assert (Q : row_ok live e iv (sd_prep d) (theta S0) a j b row).
    { rewrite (ba_theta _ _ _ _ BA) in Q0, Q1. unfold row. destruct Hb as [-> | ->]; assumption. }
    assert (OTS : forall S', based S0 S' (sd_prep d) -> dme_ok live (sdme (ots S')) /\ same_crs (dcrs (sdme (ots S'))) (dcrs D)).
    { intros S' B'. rewrite (ba_ots _ _ _ _ B'). split; assumption. }
    destruct (OTS S BA) as [O1 C1].
    destruct (encZ_ok dbg live S pk R D b (rd_key r) (rd_a r) (ilt r0) (ilt r1) OC SEL Hb O1 C1) as [o1 [v1 [EZ1 [D1 H1]]]].
    rewrite EZ1. cbn [bind fst snd]. pose proof (based_ots live _ _ _ _ BA D1) as BA1. destruct (OTS _ BA1) as [O2 C2].
    destruct (encZ_ok dbg live (set_ots S o1) pk R D b (rd_key r) (rd_b r) (ieq r0) (ieq r1) OC SEL Hb O2 C2) as [o2 [v2 [EZ2 [D2 H2]]]].
    rewrite EZ2. cbn [bind fst snd]. pose proof (based_ots live _ _ _ _ BA1 D2) as BA2. destruct (OTS _ BA2) as [O3 C3].
    destruct (encZ_ok dbg live (set_ots (set_ots S o1) o2) pk R D b (rd_key r) (rd_c r) (igt r0) (igt r1) OC SEL Hb O3 C3) as [o3 [v3 [EZ3 [D3 H3]]]].
    rewrite EZ3. cbn [bind fst snd]. pose proof (based_ots live _ _ _ _ BA2 D3) as BA3. destruct (OTS _ BA3) as [O4 C4].
    destruct (encP_ok dbg live (set_ots (set_ots (set_ots S o1) o2) o3) pk R D b (rd_key r) (rd_p r) (iprf r0) (iprf r1) OC SEL Hb O4 C4
                (multiple_valid live _ _ (proj2 Q0)) (multiple_valid live _ _ (proj2 Q1))) as [o4 [v4 [EP [D4 H4]]]].
    rewrite EP. cbn [bind fst snd].
    do 5 eexists. split; [exact E1|]. split; [reflexivity|].
    rewrite (ba_ots _ _ _ _ BA) in H1. rewrite (ba_ots _ _ _ _ BA1) in H2. rewrite (ba_ots _ _ _ _ BA2) in H3.
    intros s. pose proof (proj1 Q s) as ES. rewrite (al_key _ _ _ _ _ _ _ _ _ AL).
    destruct (gd_link _ _ _ _ _ _ _ _ _ _ GD j J s _ ES) as [EN DE].
    pose proof (gd_ot_link _ _ _ _ _ _ _ _ _ _ GD j J s _ ES) as OT. cbv zeta in OT. fold round r b in OT.
    exists (letter_ct s row). split; [|exact DE].
    destruct s; cbv zeta in H1, H2, H3; cbn [letter_quad] in OT; cbn [letter].
    - replace (letter_ct Eq row) with (if b =? 0 then ieq r0 else ieq r1) in * by (unfold row; destruct (b =? 0); reflexivity). apply H2; assumption.
    - replace (letter_ct Lt row) with (if b =? 0 then ilt r0 else ilt r1) in * by (unfold row; destruct (b =? 0); reflexivity). apply H1; assumption.
    - replace (letter_ct Gt row) with (if b =? 0 then igt r0 else igt r1) in * by (unfold row; destruct (b =? 0); reflexivity). apply H3; assumption.
  Qed.

  (** the first open element of a shuffled triple *)
  Lemma first_row_at R k K v1 v2 v3 u v w : K <> 0 -> (forall s, opens R k (letter v1 v2 v3 s) (if same_letter s w then K else 0)) ->
    exists p, first_row dbg live e iv R k (shuffle3 [v1; v2; v3] u v) = Ok p /\ letter_at (u, v) p = Some w.
  Proof.
    intros N H. pose proof (proj2 (Z.eqb_neq _ _) N) as N'.
    assert (U : Z.to_nat (u mod 2) = 0%nat \/ Z.to_nat (u mod 2) = 1%nat) by (pose proof (Z.mod_pos_bound u 2); lia).
    assert (V : Z.to_nat (v mod 3) = 0%nat \/ Z.to_nat (v mod 3) = 1%nat \/ Z.to_nat (v mod 3) = 2%nat) by (pose proof (Z.mod_pos_bound v 3); lia).
    destruct (H Lt) as [t1 [A1 B1]]. destruct (H Eq) as [t2 [A2 B2]]. destruct (H Gt) as [t3 [A3 B3]]. cbn [letter] in A1, A2, A3.
    unfold letter_at, shuffle3. cbn [fst snd].
    destruct U as [-> | ->], V as [-> | [-> | ->]]; cbn [swap nth_error length seq combine map fst snd Nat.eqb first_row];
      repeat first [rewrite A1 | rewrite A2 | rewrite A3]; cbn [bind]; repeat first [rewrite B1 | rewrite B2 | rewrite B3]; cbn [bind];
      destruct w; cbn [same_letter]; rewrite ?N', ?Z.eqb_refl; cbn [bind];
      (eexists; split; [reflexivity|reflexivity]).
  Qed.
  Lemma first_mask_at k K f u v w : K <> 0 -> (forall s, decryptCRC k (f s) = Ok (if same_letter s w then K else 0)) ->
    exists p, first_mask e iv k (shuffle3 [f Lt; f Eq; f Gt] u v) = Ok p /\ letter_at (u, v) p = Some w.
  Proof.
    intros N H. pose proof (proj2 (Z.eqb_neq _ _) N) as N'.
    assert (U : Z.to_nat (u mod 2) = 0%nat \/ Z.to_nat (u mod 2) = 1%nat) by (pose proof (Z.mod_pos_bound u 2); lia).
    assert (V : Z.to_nat (v mod 3) = 0%nat \/ Z.to_nat (v mod 3) = 1%nat \/ Z.to_nat (v mod 3) = 2%nat) by (pose proof (Z.mod_pos_bound v 3); lia).
    unfold letter_at, shuffle3. cbn [fst snd].
    destruct U as [-> | ->], V as [-> | [-> | ->]]; cbn [swap nth_error length seq combine map fst snd Nat.eqb first_mask];
      rewrite !H; cbn [bind]; destruct w; cbn [same_letter]; rewrite ?N', ?Z.eqb_refl; cbn [bind];
      (eexists; split; [reflexivity|reflexivity]).
  Qed.

  Definition sched (d : session_draws) (k : nat) : list (Z * round_draws) := map (fun r => (r, sd_round d r)) (map Z.of_nat (rev (seq 1 k))).
  Lemma sched_S d k : sched d (S k) = (Z.of_nat (S k), sd_round d (Z.of_nat (S k))) :: sched d k.
  Proof. unfold sched. rewrite seq_S, rev_app_distr. reflexivity. Qed.
  Lemma schedule_16 d : schedule d = (16, sd_round d 16) :: sched d 15.
  Proof. unfold schedule, rounds, MSG_BITS. rewrite (seq_S 15), rev_app_distr. reflexivity. Qed.
  Definition shuf (d : session_draws) (k : nat) : list (Z * Z) :=
    map (fun r => (rd_u (sd_round d (Z.of_nat r)), rd_v (sd_round d (Z.of_nat r)))) (rev (seq 1 k)).
  Lemma shuf_S d k : shuf d (S k) = (rd_u (sd_round d (Z.of_nat (S k))), rd_v (sd_round d (Z.of_nat (S k)))) :: shuf d k.
  Proof. unfold shuf. rewrite seq_S, rev_app_distr. reflexivity. Qed.

  Lemma pos_rounds S0 C0 d a x z : server_ready live S0 a -> client_ready live C0 x ->
    same_crs (dcrs (sdme (ots S0))) (dcrs (rdme (otr C0))) ->
    good_draws dbg live e iv (dcrs (rdme (otr C0))) (sdme (ots S0)) (theta S0) a x d ->
    forall k, (k <= 15)%nat -> forall S C, prepared S0 S (sd_prep d) a -> at_level C0 d (theta S0) a x z k C ->
    exists S' C' ms ps, exchanges dbg live S C (sched d k) = Ok (S', ms) /\ rows_opened dbg live e iv C (sched d k) ms = Ok (ps, C') /\
      prepared S0 S' (sd_prep d) a /\ at_level C0 d (theta S0) a x z 0 C' /\
      Forall2 (fun uv pj => letter_at uv (fst pj) = Some (prefix_cmp x (theta S0) (snd pj))) (shuf d k) (combine ps (rev (seq 1 k))) /\ length ps = k.
  Proof.
    intros SR CR SC GD. induction k as [|k IH]; intros K S C P AL.
    - exists S, C, [], []. split; [reflexivity|]. split; [reflexivity|]. split; [exact P|]. split; [exact AL|]. split; [constructor|reflexivity].
    - destruct (round_ok dbg live e iv S0 C0 S C d a x z k SR CR SC GD P ltac:(lia) AL) as [S1 [C1 [E [P1 A1]]]].
      destruct (round_rows S0 C0 S C d a x z k SR CR SC GD P ltac:(lia) AL) as [R [pk [S1' [v1 [v2 [v3 [vp [ES [EV OP]]]]]]]]].
      unfold one_round in E. cbn [fst snd] in E. rewrite ES in E. cbn [bind fst snd] in E. rewrite EV in E. cbn [bind fst snd] in E.
      inv E. apply Ok_inj in E. injection E as <- <-.
      destruct (IH ltac:(lia) S1' v P1 A1) as [S2 [C2 [ms [ps [E2 [E3 [P2 [A2 [F2 LE]]]]]]]]].
      assert (KN : level_key (sd_prep d) (prefix_cmp x (theta S0) k) k <> 0).
      { pose proof (gd_keys _ _ _ _ _ _ _ _ _ _ GD (prefix_cmp x (theta S0) k) k ltac:(lia)). lia. }
      destruct (first_row_at R (key C) _ v1 v2 v3 (rd_u (sd_round d (Z.of_nat (Datatypes.S k)))) (rd_v (sd_round d (Z.of_nat (Datatypes.S k)))) _ KN OP) as [p [EP LP]].
      do 2 eexists. exists ((pk, mkoc (shuffle3 [v1; v2; v3] (rd_u (sd_round d (Z.of_nat (Datatypes.S k)))) (rd_v (sd_round d (Z.of_nat (Datatypes.S k))))) vp) :: ms), (p :: ps).
      rewrite sched_S. cbn [exchanges rows_opened]. rewrite ES. cbn [bind fst snd]. rewrite EV. cbn [bind fst snd].
      rewrite (proj2 (Z.eqb_neq (Z.of_nat (Datatypes.S k)) BITS)) by (unfold BITS; cbn; lia). cbn [otr key oc]. rewrite EP. cbn [bind].
      rewrite Q. cbn [bind].
      rewrite <- (exchanges_voice dbg live (sched d k) S1' v (mkcli R (ccur C) (cx C) (result C) (key C))) by exact (end_voice dbg live e iv _ _ _ _ Q).
      rewrite E2, E3. cbn [bind fst snd app].
      split; [reflexivity|]. split; [reflexivity|]. split; [exact P2|]. split; [exact A2|]. split; [|cbn [length]; rewrite LE; reflexivity].
      rewrite shuf_S, seq_S, rev_app_distr. cbn [rev app combine]. constructor; [exact LP|exact F2].
  Qed.

  Lemma F2_letters (g : nat -> comparison) us : forall ps js, length ps = length js ->
    Forall2 (fun (uv : Z * Z) (pj : nat * nat) => letter_at uv (fst pj) = Some (g (snd pj))) us (combine ps js) ->
    map (fun w => letter_at (fst w) (snd w)) (combine us ps) = map (fun j => Some (g j)) js.
  Proof.
    induction us as [|uv us IH]; intros [|p ps] [|j js] LE F2; try discriminate LE; cbn [combine map] in *; inversion F2; subst; [reflexivity|].
    cbn [fst snd] in *. rewrite H2. apply (f_equal (cons (Some (g j)))). apply IH; [apply Nat.succ_inj; exact LE|assumption].
  Qed.

  Lemma combine_app {A B} (l l' : list A) (m m' : list B) : length l = length m -> combine (l ++ l') (m ++ m') = combine l m ++ combine l' m'.
  Proof. revert m. induction l as [|a l IH]; intros [|b m] H; try discriminate H; [reflexivity|]. cbn [combine app]. rewrite IH; [reflexivity|]. apply Nat.succ_inj. exact H. Qed.

  Lemma L_C89 S C d a x : aes_ready e iv -> server_ready live S a -> client_ready live C x ->
    same_crs (dcrs (sdme (ots S))) (dcrs (rdme (otr C))) ->
    good_draws dbg live e iv (dcrs (rdme (otr C))) (sdme (ots S)) (theta S) a x d ->
    exists t ps, talk dbg live e iv S C d = Ok t /\ places dbg live e iv C d t = Ok ps /\ length ps = 16%nat /\
      letters d ps = map (fun j => Some (prefix_cmp x (theta S) j)) levels.
  Proof.
    intros A SR CR SC GD. destruct (valid_multiple live _ (cr_result _ _ _ CR)) as [z MZ].
    destruct (prepare_ok dbg live e iv S (sd_prep d) a A SR (gd_keys _ _ _ _ _ _ _ _ _ _ GD)) as [S1 [E1 [B1 [T0 [T1 [_ RW]]]]]].
    assert (P1 : prepared S S1 (sd_prep d) a) by (split; [exact B1|split; [exact T0|split; [exact T1|exact RW]]]).
    destruct (top_round_ok dbg live e iv S C S1 d a x z SR CR SC GD P1 MZ) as [S2 [C2 [E2 [P2 A2]]]].
    destruct (pos_rounds S C d a x z SR CR SC GD 15 ltac:(lia) S2 C2 P2 A2) as [S3 [C3 [ms [ps [E3 [E4 [P3 [A3 [F2 LE]]]]]]]]].
    destruct (masks_ok dbg live e iv S S3 d a (x ?= theta S) SR (gd_mask _ _ _ _ _ _ _ _ _ _ GD) (proj1 P3) (sd_u d) (sd_v d)) as [f [EM MO]].
    unfold one_round in E2. cbn [fst snd] in E2. inv E2. inv E2. inv E2. apply Ok_inj in E2. injection E2 as E2 E2'. subst S2 C2.
    (* the masks *)
    assert (KE : key C3 = level_key (sd_prep d) (x ?= theta S) 0) by (rewrite (al_key _ _ _ _ _ _ _ _ _ A3), prefix_cmp_0; reflexivity).
    assert (DE : forall s P m, mask_of dbg live e iv d s P m (f s) -> decryptCRC (key C3) (f s) = Ok (if same_letter s (x ?= theta S) then m else 0)).
    { intros s P m [M [_ [F1 F3]]]. destruct (gd_mask _ _ _ _ _ _ _ _ _ _ GD s) as [_ G]. destruct (G P m M F1) as [c' [G1 G2]].
      rewrite F3 in G1. apply Ok_inj in G1. subst c'. rewrite KE. exact G2. }
    destruct (MO (x ?= theta S)) as [P [m H]]. pose proof (enc_nonzero e iv _ _ _ (proj2 (proj2 (proj2 H)))) as MN.
    destruct (first_mask_at (key C3) m f (sd_u d) (sd_v d) (x ?= theta S) MN) as [p [EP LP]].
    { intros s. destruct (MO s) as [P' [m' H']]. rewrite (DE _ _ _ H'). destruct (same_letter s (x ?= theta S)) eqn:SL; [|reflexivity].
      apply same_letter_spec in SL. subst s. pose proof (DE _ _ _ H) as D1. pose proof (DE _ _ _ H') as D2.
      rewrite (proj2 (same_letter_spec _ _) eq_refl) in D1, D2. rewrite D1 in D2. symmetry. exact D2. }
    exists (mktr ((snd v, snd v0) :: ms) (shuffle3 [f Lt; f Eq; f Gt] (sd_u d) (sd_v d))), (ps ++ [p]).
    split; [|split; [|split]].
    - unfold talk. rewrite E1. cbn [bind]. rewrite schedule_16. cbn [exchanges]. rewrite Q. cbn [bind]. rewrite Q0. cbn [bind].
      rewrite <- (exchanges_voice dbg live (sched d 15) (fst v0) v1 (fst v)) by exact (end_voice dbg live e iv _ _ _ _ Q1).
      rewrite E3. cbn [bind fst snd]. rewrite EM. reflexivity.
    - unfold places. rewrite schedule_16. cbn [rows_opened tr_rounds]. rewrite Q. cbn [bind]. change (16 =? BITS) with true. cbv iota. cbn [bind].
      rewrite Q1. cbn [bind]. rewrite E4. cbn [bind fst snd tr_masks]. rewrite EP. reflexivity.
    - rewrite app_length, LE. reflexivity.
    - unfold letters. change (shuffles d) with (shuf d 15 ++ [(sd_u d, sd_v d)]). rewrite combine_app, map_app.
      + rewrite (F2_letters (fun j => prefix_cmp x (theta S) j) _ ps (rev (seq 1 15))); [|rewrite LE; reflexivity|exact F2].
        cbn [combine map fst snd]. rewrite LP. change levels with (rev (seq 1 15) ++ [0%nat]). rewrite map_app. cbn [map]. rewrite prefix_cmp_0. reflexivity.
      + rewrite LE. reflexivity.
  Qed.
End Opprf10.

(** ** What the comparisons of prefixes tell *)
Lemma pow_le k j : 0 <= j <= k -> exists c, 0 < c /\ 2 ^ k = 2 ^ j * c.
Proof. intros H. exists (2 ^ (k - j)). split; [apply Z.pow_pos_nonneg; lia|]. rewrite <- Z.pow_add_r by lia. f_equal. lia. Qed.
Lemma div_pow_le a k j : 0 <= j <= k -> a / 2 ^ k = a / 2 ^ j / 2 ^ (k - j).
Proof. intros H. rewrite Z.div_div by (apply Z.pow_nonzero || apply Z.pow_pos_nonneg; lia). rewrite <- Z.pow_add_r by lia. do 2 f_equal. lia. Qed.

Lemma cmp_below x t k j : 0 <= j <= k -> (x / 2 ^ k ?= t / 2 ^ k) <> Eq -> (x / 2 ^ j ?= t / 2 ^ j) = (x / 2 ^ k ?= t / 2 ^ k).
Proof.
  intros J N. rewrite (div_pow_le x k j J), (div_pow_le t k j J) in *. assert (W : 0 < 2 ^ (k - j)) by (apply Z.pow_pos_nonneg; lia).
  revert W N. generalize (x / 2 ^ j) as X, (t / 2 ^ j) as T, (2 ^ (k - j)) as w. intros X T w W N.
  destruct (X / w ?= T / w) eqn:E; [congruence| |].
  - apply Z.compare_lt_iff in E. apply Z.compare_lt_iff. destruct (Z_lt_le_dec X T) as [L|L]; [exact L|].
    pose proof (Z.div_le_mono _ _ w W L) as M. exfalso. revert M E. apply Z.le_ngt || (intros; lia).
  - apply Z.compare_gt_iff in E. apply Z.compare_gt_iff. destruct (Z_lt_le_dec T X) as [L|L]; [exact L|].
    pose proof (Z.div_le_mono _ _ w W L) as M. exfalso. revert M E. apply Z.le_ngt || (intros; lia).
Qed.

Lemma testbit_div x j : 0 <= j -> Z.testbit x j = negb (Z.even (x / 2 ^ j)).
Proof. intros H. rewrite Z.testbit_odd, Z.shiftr_div_pow2 by exact H. symmetry. apply Z.negb_even. Qed.

(** the highest bit in which the numbers differ *)
Lemma lxor_top x t : 0 <= x -> 0 <= t -> x <> t -> let k := Z.log2 (Z.lxor x t) in
  0 <= k /\ x / 2 ^ (k + 1) = t / 2 ^ (k + 1) /\ Z.testbit x k = negb (Z.testbit t k).
Proof.
  intros X T N k. assert (0 < Z.lxor x t).
  { pose proof (proj2 (Z.lxor_nonneg x t)) as H. assert (Z.lxor x t <> 0) by (intros E; apply N; apply Z.lxor_eq; exact E). lia. }
  pose proof (Z.log2_nonneg (Z.lxor x t)) as K. fold k in K. split; [exact K|]. split.
  - rewrite <- !Z.shiftr_div_pow2 by lia. apply Z.bits_inj'. intros i I. rewrite !Z.shiftr_spec by lia.
    assert (E : Z.testbit (Z.lxor x t) (i + (k + 1)) = false) by (apply Z.bits_above_log2; unfold k; lia).
    rewrite Z.lxor_spec in E. apply xorb_eq in E. exact E.
  - assert (E : Z.testbit (Z.lxor x t) k = true) by (apply Z.bit_log2; lia). rewrite Z.lxor_spec in E.
    destruct (Z.testbit x k), (Z.testbit t k); try discriminate E; reflexivity.
Qed.

Lemma L_C89_equal x t t' : prefix_cmp x t 0 = Eq -> prefix_cmp x t' 0 = prefix_cmp x t 0 -> t' = t.
Proof. rewrite !prefix_cmp_0. intros E H. rewrite E in H. apply Z.compare_eq in E, H. congruence. Qed.

Lemma L_C89_differ x t t' : 0 <= x < 2 ^ 16 -> 0 <= t < 2 ^ 16 -> 0 <= t' < 2 ^ 16 -> x <> t -> let k := Z.log2 (Z.lxor x t) in
  map (fun j => prefix_cmp x t' j) levels = map (fun j => prefix_cmp x t j) levels <-> t' / 2 ^ k = t / 2 ^ k.
Proof.
  intros X T T' N k. destruct (lxor_top x t ltac:(lia) ltac:(lia) N) as [K [E1 E2]]. fold k in K, E1, E2.
  assert (K16 : k < 16).
  { destruct (Z_lt_le_dec k 16) as [L|L]; [exact L|]. rewrite !testbit_div, !Z.div_small in E2 by (first [exact K|split; [lia|]; apply Z.lt_le_trans with (2 ^ 16); [lia|apply Z.pow_le_mono_r; lia]]). discriminate E2. }
  assert (MAP : map (fun j => prefix_cmp x t' j) levels = map (fun j => prefix_cmp x t j) levels <-> forall j, (j < 16)%nat -> prefix_cmp x t' j = prefix_cmp x t j).
  { split.
    - intros H j J. assert (I : In j levels) by (unfold levels; apply -> in_rev; apply in_seq; lia).
      revert H I. generalize levels. induction l as [|i l IH]; [intros _ []|]. cbn [map]. intros H. inversion H. intros [<-|I]; [assumption|]. apply IH; assumption.
    - intros H. apply map_ext_in. intros j J. apply H. unfold levels in J. apply in_rev in J. apply in_seq in J. lia. }
  rewrite MAP. clear MAP.
  assert (NK : (x / 2 ^ k ?= t / 2 ^ k) <> Eq).
  { intros E. apply Z.compare_eq in E. rewrite !testbit_div, E in E2 by exact K. destruct (Z.even (t / 2 ^ k)); discriminate E2. }
  split.
  - intros H. pose proof (H (Z.to_nat k) ltac:(lia)) as HK. unfold prefix_cmp in HK. rewrite Z2Nat.id in HK by exact K.
    assert (E3 : x / 2 ^ (k + 1) = t' / 2 ^ (k + 1)).
    { destruct (Z.eq_dec k 15) as [->|NK15].
      - rewrite !Z.div_small by lia. reflexivity.
      - pose proof (H (Z.to_nat (k + 1)) ltac:(lia)) as H1. unfold prefix_cmp in H1. rewrite Z2Nat.id in H1 by lia.
        rewrite E1, Z.compare_refl, <- E1 in H1. apply Z.compare_eq in H1. exact H1. }
    assert (P2 : forall y, y / 2 ^ (k + 1) = y / 2 ^ k / 2) by (intros y; rewrite (div_pow_le y (k + 1) k ltac:(lia)); replace (k + 1 - k) with 1 by lia; reflexivity).
    rewrite E1, !P2 in E3. rewrite !P2 in E1.
    revert NK E1 E3 HK. generalize (x / 2 ^ k) as X2, (t / 2 ^ k) as T2, (t' / 2 ^ k) as T3. clear. intros X2 T2 T3 NK E1 E3 HK.
    pose proof (Z.div_mod X2 2 ltac:(lia)). pose proof (Z.div_mod T2 2 ltac:(lia)). pose proof (Z.div_mod T3 2 ltac:(lia)).
    pose proof (Z.mod_pos_bound X2 2 ltac:(lia)). pose proof (Z.mod_pos_bound T2 2 ltac:(lia)). pose proof (Z.mod_pos_bound T3 2 ltac:(lia)).
    destruct (X2 ?= T2) eqn:C1; [congruence| |].
    + pose proof (proj1 (Z.compare_lt_iff _ _) C1). pose proof (proj1 (Z.compare_lt_iff _ _) HK). clear C1 HK. lia.
    + pose proof (proj1 (Z.compare_gt_iff _ _) C1). pose proof (proj1 (Z.compare_gt_iff _ _) HK). clear C1 HK. lia.
  - intros H j J. unfold prefix_cmp. destruct (Z_le_gt_dec (Z.of_nat j) k) as [L|L].
    + rewrite (cmp_below x t k (Z.of_nat j) ltac:(lia) NK), (cmp_below x t' k (Z.of_nat j) ltac:(lia)), H; [reflexivity|]. rewrite H. exact NK.
    + rewrite (div_pow_le t' (Z.of_nat j) k ltac:(lia)), (div_pow_le t (Z.of_nat j) k ltac:(lia)), H. reflexivity.
Qed.

(** ** A shuffle hides the letter *)
Lemma L_C89_uniform s p : (p < 3)%nat ->
  length (filter (fun uv => match letter_at uv p with Some s' => same_letter s s' | None => false end)
    (list_prod [0; 1] [0; 1; 2])) = 2%nat.
Proof. intros P. destruct p as [|[|[|p]]]; [| | |lia]; destruct s; reflexivity. Qed.
Lemma L_C89_values u v : letter_at (u, v) = letter_at (u mod 2, v mod 3).
Proof. unfold letter_at, shuffle3. cbn [fst snd]. rewrite !Z.mod_mod by lia. reflexivity. Qed.
