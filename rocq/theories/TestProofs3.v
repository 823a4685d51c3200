(** Proofs for Prop_Test.v: the test program of the oblivious programmable PRF. *)
From Coq Require Import ZArith Znumtheory Bool List Lia.
From Verif Require Import Outcome FieldModel ZpField SpecField FieldProofs ECGroup CurveParams EccModel SpecEcc EccProofs EccThms Emb RF DmeModel SpecDme DmeProofs
  OtModel SpecOt OtProofs AesModel SpecAes OpprfModel SpecOpprf OpprfProofs OpprfProofs2 OpprfProofs3 OpprfProofs4 TestModel SpecTest TestProofs2.
Import ListNotations.
Open Scope Z_scope.

Section Opprf.
  Variables (dbg : bool) (live : Z -> bool) (e : env) (iv : list Z).
  Notation multiple := (multiple live).

  (** what holds between two evaluations *)
  Record between (cs cc : Z) (k : crs_t) (a : Z) (s : server * client * point) : Prop := {
    bt_server : sdme (ots (fst (fst s))) = dme_new_crs cs k;
    bt_cur : scur (fst (fst s)) = Some cs;
    bt_theta : theta (fst (fst s)) = 1000;
    bt_keys : k_lt (fst (fst s)) = [] /\ k_eq (fst (fst s)) = [] /\ k_gt (fst (fst s)) = [] /\ ok (fst (fst s)) = [];
    bt_rows : length (Si0 (fst (fst s))) = 16%nat /\ length (Si1 (fst (fst s))) = 16%nat;
    bt_client : rdme (otr (snd (fst s))) = dme_new_crs cc k;
    bt_ccur : ccur (snd (fst s)) = Some cc;
    bt_result : result (snd (fst s)) = pt_inf CV;
    bt_ga : finite all_alive (snd s) /\ den CV (snd s) = gmul CV a (ggen CV) }.

  Lemma eval_ok cs cc k a s x d g : live cs = true -> live cc = true -> crs_finite k -> aes_ready e iv ->
    between cs cc k a s -> 0 <= x <= 1000 ->
    good_draws dbg live e iv (dcrs (dme_new_crs cc k)) (dme_new_crs cs k) 1000 a x d ->
    exists s', opprf_eval dbg e live iv s x d g = Ok (true, s') /\ between cs cc k a s'.
  Proof.
    intros Ls Lc FK AR [B1 B2 B3 B4 B5 B6 B7 B8 [B9 B10]] X GD. destruct s as [[T C] P]. cbn [fst snd] in *.
    destruct (set_curve_finite live P cs Ls B9) as [FP SP].
    unfold opprf_eval, setSecret. rewrite B2.
    assert (EV : (if dbg then isValid dbg live CV (set_curve P (Some cs)) else Ok true) = Ok true).
    { destruct dbg; [|reflexivity]. apply (valid_isValid true live CV good_CV). right. exact FP. }
    rewrite EV. cbn [bind]. assert (EA : assert_ dbg true = Ok tt) by (destruct dbg; reflexivity). rewrite EA. cbn [bind].
    set (Q := set_curve P (Some cs)) in *.
    set (T1 := mksrv _ _ _ _ _ _ _ _ _ _ _ _ _ _ _).
    assert (MQ : multiple Q a).
    { split; [right; exact FP|]. rewrite <- B10. exact SP. }
    destruct FK as [F0 [F1 [F2 F3]]].
    pose proof (L_new_crs live cs k Ls F0 F1 F2 F3) as [OKs SCs]. pose proof (L_new_crs live cc k Lc F0 F1 F2 F3) as [OKc SCc].
    assert (SR : server_ready live T1 a).
    { constructor; cbn [T1 ots scur theta ga k_lt k_eq k_gt ok Si0 Si1].
      - rewrite B1. exact OKs.
      - rewrite B1. reflexivity.
      - rewrite B3. lia.
      - exact MQ.
      - exact B4.
      - exact B5. }
    assert (CR : client_ready live (setMessage C x) x).
    { constructor; cbn [setMessage otr ccur cx result].
      - rewrite B6. exact OKc.
      - rewrite B6. exact B7.
      - split; [reflexivity|lia].
      - left. rewrite B8. reflexivity. }
    assert (SC : same_crs (dcrs (sdme (ots T1))) (dcrs (rdme (otr (setMessage C x))))).
    { cbn [T1 ots setMessage otr]. rewrite B1, B6. destruct SCs as [S1 [S2 [S3 S4]]], SCc as [U1 [U2 [U3 U4]]]. unfold same_point in *.
      split; [exact (eq_trans S1 (eq_sym U1))|]. split; [exact (eq_trans S2 (eq_sym U2))|].
      split; [exact (eq_trans S3 (eq_sym U3))|exact (eq_trans S4 (eq_sym U4))]. }
    assert (GD' : good_draws dbg live e iv (dcrs (rdme (otr (setMessage C x)))) (sdme (ots T1)) (theta T1) a x d).
    { cbn [T1 ots setMessage otr theta]. rewrite B1, B3, B6. exact GD. }
    assert (R0 : result (setMessage C x) = pt_inf CV) by exact B8.
    destruct (L_session dbg live e iv T1 (setMessage C x) d a x 0 AR SR CR SC GD' ltac:(rewrite R0; apply multiple_inf))
      as [T2 [C2 [E [BA [Q1 [Q2 [_ [_ MC]]]]]]]].
    rewrite E. cbn [bind].
    destruct (pmulz_m dbg live Q a x MQ) as [R [ER MR]].
    destruct (padd_log dbg live (kopprf T2) R _ _ (ba_kopprf _ _ _ _ BA) MR) as [W [EW MW]].
    rewrite ER. cbn [bind]. rewrite EW. cbn [bind].
    destruct (peq_log live _ _ _ _ MC MW) as [b [EB IB]]. rewrite EB. cbn [bind].
    assert (TB : b = true).
    { apply IB. cbn [T1 theta]. rewrite B3. unfold outcome_log. exists 0. destruct (Z.compare_spec x 1000); try lia. }
    rewrite TB. unfold server_clean. pose proof (ba_cur _ _ _ _ BA) as QC. cbn [T1 scur] in QC. rewrite QC.
    destruct (randP_m dbg live cs g Ls) as [G [EG _]]. rewrite EG. cbn [bind].
    eexists. split; [reflexivity|].
    constructor; cbn [fst snd ots scur theta ga k_lt k_eq k_gt ok Si0 Si1 client_clean otr ccur result].
    - rewrite (ba_ots _ _ _ _ BA). exact B1.
    - reflexivity.
    - rewrite (ba_theta _ _ _ _ BA). exact B3.
    - repeat split.
    - unfold fresh_rows. rewrite repeat_length. split; reflexivity.
    - rewrite Q1. exact B6.
    - rewrite Q2. exact B7.
    - reflexivity.
    - split; [|exact (proj2 MQ)]. destruct FP as [I [V1 [V2 [_ V3]]]].
      split; [exact I|]. split; [exact V1|]. split; [exact V2|]. split; [exists cs; split; reflexivity|exact V3].
  Qed.

  Lemma loop_ok cs cc k a l : live cs = true -> live cc = true -> crs_finite k -> aes_ready e iv -> 
    (forall x d g, In (x, d, g) l -> 0 <= x <= 1000 /\
       good_draws dbg live e iv (dcrs (dme_new_crs cc k)) (dme_new_crs cs k) 1000 a x d) ->
    forall s, between cs cc k a s -> opprf_loop dbg e live iv s l 0 = Ok 0.
  Proof.
    intros Ls Lc FK AR. induction l as [|[[x d] g] l IH]; intros H s B; [reflexivity|]. cbn [opprf_loop].
    destruct (H x d g (or_introl eq_refl)) as [X GD].
    destruct (eval_ok cs cc k a s x d g Ls Lc FK AR B X GD) as [s' [E B']]. rewrite E. cbn [bind fst snd].
    apply IH; [|exact B']. intros y d' g' I. apply (H y d' g'). right. exact I.
  Qed.
End Opprf.

Section Main.
  Variables (dbg : bool) (live : Z -> bool) (e : env).

  Lemma fin_any l P z : multiple l P z -> nz z -> finite all_alive P.
  Proof. intros M N. apply (multiple_rf l) in M. exact (fin_all l P z M N). Qed.

  Lemma moved_log l P z c : multiple l P z -> nz z -> live c = true -> multiple live (set_curve P (Some c)) z.
  Proof.
    intros M N L. destruct (set_curve_finite live P c L (fin_any l P z M N)) as [F S].
    split; [right; exact F|]. destruct M as [_ M]. rewrite <- M. exact S.
  Qed.

  Lemma L_main_opprf ct cd cs cc d : live cs = true -> live cc = true -> aes_ready e (init iv_start) ->
    nz (a_draw d) -> nz (k1 d) -> nz (k2 d) -> nz (k3 d) -> nz (k4 d) -> (forall j, (j < 3)%nat -> 0 <= xs d j) ->
    opprf_good dbg live e cs d -> main_opprf dbg e live ct cd cs cc d = Ok 0.
  Proof.
    intros Ls Lc AR NA N1 N2 N3 N4 X GD. unfold main_opprf.
    destruct (randP_m dbg (Z.eqb ct) ct (a_draw d) (Z.eqb_refl ct)) as [P [EP MP]]. rewrite EP. cbn [bind].
    destruct (new_random_rf dbg (Z.eqb cd) cd (k1 d) (k2 d) (k3 d) (k4 d) (Z.eqb_refl cd)) as [D [ED K]]. rewrite ED. cbn [bind].
    destruct K as [_ _ A B A' B']. apply (multiple_rf (Z.eqb cd)) in A, B, A', B'.
    unfold server_new. cbn [otsndr_new sdme dme_new_crs dcurve].
    destruct (randP_m dbg live cs (s_draw d) Ls) as [G [EG _]]. rewrite EG. cbn [bind].
    apply (loop_ok dbg live e (init iv_start) cs cc (dcrs D) (a_draw d)); [exact Ls|exact Lc| |exact AR| |].
    - split; [exact (fin_any _ _ _ A N1)|]. split; [exact (fin_any _ _ _ B N3)|].
      split; [exact (fin_any _ _ _ A' N2)|exact (fin_any _ _ _ B' N4)].
    - intros x d' g I. apply in_map_iff in I. destruct I as [j [E I]]. apply in_seq in I.
      assert (x = xs d j mod 1000) as -> by congruence. assert (d' = ds d j) as -> by congruence.
      split; [pose proof (Z.mod_pos_bound (xs d j) 1000); lia|].
      apply GD; [|reflexivity|lia].
      cbn [dme_new_crs dcrs updateCurve]. split; [exact (moved_log _ _ _ _ A N1 Lc)|]. split; [exact (moved_log _ _ _ _ B N3 Lc)|].
      split; [exact (moved_log _ _ _ _ A' N2 Lc)|exact (moved_log _ _ _ _ B' N4 Lc)].
    - constructor; cbn [fst snd ots scur theta k_lt k_eq k_gt ok Si0 Si1 sdme client_new otrecv_new rdme otr ccur result dme_new_crs dcurve].
      + reflexivity.
      + reflexivity.
      + reflexivity.
      + repeat split.
      + unfold fresh_rows. rewrite repeat_length. split; reflexivity.
      + reflexivity.
      + reflexivity.
      + reflexivity.
      + split; [exact (fin_any _ _ _ MP NA)|exact (proj2 MP)].
  Qed.
End Main.
