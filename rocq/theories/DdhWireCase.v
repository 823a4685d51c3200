(** Evaluations that are all set, and concrete counts for the example of Prop_Ddh6. *)
From Coq Require Import ZArith Znumtheory Bool List Lia.
From Verif Require Import Outcome FieldModel ZpField SpecField FieldProofs ECGroup ECOrder CurveParams CurveFacts EccModel EccProofs SpecEcc EccThms Emb RF DmeModel SpecDme DmeProofs OtModel OtProofs CrcModel AesModel SpecAes Prop_Aes OpprfModel SpecOpprf SpecOpprf2 SpecOpprf6 OpprfProofs OpprfProofs2 OpprfProofs4 OpprfProofs5 OpprfProofs13 OpprfProofs14 OpprfCase OpprfCase6 SpecCount CountMath SpecDdh SpecDdh2 SpecDdh3 SpecDdh4 SpecDdh5 SpecDdh6 DdhProofs DdhProofs2 DdhMany DdhMany2 DdhHear DdhHear2 DdhHear4 DdhHear5 DdhChoose DdhWire DdhWire2 DdhWire3 DdhCases DdhHearCase.
Import ListNotations.
Open Scope Z_scope.

Section Ready.
  Variables (dbg : bool) (live : Z -> bool) (e : env) (iv : list Z).
  Lemma some_crs c : live c = true -> exists k, crs_finite k.
  Proof.
    intros L. destruct (L_C26_logs dbg live c dec 1 1 1 0 L) as [D [_ [_ [A [B [A' B']]]]]]. change (1 * 1) with 1 in B, A'. change (1 * (1 * 1)) with 1 in B'.
    assert (N1 : ~ (order | 1)) by (apply order_big; split; [lia|vm_compute; reflexivity]).
    exists (dcrs D). split; [exact (mult_finite live _ _ A N1)|]. split; [exact (mult_finite live _ _ B N1)|]. split; [exact (mult_finite live _ _ A' N1)|exact (mult_finite live _ _ B' N1)].
  Qed.
  Lemma L_C116_set c {T} (s : setting T) t a : live c = true -> aes_ready e iv -> 0 <= s_theta s t < 2 ^ 16 -> multiple live (s_secret s t) a -> ~ (order | a) ->
    (forall l j, (j < 16)%nat -> 2 ^ 120 <= level_key (sd_prep (s_draws s t)) l j < 2 ^ 128) ->
    visible e (mask_of_prep (sd_prep (s_draws s t))) -> visible e (sd_random (s_draws s t)) -> all_set dbg live e iv c s t.
  Proof.
    intros L A TH M N K VM VD. destruct (some_crs c L) as [k FK].
    destruct (L_ready_server dbg live c (s_theta s t) k (s_secret s t) a (s_gk s t) L FK TH M N) as [S0 [S1 [E0 [ES [SR [_ [_ [F _]]]]]]]].
    assert (EK : serves dbg live c k (s_theta s t) (s_gk s t) (s_secret s t) = Ok S1) by (unfold serves; rewrite E0; cbn [bind]; rewrite ES; reflexivity).
    destruct (prepare_ok dbg live e iv S1 _ a A SR K) as [V1 [E1 [B [T0 [T1 _]]]]].
    destruct (masks_total dbg live e iv S1 V1 _ a (sd_random (s_draws s t)) (sd_u (s_draws s t)) (sd_v (s_draws s t)) SR A B K VM VD) as [ms EM].
    assert (RV : rows_valid live V1).
    { apply (rows_valid_tracked dbg live e iv S1 V1 (Some (sd_prep (s_draws s t))) a F SR A). split; [exists V1; split; [exact E1|reflexivity]|]. split.
      - split; [exact (multiple_valid live _ _ (proj2 T0))|exact (multiple_valid live _ _ (proj2 T1))].
      - intros p Q. injection Q as <-. exact K. }
    rewrite serves_ots in EK. apply bind_Ok in EK. destruct EK as [V [EV EK]]. apply Ok_inj in EK. subst S1.
    rewrite prepare_ots in E1. apply bind_Ok in E1. destruct E1 as [V' [EP E1]]. apply Ok_inj in E1. subst V1. rewrite masks_ots in EM.
    exists V', ms. split; [|exact RV]. unfold offstage. rewrite EV. cbn [bind]. rewrite EP. cbn [bind]. rewrite EM. reflexivity.
  Qed.
End Ready.

Lemma exchanges_head dbg live V C r dr l R : exchanges dbg live V C ((r, dr) :: l) = Ok R ->
  exists k y rest, runOTRound_start dbg live C r (rd_key dr) = Ok k /\ snd R = (snd k, y) :: rest.
Proof.
  intros H. cbn [exchanges] in H. apply bind_Ok in H. destruct H as [k [E H]]. apply bind_Ok in H. destruct H as [y [_ H]]. apply bind_Ok in H. destruct H as [z [_ H]]. apply Ok_inj in H. subst R.
  exists k, (snd y), (snd z). split; [exact E|reflexivity].
Qed.
Lemma deal_head d x q ds : shaped (script x) ([q] :: ds) -> exists dr l, deal d rounds ([q] :: ds) = (16, dr) :: l /\ rd_key dr = q.
Proof.
  intros HS. inversion HS as [|? k ? ds1 FK T1]; subst ds1. inversion T1 as [|? a ? ds2 FA T2]; subst ds. inversion T2 as [|? b ? ds3 FB T3]; subst ds2.
  change rounds with (16 :: tl rounds). generalize (tl rounds). intros rs. cbn [deal]. change (16 =? BITS) with true. cbv iota zeta. do 2 eexists. split; [reflexivity|reflexivity].
Qed.
Lemma talk_head dbg live e iv V C d tr r dr l : schedule d = (r, dr) :: l -> talk dbg live e iv V C d = Ok tr ->
  exists k y rest, runOTRound_start dbg live C r (rd_key dr) = Ok k /\ tr_rounds tr = (snd k, y) :: rest.
Proof.
  intros E H. unfold talk in H. rewrite E in H. apply bind_Ok in H. destruct H as [V1 [_ H]]. apply bind_Ok in H. destruct H as [R [EX H]]. apply bind_Ok in H. destruct H as [ms [_ H]].
  apply Ok_inj in H. subst tr. exact (exchanges_head _ _ _ _ _ _ _ _ EX).
Qed.
Lemma wire_head k y rest : map wire ((k, y) :: rest) = ((den CV (pg k), den CV (ph k)), snd (wire (k, y))) :: map wire rest.
Proof. reflexivity. Qed.

Section First.
  Variables (dbg : bool) (live : Z -> bool) (e : env) (iv : list Z).
  Variables (c c1 c2 x : Z).
  Hypothesis LC : live c = true.
  Hypothesis LC1 : live c1 = true.
  Hypothesis LC2 : live c2 = true.
  Context {T : Type} (s : setting T).
  (** the key that is sent first *)
  Lemma wire_first t r1 r2 r3 r4 q ds : all_set dbg live e iv c2 s t -> shaped (script x) ([q] :: ds) ->
    exists D V tr y z rest, dme_new_random dbg live c r1 r2 r3 r4 = Ok D /\ crs_view (dcrs D) = kv r1 r2 r3 r4 /\
      serves dbg live c2 (dcrs D) (s_theta s t) (s_gk s t) (s_secret s t) = Ok V /\
      talk dbg live e iv V (setMessage (client_new c1 (dcrs D)) x) (dealt (s_draws s t) ([q] :: ds)) = Ok tr /\
      map wire (tr_rounds tr) = ((pow (q * at_branch (round_bit x 16) r1 r3), y), z) :: rest.
  Proof.
    intros AS HS. destruct (new_view dbg live c c1 c2 LC LC1 LC2 r1 r2 r3 r4) as [D [ED [EV [L1 L2]]]].
    destruct (wire_case dbg live e iv c c1 c2 x LC LC1 LC2 s (fun _ _ _ _ => true) t D _ AS HS) as [V [tr [h [ms [ES [ET _]]]]]]; [exists r1, r2, r3, r4; exact ED|].
    destruct (deal_head (s_draws s t) x q ds HS) as [dr [l [EL EQ]]]. rewrite <- (schedule_dealt _ x _ HS) in EL.
    destruct (talk_head _ _ _ _ _ _ _ _ _ _ _ EL ET) as [k [y [rest [EK EW]]]]. rewrite EQ in EK.
    assert (BR : branch (round_bit x 16)).
    { unfold round_bit, bit. pose proof (Z.mod_pos_bound (x / 2 ^ Z.of_nat (Z.to_nat (16 - 1))) 2 ltac:(lia)). unfold branch. lia. }
    assert (RR : 1 <= 16 <= 16) by lia.
    rewrite (start_is dbg live (setMessage (client_new c1 (dcrs D)) x) x 16 q eq_refl RR) in EK.
    destruct (select_like' dbg live (otr (setMessage (client_new c1 (dcrs D)) x)) c1 r1 r3 r2 r4 (round_bit x 16) q L1 BR) as [R' [pk [EP [_ [K1 K2]]]]].
    rewrite EP in EK. cbn [bind fst snd] in EK. apply Ok_inj in EK. subst k. cbn [snd] in EW.
    exists D, V, (mktr tr ms), (den CV (ph pk)), (snd (wire (pk, y))), (map wire rest). split; [exact ED|]. split; [exact EV|]. split; [exact ES|]. split; [exact ET|].
    rewrite EW, wire_head, (like_den live _ _ K1). reflexivity.
  Qed.
End First.

(** A looks for a finite key in the first round under a string without g0 *)
Definition first_key (t : unit) (k : four) (l : list sound) (ms : list Z) : bool :=
  match l with (g, _, _) :: _ => is_inf (fst (fst k)) && negb (is_inf g) | _ => false end.
Definition case_setting (th : Z) (P : point) : setting unit := mkset (fun _ => th) (fun _ => 1) (fun _ => P) (fun _ => case_draws).

Lemma case_set dbg live c th P a : live c = true -> 0 <= th < 2 ^ 16 -> multiple live P a -> ~ (order | a) -> all_set dbg live small iv0 c (case_setting th P) tt.
Proof.
  intros L TH M N. apply (L_C116_set dbg live small iv0 c (case_setting th P) tt a L case_aes TH M N).
  - intros l j _. apply case_keys_ok.
  - change (mask_of_prep (sd_prep (s_draws (case_setting th P) tt))) with 1. exact visible_1.
  - exact visible_1.
Qed.

Lemma first_shape x ds : shaped (script x) ds -> exists q ds', ds = [q] :: ds' /\ draw q /\ shaped (tl (script x)) ds'.
Proof. intros H. inversion H as [|? k ? ds' F H']. subst ds. destruct (one_fits _ k F) as [q [-> Q]]. exists q, ds'. split; [reflexivity|]. split; [exact Q|exact H']. Qed.
Lemma shape_first_key x q ds : draw q -> shaped (tl (script x)) ds -> shaped (script x) ([q] :: ds).
Proof. intros Q H. change (script x) with (Key (round_bit x 16) :: tl (script x)). constructor; [|exact H]. split; [reflexivity|constructor; [exact Q|constructor]]. Qed.
Lemma tl_needs x : needs (tl (script x)) = 263%nat.
Proof. reflexivity. Qed.

Lemma case_wire dbg live c c1 c2 x th P a : live c = true -> live c1 = true -> live c2 = true -> 0 <= th < 2 ^ 16 -> multiple live P a -> ~ (order | a) ->
  wire_guess dbg live small iv0 c c1 c2 x (case_setting th P) no_coin first_key (if round_bit x 16 =? 0 then 0 else order ^ 265 * (order - 1) ^ 2).
Proof.
  intros L L1 L2 TH M N. pose proof (case_set dbg live c2 th P a L2 TH M N) as AS. assert (Z0 : (order | 0)) by (exists 0; reflexivity). pose proof draw_0 as D0.
  set (s := case_setting th P).
  assert (X : forall z : unit * Z * Z * Z * Z * list (list Z),
    (let '(t, w0, y0, w1, y1, ds) := z in no_coin t /\ draw w0 /\ draw y0 /\ draw w1 /\ draw y1 /\ exists q ds', ds = [q] :: ds' /\ draw q /\ shaped (tl (script x)) ds' /\
      (order | w0) /\ ~ (order | q * at_branch (round_bit x 16) w0 w1)) <->
    (let '(t, r1, r2, r3, r4, ds) := z in no_coin t /\ draw r1 /\ draw r2 /\ draw r3 /\ draw r4 /\ shaped (script x) ds /\
      exists D S tr, dme_new_random dbg live c r1 r2 r3 r4 = Ok D /\ serves dbg live c2 (dcrs D) (s_theta s t) (s_gk s t) (s_secret s t) = Ok S /\
        talk dbg live small iv0 S (setMessage (client_new c1 (dcrs D)) x) (dealt (s_draws s t) ds) = Ok tr /\
        first_key t (crs_view (dcrs D)) (map wire (tr_rounds tr)) (tr_masks tr) = true)).
  { intros [[[[[t w0] y0] w1] y1] ds].
    assert (FK : forall q ds', ds = [q] :: ds' -> shaped (script x) ds -> exists D V tr, dme_new_random dbg live c w0 y0 w1 y1 = Ok D /\ serves dbg live c2 (dcrs D) (s_theta s t) (s_gk s t) (s_secret s t) = Ok V /\
      talk dbg live small iv0 V (setMessage (client_new c1 (dcrs D)) x) (dealt (s_draws s t) ds) = Ok tr /\
      (first_key t (crs_view (dcrs D)) (map wire (tr_rounds tr)) (tr_masks tr) = true <-> (order | w0) /\ ~ (order | q * at_branch (round_bit x 16) w0 w1))).
    { intros q ds' -> HS. destruct t. destruct (wire_first dbg live small iv0 c c1 c2 x L L1 L2 s tt w0 y0 w1 y1 q ds' AS HS) as [D [V [tr [y [z [rest [ED [EV [ES [ET EW]]]]]]]]]].
      exists D, V, tr. split; [exact ED|]. split; [exact ES|]. split; [exact ET|]. rewrite EV, EW. unfold first_key, kv. cbn [fst snd].
      rewrite andb_true_iff, negb_true_iff, is_inf_pow, is_inf_false. reflexivity. }
    split.
    - intros [CN [W0 [Y0 [W1 [Y1 [q [ds' [E [Q [H R]]]]]]]]]]. pose proof (shape_first_key x q ds' Q H) as HS. rewrite <- E in HS.
      split; [exact CN|]. split; [exact W0|]. split; [exact Y0|]. split; [exact W1|]. split; [exact Y1|]. split; [exact HS|].
      destruct (FK q ds' E HS) as [D [V [tr [ED [ES [ET EF]]]]]]. exists D, V, tr. split; [exact ED|]. split; [exact ES|]. split; [exact ET|]. apply EF, R.
    - intros [CN [W0 [Y0 [W1 [Y1 [HS [D [V [tr [ED [ES [ET EF]]]]]]]]]]]]. split; [exact CN|]. split; [exact W0|]. split; [exact Y0|]. split; [exact W1|]. split; [exact Y1|].
      destruct (first_shape x ds HS) as [q [ds' [E [Q H]]]]. exists q, ds'. split; [exact E|]. split; [exact Q|]. split; [exact H|].
      destruct (FK q ds' E HS) as [D' [V' [tr' [ED' [ES' [ET' EF']]]]]]. rewrite ED in ED'. apply Ok_inj in ED'. subst D'. rewrite ES in ES'. apply Ok_inj in ES'. subst V'.
      rewrite ET in ET'. apply Ok_inj in ET'. subst tr'. apply EF', EF. }
  unfold wire_guess. refine (how_many_same _ _ _ X _).
  destruct (Z.eqb_spec (round_bit x 16) 0) as [B|B].
  - apply none. intros [[[[[t w0] y0] w1] y1] ds] [_ [_ [_ [_ [_ [q [ds' [_ [_ [_ [W N']]]]]]]]]]]. rewrite B in N'. apply N', Z.divide_mul_r, W.
  - assert (EB : forall w0 w1 : Z, at_branch (round_bit x 16) w0 w1 = w1) by (intros w0 w1; unfold at_branch; rewrite (proj2 (Z.eqb_neq _ _) B); reflexivity).
    replace (order ^ 265 * (order - 1) ^ 2) with (1 * order * (order - 1) * order * (order - 1) * order ^ Z.of_nat (needs (tl (script x)))).
    2: { rewrite tl_needs. change (Z.of_nat 263) with 263. replace 265 with (2 + 263) by reflexivity. rewrite Z.pow_add_r by lia. ring. }
    refine (how_many_bij (fun z : (unit * Z * Z * Z * Z) * list (list Z) => let '(t, y0, w1, y1, r, ds) := z in (t, 0, y0, w1, y1, [r] :: ds))
      (fun z : unit * Z * Z * Z * Z * list (list Z) => match z with (t, w0, y0, w1, y1, [r] :: ds) => (t, y0, w1, y1, r, ds) | _ => (tt, 0, 0, 0, 0, []) end) _ _ _
      (how_many_prod _ (shaped (tl (script x))) _ _ (and_nonzeros _ _ (and_draws _ _ (and_nonzeros _ _ (and_draws _ _ no_coins)))) (shaped_count _)) _ _).
    + intros [[[[[t y0] w1] y1] r] ds] [[[[[C Y0] [W1 NW]] Y1] [R NR]] H]. split; [|reflexivity]. cbn [fst snd] in H.
      split; [exact C|]. split; [exact D0|]. split; [exact Y0|]. split; [exact W1|]. split; [exact Y1|]. exists r, ds. split; [reflexivity|]. split; [exact R|]. split; [exact H|]. split; [exact Z0|].
      rewrite EB, order_mult, (draw_order r R), (draw_order w1 W1). tauto.
    + intros [[[[[t w0] y0] w1] y1] ds] [C [W0 [Y0 [W1 [Y1 [q [ds' [-> [Q [H [W N']]]]]]]]]]]. rewrite EB, order_mult, (draw_order q Q), (draw_order w1 W1) in N'. apply (draw_order w0 W0) in W. subst w0.
      split; [|reflexivity]. cbn [fst snd]. split; [|exact H]. cbn. tauto.
Qed.
Lemma case_secret (dbg : bool) live c : live c = true -> exists P, multiple live P 3 /\ ~ (order | 3) /\ 0 <= 9 < 2 ^ 16.
Proof.
  intros L. destruct (randP_m dbg live c 3 L) as [P [_ M]]. exists P. split; [exact M|]. split; [apply order_big; split; [lia|vm_compute; reflexivity]|lia].
Qed.
