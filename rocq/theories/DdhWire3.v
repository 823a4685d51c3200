(** Someone who listens to an evaluation of the oblivious PRF: the reduction. *)
From Coq Require Import ZArith Znumtheory Bool List Lia.
From Verif Require Import Outcome FieldModel ZpField SpecField FieldProofs ECGroup ECOrder CurveParams CurveFacts EccModel EccProofs SpecEcc EccThms Emb RF DmeModel SpecDme DmeProofs OtModel OtProofs CrcModel AesModel OpprfModel SpecOpprf SpecOpprf2 OpprfProofs OpprfProofs2 SpecCount CountMath SpecDdh SpecDdh2 SpecDdh3 SpecDdh4 SpecDdh5 SpecDdh6 DdhProofs DdhProofs2 DdhMany2 DdhHear DdhHear2 DdhHear4 DdhHear5 DdhChoose DdhWire DdhWire2.
Import ListNotations.
Open Scope Z_scope.

Section Masks.
  Variables (dbg : bool) (live : Z -> bool) (e : env) (iv : list Z).
  Notation prepare := (prepareKeysAndInputs dbg live e iv).
  Notation offstage := (offstage dbg live e iv).
  Ltac inv H := let a := fresh "v" in let E := fresh "Q" in apply bind_Ok in H; destruct H as [a [E H]].

  Definition pointparts (V : server) := (scur V, kopprf V, sr V).
  Lemma steps_points l : forall V V', foldM (prep_step dbg live e iv) l V = Ok V' -> pointparts V' = pointparts V.
  Proof.
    induction l as [|j l IH]; intros V V' H; cbn [foldM] in H.
    - apply Ok_inj in H. subst V'. reflexivity.
    - inv H. apply IH in H. rewrite H. unfold prep_step in Q. do 3 inv Q. apply Ok_inj in Q. subst v. reflexivity.
  Qed.
  Lemma prepare_points V V' d : prepare V d = Ok V' ->
    getRandomPoint dbg live CV (scur V) (d_kopprf d) = Ok (kopprf V') /\ getRandomPoint dbg live CV (scur V) (d_r d) = Ok (sr V') /\ scur V' = scur V.
  Proof.
    unfold prepareKeysAndInputs. intros H. do 4 inv H. apply steps_points in H. unfold prep_top in Q2. do 6 inv Q2. apply Ok_inj in Q2. subst v2.
    unfold pointparts in H. cbn [scur kopprf sr] in H. injection H as -> -> ->. split; [exact Q|]. split; [exact Q0|reflexivity].
  Qed.
  Lemma masks_same V V' d u v : pointparts V = pointparts V' -> keyparts V = keyparts V' ->
    sendEncryptedMasks dbg live e iv V d u v = sendEncryptedMasks dbg live e iv V' d u v.
  Proof. unfold pointparts, keyparts. intros E1 E2. injection E1 as E3 E4 E5. injection E2 as E6 E7 E8 E9. unfold sendEncryptedMasks. rewrite E3, E4, E5, E6, E7, E8, E9. reflexivity. Qed.
  Lemma serves_new c k th g P V : serves dbg live c k th g P = Ok V -> scur V = Some c /\ keyparts V = ([], [], [], []).
  Proof.
    unfold serves, server_new. cbv zeta. intros H. inv H. inv H. apply Ok_inj in H. subst V. inv Q. apply Ok_inj in Q. subst v. unfold setSecret in Q0. do 2 inv Q0. apply Ok_inj in Q0. subst v0.
    split; reflexivity.
  Qed.
  Lemma L_C116_masks c th g P th' g' P' d V ms V' ms' : offstage c th g P d = Ok (V, ms) -> offstage c th' g' P' d = Ok (V', ms') -> ms' = ms.
  Proof.
    unfold SpecDdh6.offstage. intros H H'. do 3 inv H. do 3 inv H'. apply Ok_inj in H, H'. injection H as <- <-. injection H' as <- <-.
    apply serves_new in Q, Q2. destruct Q as [C K], Q2 as [C' K']. pose proof (prepare_points _ _ _ Q0) as [P1 [P2 P3]]. pose proof (prepare_points _ _ _ Q3) as [P1' [P2' P3']].
    apply prepare_keys in Q0, Q3. destruct Q0 as [o [O [K1 [K2 [K3 [K4 _]]]]]], Q3 as [o' [O' [K1' [K2' [K3' [K4' _]]]]]].
    unfold keyparts in K, K'. injection K as X1 X2 X3 X4. injection K' as Y1 Y2 Y3 Y4. rewrite X1, X2, X3, X4, C in *. rewrite Y1, Y2, Y3, Y4, C' in *.
    rewrite P1 in P1'. apply Ok_inj in P1'. rewrite P2 in P2'. apply Ok_inj in P2'. rewrite O in O'. apply Ok_inj in O'.
    rewrite (masks_same v0 v3) in Q1; [congruence| |].
    - unfold pointparts. congruence.
    - unfold keyparts. congruence.
  Qed.
End Masks.

Lemma script_shape x x' : same_shape (script x) (script x').
Proof.
  unfold script. generalize rounds. induction l as [|r l IH]; [constructor|]. cbn [flat_map]. unfold round_steps. cbn [app]. constructor; [exact I|].
  destruct (r =? BITS); cbn [app]; repeat (constructor; [exact I|]); exact IH.
Qed.
Lemma script_good x : good_steps (script x).
Proof.
  unfold script, good_steps. generalize rounds. induction l as [|r l IH]; [constructor|]. cbn [flat_map]. unfold round_steps. cbn [app]. constructor.
  - unfold round_bit, bit. pose proof (Z.mod_pos_bound (x / 2 ^ Z.of_nat (Z.to_nat (r - 1))) 2 ltac:(lia)). unfold branch. lia.
  - destruct (r =? BITS); cbn [app]; repeat (constructor; [exact I|]); exact IH.
Qed.
Lemma script_first x : key_first (script x).
Proof. exact I. Qed.
Lemma script_keys x : keys_in (script x) = 16%nat.
Proof. reflexivity. Qed.
Lemma script_needs x : needs (script x) = 264%nat.
Proof. reflexivity. Qed.

Section Game.
  Variables (dbg : bool) (live : Z -> bool) (e : env) (iv : list Z).
  Variables (c c1 c2 x : Z).
  Hypothesis LC : live c = true.
  Hypothesis LC1 : live c1 = true.
  Hypothesis LC2 : live c2 = true.
  Context {T : Type} (s : setting T).
  Notation says := (says dbg live e iv c2 s).
  Notation all_set := (all_set dbg live e iv c2 s).
  Variable A : T -> four -> list sound -> list Z -> bool.
  Notation hears := (hears dbg live e iv c2 s A).

  Lemma no_message_valid : is_valid live (fst no_message) /\ is_valid live (snd no_message).
  Proof. split; left; reflexivity. Qed.
  Lemma row_valid l r : Forall (fun i => is_valid live (iprf i)) l -> is_valid live (iprf (nth r l inputi_default)).
  Proof.
    intros H. destruct (Nat.lt_ge_cases r (length l)) as [L|L].
    - apply (proj1 (Forall_forall _ _) H). apply nth_In, L.
    - rewrite nth_overflow by exact L. left. reflexivity.
  Qed.
  Lemma says_valid t k h : all_set t -> is_valid live (fst (says t k h)) /\ is_valid live (snd (says t k h)).
  Proof.
    intros [V [ms [E [V0 [V1 [F0 F1]]]]]]. unfold SpecDdh6.says. rewrite E.
    assert (X : Forall (fun m => is_valid live (fst m) /\ is_valid live (snd m)) (flat_map (round_says dbg live c2 V) rounds)).
    { generalize rounds. induction l as [|r l IH]; [constructor|]. cbn [flat_map]. apply Forall_app. split; [|exact IH]. unfold round_says. constructor; [exact no_message_valid|].
      pose proof (point_valid dbg live c2 LC2) as PV. destruct (r =? BITS).
      - constructor; [split; apply PV|]. constructor; [split; assumption|constructor].
      - cbv zeta. do 3 (constructor; [split; apply PV|]). constructor; [split; apply row_valid; assumption|constructor]. }
    destruct (Nat.lt_ge_cases (length h) (length (flat_map (round_says dbg live c2 V) rounds))) as [L|L].
    - apply (proj1 (Forall_forall _ _) X). apply nth_In, L.
    - rewrite nth_overflow by exact L. exact no_message_valid.
  Qed.

  (** an evaluation and the conversation it is *)
  Lemma wire_case t D ds : all_set t -> shaped (script x) ds -> (exists r1 r2 r3 r4, dme_new_random dbg live c r1 r2 r3 r4 = Ok D) ->
    exists V tr h ms, serves dbg live c2 (dcrs D) (s_theta s t) (s_gk s t) (s_secret s t) = Ok V /\
      talk dbg live e iv V (setMessage (client_new c1 (dcrs D)) x) (dealt (s_draws s t) ds) = Ok (mktr tr ms) /\
      overheard dbg live (otrecv_new (dme_new_crs c1 (dcrs D))) (otsndr_new (dme_new_crs c2 (dcrs D))) pkey_default (says t (crs_view (dcrs D))) [] (script x) ds = Ok h /\
      hears t (crs_view (dcrs D)) h = A t (crs_view (dcrs D)) (map wire tr) ms.
  Proof.
    intros AS HS [r1 [r2 [r3 [r4 ED]]]]. pose proof AS as [V1 [ms [EO RV]]].
    destruct (new_view dbg live c c1 c2 LC LC1 LC2 r1 r2 r3 r4) as [D' [E [_ [L1 L2]]]]. rewrite ED in E. apply Ok_inj in E. subst D'.
    set (o := otsndr_new (dme_new_crs c2 (dcrs D))). set (C := setMessage (client_new c1 (dcrs D)) x).
    pose proof (overheard_hv dbg live c1 c2 _ _ _ _ (says t (crs_view (dcrs D))) (fun h => says_valid t _ h AS) (script x) (otrecv_new (dme_new_crs c1 (dcrs D))) o pkey_default 0 0 [] ds L1 L2 (script_good x) HS (or_intror (or_introl (script_first x)))) as OH.
    pose proof EO as EO'. unfold offstage in EO. apply bind_Ok in EO. destruct EO as [V [E1 EO]]. apply bind_Ok in EO. destruct EO as [V1' [E2 EO]]. apply bind_Ok in EO. destruct EO as [ms' [E3 EO]].
    apply Ok_inj in EO. injection EO as -> ->.
    pose proof (prepare_lengths dbg live e iv _ _ _ E2) as [PL0 PL1]. pose proof (serves_lengths dbg live _ _ _ _ _ _ E1) as [SL0 SL1].
    assert (EMM : forall h, says t (crs_view (dcrs D)) h = nth (length h) (flat_map (round_says dbg live c2 V1) rounds) no_message) by (intros h; unfold SpecDdh6.says; rewrite EO'; reflexivity).
    destruct (simulate dbg live c2 LC2 (s_draws s t) x V1 _ _ (conj (eq_trans PL0 SL0) (eq_trans PL1 SL1)) EMM rounds rounds_range o C pkey_default [] ds _ eq_refl eq_refl (fun i => eq_refl) HS OH) as [o' [tr [h' [EX [EH EW]]]]].
    cbn [app] in EH. eexists (set_ots V o), tr, _, ms. split; [|split; [|split; [exact OH|]]].
    - rewrite serves_ots, E1. reflexivity.
    - unfold talk. change (sd_prep (dealt (s_draws s t) ds)) with (sd_prep (s_draws s t)). rewrite prepare_ots, E2. cbn [bind]. rewrite (schedule_dealt _ x ds HS), EX. cbn [bind fst snd].
        rewrite masks_ots. change (sd_random (dealt (s_draws s t) ds)) with (sd_random (s_draws s t)). change (sd_u (dealt (s_draws s t) ds)) with (sd_u (s_draws s t)).
        change (sd_v (dealt (s_draws s t) ds)) with (sd_v (s_draws s t)). rewrite E3. reflexivity.
    - unfold SpecDdh6.hears. rewrite EO', EH, EW. reflexivity.
  Qed.

  Variable coin : T -> Prop.
  Hypothesis ALL : forall t, coin t -> all_set t.
  Lemma wire_game H N : (forall t k h, coin t -> H t k h = hears t k h) ->
    wire_guess dbg live e iv c c1 c2 x s coin A N <-> overheard_guess dbg live c c1 c2 (script x) coin says H N.
  Proof.
    intros EH.
    assert (X : forall z : T * Z * Z * Z * Z * list (list Z),
      (let '(t, r1, r2, r3, r4, ds) := z in coin t /\ draw r1 /\ draw r2 /\ draw r3 /\ draw r4 /\ shaped (script x) ds /\
        exists D S tr, dme_new_random dbg live c r1 r2 r3 r4 = Ok D /\ serves dbg live c2 (dcrs D) (s_theta s t) (s_gk s t) (s_secret s t) = Ok S /\
          talk dbg live e iv S (setMessage (client_new c1 (dcrs D)) x) (dealt (s_draws s t) ds) = Ok tr /\
          A t (crs_view (dcrs D)) (map wire (tr_rounds tr)) (tr_masks tr) = true) <->
      (let '(t, r1, r2, r3, r4, ds) := z in coin t /\ draw r1 /\ draw r2 /\ draw r3 /\ draw r4 /\ shaped (script x) ds /\
        exists D h, dme_new_random dbg live c r1 r2 r3 r4 = Ok D /\
          overheard dbg live (otrecv_new (dme_new_crs c1 (dcrs D))) (otsndr_new (dme_new_crs c2 (dcrs D))) pkey_default (says t (crs_view (dcrs D))) [] (script x) ds = Ok h /\
          H t (crs_view (dcrs D)) h = true)).
    { intros [[[[[t r1] r2] r3] r4] ds]. split; intros [CN [D1 [D2 [D3 [D4 [HS R]]]]]]; (split; [exact CN|]; split; [exact D1|]; split; [exact D2|]; split; [exact D3|]; split; [exact D4|]; split; [exact HS|]).
      - destruct R as [D [V [tr [ED [ES [ET EA]]]]]]. destruct (wire_case t D ds (ALL t CN) HS) as [V' [tr' [h [ms [ES' [ET' [EO EH']]]]]]]; [exists r1, r2, r3, r4; exact ED|].
        rewrite ES in ES'. apply Ok_inj in ES'. subst V'. rewrite ET in ET'. apply Ok_inj in ET'. subst tr. exists D, h. split; [exact ED|]. split; [exact EO|]. rewrite (EH t _ _ CN), EH'. exact EA.
      - destruct R as [D [h [ED [EO EA]]]]. destruct (wire_case t D ds (ALL t CN) HS) as [V' [tr' [h' [ms [ES' [ET' [EO' EH']]]]]]]; [exists r1, r2, r3, r4; exact ED|].
        rewrite EO in EO'. apply Ok_inj in EO'. subst h'. exists D, V', (mktr tr' ms). split; [exact ED|]. split; [exact ES'|]. split; [exact ET'|]. rewrite (EH t _ _ CN), EH' in EA. exact EA. }
    split; apply how_many_same; intros z; [|symmetry]; apply X.
  Qed.
End Game.

Lemma L_C116_listens dbg live e iv c c1 c2 : live c = true -> live c1 = true -> live c2 = true ->
  forall (T : Type) (coin : T -> Prop) K, how_many coin K -> forall x x' (s s' : setting T) A,
  (forall t, coin t -> all_set dbg live e iv c2 s t /\ all_set dbg live e iv c2 s' t /\ s_draws s t = s_draws s' t) ->
  let four_draws := and_draw (and_draw (and_draw (and_draw coin))) in let H := hears dbg live e iv c2 s A in
  let coins := and_pairs 16 (and_draw (and_draw (and_draw (and_steps (pairs_in (script x)) coin)))) in
  exists N N' g g' g1 g2 g1' g2', wire_guess dbg live e iv c c1 c2 x s coin A N /\ wire_guess dbg live e iv c c1 c2 x' s' coin A N' /\
    ddh_gap (and_steps (script x) four_draws) (with_string (script x) (says dbg live e iv c2 s) H) g /\
    ddh_gap (and_steps (script x') four_draws) (with_string (script x') (says dbg live e iv c2 s') H) g' /\
    ddh_gap coins (first_keys (fun _ y => y) (branches (script x)) (keyed (script x) H)) g1 /\ ddh_gap coins (second_keys (fun _ y => y) (branches (script x)) (keyed (script x) H)) g2 /\
    ddh_gap coins (first_keys (fun _ y => y) (branches (script x')) (keyed (script x) H)) g1' /\ ddh_gap coins (second_keys (fun _ y => y) (branches (script x')) (keyed (script x) H)) g2' /\
    Z.abs (order ^ 18 * (N - N') - (order ^ 15 * (g - g') + (g1 + g2 - g1' - g2'))) <= 52 * K * order ^ 285.
Proof.
  intros L L1 L2 T coin K HK x x' s s' A ALL four_draws H coins.
  destruct (L_C115_choices dbg live c c1 c2 L L1 L2 T coin K HK (script x) (script x') (says dbg live e iv c2 s) (says dbg live e iv c2 s') H (script_first x) (script_shape x x') (script_good x) (script_good x'))
    as [N [N' [g [g' [g1 [g2 [g1' [g2' [HN [HN' [G1 [G2 [G3 [G4 [G5 [G6 B]]]]]]]]]]]]]]]].
  - intros t k h CN. apply says_valid; [exact L2|apply ALL, CN].
  - intros t k h CN. apply says_valid; [exact L2|apply ALL, CN].
  - exists N, N', g, g', g1, g2, g1', g2'. split; [|split; [|split; [exact G1|split; [exact G2|split; [exact G3|split; [exact G4|split; [exact G5|split; [exact G6|]]]]]]]].
    + apply (wire_game dbg live e iv c c1 c2 x L L1 L2 s A coin (fun t CN => proj1 (ALL t CN)) H N); [reflexivity|exact HN].
    + apply (wire_game dbg live e iv c c1 c2 x' L L1 L2 s' A coin (fun t CN => proj1 (proj2 (ALL t CN))) H N'); [|exact HN'].
      intros t k h CN. destruct (ALL t CN) as [[V [ms [E _]]] [[V' [ms' [E' _]]] ED]]. unfold H, hears. rewrite E, E', ED. rewrite <- ED in E'.
      rewrite (L_C116_masks dbg live e iv _ _ _ _ _ _ _ _ _ _ _ _ E E'). reflexivity.
    + rewrite (script_keys x), (script_needs x) in B. exact B.
Qed.
