(** Answers of others only move the aggregate of the honest senders by a constant. *)
From Coq Require Import ZArith Znumtheory Bool List Lia.
From Verif Require Import Outcome FieldModel ZpField SpecField FieldProofs ECGroup ECOrder CurveParams CurveFacts EccModel EccProofs SpecEcc EccThms Emb RF DmeModel SpecDme DmeProofs OtModel OtProofs SpecOt AesModel OpprfModel SpecOpprf OpprfProofs SpecCount CountMath SpecDdh SpecDdh2 SpecDdh3 SpecDdh4 DdhProofs DdhCases DdhMany DdhMany2 DdhHear5 SpecCheat CheatProofs CheatProofs2 SpecIdeal IdealProofs ComposeProofs SpecDot DotProofs DotProofs2 SpecDot2.
Import ListNotations.
Open Scope Z_scope.

Lemma sm_app i l l' : sm i (l ++ l') = sm i l + sm i l'.
Proof. unfold sm. induction l as [|q l IH]; cbn [app map fold_right]; [ring|]. rewrite IH. ring. Qed.
Lemma sm_cons i q l : sm i (q :: l) = i q + sm i l.
Proof. reflexivity. Qed.
Lemma total_cons P l : total (P :: l) = gadd CV (den CV P) (total l).
Proof. reflexivity. Qed.

Section Dot.
  Variables (dbg : bool) (live : Z -> bool).
  Notation like := (DdhMany2.like live).
  Notation dlike := (dlike live).
  Notation ctl := (ctl live).
  Definition alog (w : list ctxt) (q : quad4) : Prop := exists c0 c1 l, w = c0 :: c1 :: l /\ ctl c0 (i0 q) (i1 q) /\ ctl c1 (i2 q) (i3 q).
  Lemma fold_alog : forall vs ls, Forall2 alog vs ls -> forall c0 c1 u0 v0 u1 v1, ctl c0 u0 v0 -> ctl c1 u1 v1 ->
    exists d0 d1, foldM (agg_step dbg live) vs (c0, c1) = Ok (d0, d1) /\ ctl d0 (u0 + sm i0 ls) (v0 + sm i1 ls) /\ ctl d1 (u1 + sm i2 ls) (v1 + sm i3 ls).
  Proof.
    intros vs ls F. induction F as [|w q vs ls W F IH]; intros c0 c1 u0 v0 u1 v1 H0 H1.
    - exists c0, c1. split; [reflexivity|]. split; [refine (ctl_to _ _ _ _ _ _ H0 _ _)|refine (ctl_to _ _ _ _ _ _ H1 _ _)]; unfold sm; cbn [map fold_right]; ring.
    - destruct W as [e0 [e1 [l [-> [W0 W1]]]]]. destruct (eval_logs dbg live c0 e0 _ _ _ _ H0 W0) as [f0 [EE0 K0]]. destruct (eval_logs dbg live c1 e1 _ _ _ _ H1 W1) as [f1 [EE1 K1]].
      destruct (IH f0 f1 _ _ _ _ K0 K1) as [d0 [d1 [E [R0 R1]]]]. exists d0, d1. split.
      { cbn [foldM]. unfold agg_step at 1. change (vat (e0 :: e1 :: l) 0) with (Ok e0). change (vat (e0 :: e1 :: l) 1) with (Ok e1). cbn [bind fst snd]. rewrite EE0. cbn [bind]. rewrite EE1. cbn [bind]. exact E. }
      rewrite !sm_cons. split; [refine (ctl_to _ _ _ _ _ _ R0 _ _)|refine (ctl_to _ _ _ _ _ _ R1 _ _)]; ring.
  Qed.
  Lemma aggregate_alog vs ls : Forall2 alog vs ls -> vs <> [] ->
    exists cs, aggregate dbg live vs = Ok cs /\ map view cs = [(pow (sm i0 ls), pow (sm i1 ls)); (pow (sm i2 ls), pow (sm i3 ls))].
  Proof.
    intros F NE. destruct F as [|w q vs ls W F]; [destruct (NE eq_refl)|]. destruct W as [e0 [e1 [l [-> [W0 W1]]]]].
    destruct (fold_alog vs ls F e0 e1 _ _ _ _ W0 W1) as [d0 [d1 [E [[R0 R0'] [R1 R1']]]]]. exists [d0; d1]. split.
    - unfold aggregate. change (vat ((e0 :: e1 :: l) :: vs) 0) with (Ok (e0 :: e1 :: l)). cbn [bind]. change (vat (e0 :: e1 :: l) 0) with (Ok e0). change (vat (e0 :: e1 :: l) 1) with (Ok e1). cbn [bind tl]. rewrite E. reflexivity.
    - unfold view. cbn [map]. rewrite (like_den live _ _ R0), (like_den live _ _ R0'), (like_den live _ _ R1), (like_den live _ _ R1'), !sm_cons. reflexivity.
  Qed.
  Lemma weight_alog vs ls : Forall2 alog vs ls -> weight 0 vs = (pow (sm i0 ls), pow (sm i1 ls)) /\ weight 1 vs = (pow (sm i2 ls), pow (sm i3 ls)).
  Proof.
    unfold weight. intros F. induction F as [|w q vs ls W F [IH0 IH1]]; [split; reflexivity|]. destruct W as [e0 [e1 [l [-> [[W0 W0'] [W1 W1']]]]]].
    assert (A0 := f_equal fst IH0). assert (B0 := f_equal snd IH0). assert (A1 := f_equal fst IH1). assert (B1 := f_equal snd IH1). cbn [fst snd] in A0, B0, A1, B1.
    cbn [map]. rewrite !total_cons, A0, B0, A1, B1. cbn [nth]. rewrite (like_den live _ _ W0), (like_den live _ _ W0'), (like_den live _ _ W1), (like_den live _ _ W1'), !pow_add, !sm_cons. split; reflexivity.
  Qed.
  Lemma formed_alog ws : Forall (well_formed live) ws -> exists ls, Forall2 alog ws ls.
  Proof.
    intros F. induction F as [|w ws W F [ls IH]]; [exists []; constructor|]. destruct W as [c0 [c1 [l [-> [[A B] [C D]]]]]].
    destruct (like_valid live _ A) as [a HA]. destruct (like_valid live _ B) as [b HB]. destruct (like_valid live _ C) as [c HC]. destruct (like_valid live _ D) as [d HD].
    exists ((a, b, c, d) :: ls). constructor; [|exact IH]. exists c0, c1, l. split; [reflexivity|]. split; split; [exact HA|exact HB|exact HC|exact HD].
  Qed.
  Lemma sent_alog D c a0 a1 b0 b1 pk x y : dlike D c a0 a1 b0 b1 -> like (pg pk) x -> like (ph pk) y -> forall xs, Forall (sender_ok live D) xs -> forall ds, length ds = length xs ->
    exists vs ls, mapM (send dbg live pk) (map (fun y => drawn (fst y) (snd y)) (combine xs ds)) = Ok vs /\ Forall2 alog vs ls /\ length vs = length xs.
  Proof.
    intros HD HX HY xs F. induction F as [|w xs F1 F IH]; intros ds L.
    - destruct ds; [|discriminate L]. exists [], []. split; [reflexivity|]. split; [constructor|reflexivity].
    - destruct ds as [|q ds]; [discriminate L|]. cbn [length] in L. destruct (IH ds ltac:(lia)) as [vs [ls [E [A LV]]]].
      destruct (send_logs dbg live D c a0 a1 b0 b1 pk x y w HD HX HY F1) as [z0 [z1 [_ [_ SL]]]]. destruct (SL q) as [e0 [e1 [ES [G0 G1]]]].
      exists ([e0; e1] :: vs), ((i0 q * a0 + i1 q * b0, i0 q * x + i1 q * y + z0, i2 q * a1 + i3 q * b1, i2 q * x + i3 q * y + z1) :: ls).
      cbn [combine map fst snd mapM]. rewrite ES. cbn [bind]. rewrite E. cbn [bind]. split; [reflexivity|]. split; [|cbn [length]; lia].
      constructor; [|exact A]. exists e0, e1, []. split; [reflexivity|]. split; [exact G0|exact G1].
  Qed.

  Lemma L_C127_moved D pk us ws xs ds : dme_ok live D -> pk_valid live pk -> Forall (well_formed live) us -> Forall (well_formed live) ws ->
    xs <> [] -> length ds = length xs -> Forall (sender_ok live D) xs ->
    exists cs cs', gathered dbg live pk xs ds = Ok cs /\ gathered_among dbg live us ws pk xs ds = Ok cs' /\
      map view cs' = moved (weight 0 (us ++ ws)) (weight 1 (us ++ ws)) (map view cs).
  Proof.
    intros OK [VX VY] FU FW NE L F. destruct (ok_like live _ OK) as [c [a0 [a1 [b0 [b1 HD]]]]]. destruct (like_valid live _ VX) as [x HX]. destruct (like_valid live _ VY) as [y HY].
    destruct (sent_alog D c a0 a1 b0 b1 pk x y HD HX HY xs F ds L) as [vs [ls [E [A LV]]]]. destruct (formed_alog us FU) as [lu AU]. destruct (formed_alog ws FW) as [lw AW].
    assert (NV : vs <> []) by (intros ->; destruct xs; [exact (NE eq_refl)|discriminate LV]).
    destruct (aggregate_alog vs ls A NV) as [cs [E1 V1]]. pose proof (Forall2_app AU (Forall2_app A AW)) as AA.
    destruct (aggregate_alog _ _ AA) as [cs' [E2 V2]]; [intros Q; apply app_eq_nil in Q; destruct Q as [_ Q]; apply app_eq_nil in Q; exact (NV (proj1 Q))|].
    exists cs, cs'. unfold gathered, gathered_among. rewrite E. cbn [bind]. split; [exact E1|]. split; [exact E2|]. rewrite V1, V2.
    destruct (weight_alog _ _ (Forall2_app AU AW)) as [-> ->]. unfold moved. cbn [combine map fst snd]. rewrite !pow_add, !sm_app.
    apply f_equal2; [apply f_equal2|apply f_equal2; [apply f_equal2|reflexivity]]; apply (f_equal pow); ring.
  Qed.
  Lemma L_C127_told D pk us ws xs A N : dme_ok live D -> pk_valid live pk -> Forall (well_formed live) us -> Forall (well_formed live) ws ->
    xs <> [] -> Forall (sender_ok live D) xs ->
    told dbg live pk xs (fun l => A (moved (weight 0 (us ++ ws)) (weight 1 (us ++ ws)) l)) N <-> told_among dbg live us ws pk xs A N.
  Proof.
    intros OK VK FU FW NE F. unfold told, told_among.
    assert (X : forall ds, (length ds = length xs /\ Forall four ds /\ exists cs, gathered dbg live pk xs ds = Ok cs /\ A (moved (weight 0 (us ++ ws)) (weight 1 (us ++ ws)) (map view cs)) = true) <->
      (length ds = length xs /\ Forall four ds /\ exists cs, gathered_among dbg live us ws pk xs ds = Ok cs /\ A (map view cs) = true)).
    { intros ds. split; intros [L [FD [cs1 [E1 Y]]]]; (split; [exact L|]); (split; [exact FD|]); destruct (L_C127_moved D pk us ws xs ds OK VK FU FW NE L F) as [cs [cs' [E [E' V]]]].
      - rewrite E in E1. apply Ok_inj in E1. subst cs1. exists cs'. split; [exact E'|]. rewrite V. exact Y.
      - rewrite E' in E1. apply Ok_inj in E1. subst cs1. exists cs. split; [exact E|]. rewrite V in Y. exact Y. }
    split; intros H; [exact (how_many_same _ _ _ X H)|]. refine (how_many_same _ _ _ _ H). intros ds. symmetry. apply X.
  Qed.
  Lemma L_C127_sums O pk us ws xs xs' A : dme_ok live (sdme O) -> pk_valid live pk -> Forall (well_formed live) us -> Forall (well_formed live) ws ->
    xs <> [] -> length xs' = length xs -> Forall (sender_ok live (sdme O)) xs -> Forall (sender_ok live (sdme O)) xs' ->
    (forall b, branch b -> hidden dbg live O pk b \/ total (map (snd_msg b) xs) = total (map (snd_msg b) xs')) ->
    exists N, told_among dbg live us ws pk xs A N /\ told_among dbg live us ws pk xs' A N.
  Proof.
    intros OK VK FU FW NE LN F F' HH. destruct (L_C125_sums dbg live O pk xs xs' (fun l => A (moved (weight 0 (us ++ ws)) (weight 1 (us ++ ws)) l)) OK VK NE LN F F' HH) as [N [C C']].
    assert (NE' : xs' <> []) by (intros ->; destruct xs; [exact (NE eq_refl)|discriminate LN]).
    exists N. split; [apply (L_C127_told (sdme O) pk us ws xs A N OK VK FU FW NE F); exact C|apply (L_C127_told (sdme O) pk us ws xs' A N OK VK FU FW NE' F'); exact C'].
  Qed.
End Dot.
