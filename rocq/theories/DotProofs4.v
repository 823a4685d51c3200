(** Aggregates of aggregates, and answers in another order. *)
From Coq Require Import ZArith Znumtheory Bool List Lia Permutation.
From Verif Require Import Outcome FieldModel ZpField SpecField FieldProofs ECGroup ECOrder CurveParams CurveFacts EccModel EccProofs SpecEcc EccThms Emb RF DmeModel SpecDme DmeProofs OtModel OtProofs SpecOt AesModel OpprfModel SpecOpprf OpprfProofs SpecCount CountMath SpecDdh SpecDdh2 SpecDdh3 SpecDdh4 DdhProofs DdhCases DdhMany DdhMany2 DdhHear5 SpecCheat CheatProofs CheatProofs2 SpecIdeal IdealProofs ComposeProofs SpecDot DotProofs DotProofs2 DotCase SpecDot2 DotProofs3 DotCase2.
Import ListNotations.
Open Scope Z_scope.

Lemma sm_perm i l l' : Permutation l l' -> sm i l = sm i l'.
Proof. intros P. induction P as [|q l l' P IH|q w l|l l' l'' P IH P' IH']; [reflexivity|rewrite !sm_cons, IH; reflexivity|rewrite !sm_cons; ring|rewrite IH; exact IH']. Qed.

Section Dot.
  Variables (dbg : bool) (live : Z -> bool).
  Notation like := (DdhMany2.like live).
  Notation alog := (alog live).
  Lemma add_valid P Q : is_valid live P -> is_valid live Q -> exists R, padd dbg live CV P Q = Ok R /\ is_valid live R.
  Proof. intros VP VQ. destruct (L_C08 dbg live CV good_CV P Q VP VQ) as [[R [E [V _]]] _]. exists R. split; [exact E|exact V]. Qed.
  Lemma eval_valid c c' : ct_valid live c -> ct_valid live c' -> exists r, Eval dbg live c c' = Ok r /\ ct_valid live r.
  Proof.
    intros [A B] [A' B']. unfold Eval. destruct (add_valid _ _ A A') as [P [-> VP]]. cbn [bind]. destruct (add_valid _ _ B B') as [Q [-> VQ]]. cbn [bind].
    eexists. split; [reflexivity|]. split; [exact VP|exact VQ].
  Qed.
  Lemma fold_formed vs : Forall (well_formed live) vs -> forall c0 c1 d0 d1, ct_valid live c0 -> ct_valid live c1 -> foldM (agg_step dbg live) vs (c0, c1) = Ok (d0, d1) -> ct_valid live d0 /\ ct_valid live d1.
  Proof.
    intros F. induction F as [|w vs W F IH]; intros c0 c1 d0 d1 V0 V1 E.
    - cbn [foldM] in E. assert (c0 = d0) by congruence. assert (c1 = d1) by congruence. subst. split; [exact V0|exact V1].
    - destruct W as [e0 [e1 [l [-> [W0 W1]]]]]. destruct (eval_valid c0 e0 V0 W0) as [f0 [E0 K0]]. destruct (eval_valid c1 e1 V1 W1) as [f1 [E1 K1]].
      apply (IH f0 f1 d0 d1 K0 K1). rewrite <- E. cbn [foldM]. unfold agg_step at 2. change (vat (e0 :: e1 :: l) 0) with (Ok e0). change (vat (e0 :: e1 :: l) 1) with (Ok e1). cbn [bind fst snd]. rewrite E0. cbn [bind]. rewrite E1. cbn [bind]. reflexivity.
  Qed.
  Lemma aggregate_formed vs cs : Forall (well_formed live) vs -> aggregate dbg live vs = Ok cs -> well_formed live cs.
  Proof.
    intros F. destruct F as [|w vs W F]; [discriminate|]. destruct W as [e0 [e1 [l [-> [W0 W1]]]]].
    unfold aggregate. change (vat ((e0 :: e1 :: l) :: vs) 0) with (Ok (e0 :: e1 :: l)). cbn [bind]. change (vat (e0 :: e1 :: l) 0) with (Ok e0). change (vat (e0 :: e1 :: l) 1) with (Ok e1). cbn [bind tl].
    destruct (foldM (agg_step dbg live) vs (e0, e1)) as [[d0 d1]|] eqn:E; [|discriminate]. cbn [bind fst snd]. intros H. apply Ok_inj in H. subst cs.
    destruct (fold_formed vs F e0 e1 d0 d1 W0 W1 E) as [V0 V1]. exists d0, d1, []. split; [reflexivity|]. split; [exact V0|exact V1].
  Qed.
  Lemma aggregate_valid vs ls : Forall2 alog vs ls -> vs <> [] -> exists d0 d1, aggregate dbg live vs = Ok [d0; d1] /\ alog [d0; d1] (sums ls).
  Proof.
    intros F NE. destruct F as [|w q vs ls W F]; [destruct (NE eq_refl)|]. destruct W as [e0 [e1 [l [-> [W0 W1]]]]].
    destruct (fold_alog dbg live vs ls F e0 e1 _ _ _ _ W0 W1) as [d0 [d1 [E [R0 R1]]]]. exists d0, d1. split.
    - unfold aggregate. change (vat ((e0 :: e1 :: l) :: vs) 0) with (Ok (e0 :: e1 :: l)). cbn [bind]. change (vat (e0 :: e1 :: l) 0) with (Ok e0). change (vat (e0 :: e1 :: l) 1) with (Ok e1). cbn [bind tl]. rewrite E. reflexivity.
    - exists d0, d1, []. split; [reflexivity|]. unfold sums. rewrite !sm_cons. split; [exact R0|exact R1].
  Qed.
  Lemma alog_view d0 d1 q : alog [d0; d1] q -> map view [d0; d1] = [(pow (i0 q), pow (i1 q)); (pow (i2 q), pow (i3 q))].
  Proof.
    intros [c0 [c1 [l [E [[A B] [C D]]]]]]. assert (d0 = c0) by congruence. assert (d1 = c1) by congruence. subst c0 c1. unfold view. cbn [map].
    rewrite (like_den live _ _ A), (like_den live _ _ B), (like_den live _ _ C), (like_den live _ _ D). reflexivity.
  Qed.
  Lemma L_C128_sums vs : Forall (well_formed live) vs -> vs <> [] ->
    exists cs, aggregate dbg live vs = Ok cs /\ map view cs = [weight 0 vs; weight 1 vs] /\ well_formed live cs.
  Proof.
    intros F NE. destruct (formed_alog live vs F) as [ls A]. destruct (aggregate_valid vs ls A NE) as [d0 [d1 [E L]]]. exists [d0; d1]. split; [exact E|].
    split; [|exact (aggregate_formed vs _ F E)]. rewrite (alog_view _ _ _ L). destruct (weight_alog live vs ls A) as [-> ->]. reflexivity.
  Qed.
  Lemma L_C128_order vs vs' : Forall (well_formed live) vs -> vs <> [] -> Permutation vs vs' ->
    exists cs cs', aggregate dbg live vs = Ok cs /\ aggregate dbg live vs' = Ok cs' /\ map view cs' = map view cs.
  Proof.
    intros F NE P. destruct (formed_alog live vs F) as [ls A]. destruct (Permutation_Forall2 P A) as [ls' [P' A']].
    assert (NE' : vs' <> []) by (intros ->; apply Permutation_sym, Permutation_nil in P; exact (NE P)).
    destruct (aggregate_alog dbg live vs ls A NE) as [cs [E V]]. destruct (aggregate_alog dbg live vs' ls' A' NE') as [cs' [E' V']]. exists cs, cs'. split; [exact E|]. split; [exact E'|].
    rewrite V, V', (sm_perm i0 _ _ P'), (sm_perm i1 _ _ P'), (sm_perm i2 _ _ P'), (sm_perm i3 _ _ P'). reflexivity.
  Qed.
  Definition join (k k' : elt * elt) : elt * elt := (gadd CV (fst k) (fst k'), gadd CV (snd k) (snd k')).
  Lemma weight_app l l' : Forall (well_formed live) l -> Forall (well_formed live) l' -> weight 0 (l ++ l') = join (weight 0 l) (weight 0 l') /\ weight 1 (l ++ l') = join (weight 1 l) (weight 1 l').
  Proof.
    intros F F'. destruct (formed_alog live l F) as [q A]. destruct (formed_alog live l' F') as [q' A']. destruct (weight_alog live _ _ (Forall2_app A A')) as [-> ->].
    destruct (weight_alog live _ _ A) as [-> ->]. destruct (weight_alog live _ _ A') as [-> ->]. unfold join. cbn [fst snd]. rewrite !pow_add, !sm_app. split; reflexivity.
  Qed.
  Lemma weight_one cs k0 k1 : well_formed live cs -> map view (firstn 2 cs) = [k0; k1] -> weight 0 [cs] = k0 /\ weight 1 [cs] = k1.
  Proof.
    intros [c0 [c1 [l [-> [[A B] [C D]]]]]] H. cbn [firstn map] in H. assert (E0 : view c0 = k0) by congruence. assert (E1 : view c1 = k1) by congruence. rewrite <- E0, <- E1.
    destruct (like_valid live _ A) as [a HA]. destruct (like_valid live _ B) as [b HB]. destruct (like_valid live _ C) as [c HC]. destruct (like_valid live _ D) as [d HD].
    apply (like_den live) in HA, HB, HC, HD. unfold weight, view. cbn [map nth]. rewrite (total_single _ _ HA), (total_single _ _ HB), (total_single _ _ HC), (total_single _ _ HD). split; reflexivity.
  Qed.
  Lemma relay_proxy ts : relay dbg live (Proxy ts) = do vs <- mapM (relay dbg live) ts; aggregate dbg live vs.
  Proof.
    assert (H : forall l, (fix all (l : list proxies) : res (list (list ctxt)) := match l with [] => Ok [] | t :: l' => do v <- relay dbg live t; do vs <- all l'; Ok (v :: vs) end) l = mapM (relay dbg live) l).
    { intros l. induction l as [|t l IH]; [reflexivity|]. cbn [mapM]. rewrite <- IH. reflexivity. }
    cbn [relay]. rewrite H. reflexivity.
  Qed.
  Definition relays (t : proxies) : Prop := proper live t -> exists cs, relay dbg live t = Ok cs /\ well_formed live cs /\ Forall (well_formed live) (answers t) /\
    weight 0 [cs] = weight 0 (answers t) /\ weight 1 [cs] = weight 1 (answers t).
  Lemma relays_all : forall ts, Forall relays ts -> fold_right (fun t P => proper live t /\ P) True ts ->
    exists vs, mapM (relay dbg live) ts = Ok vs /\ length vs = length ts /\ Forall (well_formed live) vs /\ Forall (well_formed live) (flat_map answers ts) /\
      weight 0 vs = weight 0 (flat_map answers ts) /\ weight 1 vs = weight 1 (flat_map answers ts).
  Proof.
    intros ts F. induction F as [|t ts T F IH]; intros P.
    - exists []. split; [reflexivity|]. split; [reflexivity|]. split; [constructor|]. split; [constructor|]. split; reflexivity.
    - cbn [fold_right] in P. destruct P as [P1 P]. destruct (IH P) as [vs [E [L [W [WA [A0 A1]]]]]]. destruct (T P1) as [cs [E1 [W1 [WA1 [B0 B1]]]]].
      exists (cs :: vs). cbn [mapM flat_map]. rewrite E1. cbn [bind]. rewrite E. cbn [bind]. split; [reflexivity|]. split; [cbn [length]; rewrite L; reflexivity|].
      split; [constructor; [exact W1|exact W]|]. split; [apply Forall_app; split; [exact WA1|exact WA]|].
      destruct (weight_app (answers t) (flat_map answers ts) WA1 WA) as [-> ->]. destruct (weight_app [cs] vs (Forall_cons _ W1 (Forall_nil _)) W) as [X0 X1]. cbn [app] in X0, X1. rewrite X0, X1, A0, A1, B0, B1. split; reflexivity.
  Qed.
  Lemma relays_tree : forall t, relays t.
  Proof.
    fix IH 1. intros [w|ts].
    - intros W. exists w. split; [reflexivity|]. split; [exact W|]. split; [constructor; [exact W|constructor]|]. split; reflexivity.
    - intros [NE P]. assert (F : Forall relays ts) by (clear NE P; induction ts as [|t ts I]; constructor; [apply IH|exact I]).
      destruct (relays_all ts F P) as [vs [E [L [W [WA [A0 A1]]]]]]. assert (NV : vs <> []) by (intros ->; destruct ts; [exact (NE eq_refl)|discriminate L]).
      destruct (L_C128_sums vs W NV) as [cs [E1 [V W1]]]. exists cs. rewrite relay_proxy. cbn [answers]. rewrite E. cbn [bind]. split; [exact E1|]. split; [exact W1|]. split; [exact WA|]. rewrite <- A0, <- A1. apply (weight_one cs _ _ W1).
      destruct W1 as [c0 [c1 [l [-> _]]]]. cbn [firstn]. cbn [map] in V |- *. assert (Q0 : view c0 = weight 0 vs) by congruence. assert (Q1 : view c1 = weight 1 vs) by congruence. rewrite Q0, Q1. reflexivity.
  Qed.
  Lemma some_answer : forall t, proper live t -> answers t <> [].
  Proof.
    fix IH 1. intros [w|ts]; [discriminate|]. intros [NE P] Q. destruct ts as [|t ts]; [exact (NE eq_refl)|]. cbn [fold_right] in P. cbn [answers flat_map] in Q. apply app_eq_nil in Q. exact (IH t (proj1 P) (proj1 Q)).
  Qed.
  Lemma L_C128_tree t : proper live t -> exists cs cs', relay dbg live t = Ok cs /\ aggregate dbg live (answers t) = Ok cs' /\ map view (firstn 2 cs) = map view cs'.
  Proof.
    intros P. destruct (relays_tree t P) as [cs [E [W [WA [A0 A1]]]]]. exists cs.
    assert (NE : answers t <> []) by exact (some_answer t P).
    destruct (L_C128_sums (answers t) WA NE) as [cs' [E' [V _]]]. exists cs'. split; [exact E|]. split; [exact E'|]. rewrite V, <- A0, <- A1. destruct W as [c0 [c1 [l [-> W]]]]. cbn [firstn].
    destruct (weight_one (c0 :: c1 :: l) (view c0) (view c1)) as [-> ->]; [exists c0, c1, l; split; [reflexivity|exact W]|reflexivity|reflexivity].
  Qed.
  (** two levels of proxies *)
  Lemma case128 c : live c = true -> exists R, getRandomPoint dbg live CV (Some c) 3 = Ok R /\
    let G := gen CV c in let w := [mkct G R; mkct R G] in let w' := [mkct R R; mkct (pt_inf CV) G; mkct G G] in
    let t := Proxy [Proxy [Answer w; Answer w]; Proxy [Proxy [Answer w']]] in
    answers t = [w; w; w'] /\ proper live t /\
    exists cs ct cr, aggregate dbg live [w; w; w'] = Ok cs /\ map view cs = [(pow 5, pow 9); (pow 6, pow 3)] /\
      relay dbg live t = Ok ct /\ map view (firstn 2 ct) = map view cs /\ aggregate dbg live [w'; w; w] = Ok cr /\ map view cr = map view cs.
  Proof.
    intros L. destruct (randP_m dbg live c 3 L) as [R [ER MR]]. pose proof (proj1 MR) as VR. pose proof (mult_pow live R 3 MR) as DR. destruct (gen_valid live c L) as [VG EG]. pose proof (inf_valid live) as VI.
    exists R. split; [exact ER|]. cbv zeta. set (G := gen CV c) in *. set (w := [mkct G R; mkct R G]). set (w' := [mkct R R; mkct (pt_inf CV) G; mkct G G]).
    assert (W : well_formed live w) by (exists (mkct G R), (mkct R G), []; split; [reflexivity|]; split; split; [exact VG|exact VR|exact VR|exact VG]).
    assert (W' : well_formed live w') by (exists (mkct R R), (mkct (pt_inf CV) G), [mkct G G]; split; [reflexivity|]; split; split; [exact VR|exact VR|exact VI|exact VG]).
    assert (F : Forall (well_formed live) [w; w; w']) by (constructor; [exact W|constructor; [exact W|constructor; [exact W'|constructor]]]).
    set (t := Proxy [Proxy [Answer w; Answer w]; Proxy [Proxy [Answer w']]]).
    assert (A : answers t = [w; w; w']) by reflexivity.
    assert (P : proper live t).
    { split; [discriminate|]. split; [split; [discriminate|split; [exact W|split; [exact W|exact I]]]|]. split; [|exact I]. split; [discriminate|]. split; [|exact I]. split; [discriminate|]. split; [exact W'|exact I]. }
    split; [exact A|]. split; [exact P|].
    destruct (L_C128_sums [w; w; w'] F ltac:(discriminate)) as [cs [E [V _]]].
    destruct (L_C128_tree t P) as [ct [cs2 [ET [E2 V2]]]]. rewrite A, E in E2. apply Ok_inj in E2. subst cs2.
    destruct (L_C128_order [w; w; w'] [w'; w; w] F ltac:(discriminate)) as [cs3 [cr [E4 [E5 V5]]]]; [apply Permutation_sym; exact (Permutation_cons_append [w; w] w')|]. rewrite E in E4. apply Ok_inj in E4. subst cs3.
    exists cs, ct, cr. split; [exact E|]. split; [|split; [exact ET|split; [exact V2|split; [exact E5|exact V5]]]].
    rewrite V. unfold weight, w, w'. cbn [map nth cu cmv]. rewrite !total_more, !total_none, none_is, EG, DR, !pow_add.
    apply f_equal2; [apply f_equal2|apply f_equal2; [apply f_equal2|reflexivity]]; apply (f_equal pow); reflexivity.
  Qed.
End Dot.
