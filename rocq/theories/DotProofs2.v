(** What a receiver that sends any public key learns of the aggregate of any number of senders. *)
From Coq Require Import ZArith Znumtheory Bool List Lia.
From Verif Require Import Outcome FieldModel ZpField SpecField FieldProofs ECGroup ECOrder CurveParams CurveFacts EccModel EccProofs SpecEcc EccThms Emb RF DmeModel SpecDme DmeProofs OtModel OtProofs SpecOt AesModel OpprfModel SpecOpprf OpprfProofs SpecCount CountMath SpecDdh SpecDdh2 SpecDdh3 SpecDdh4 DdhProofs DdhCases DdhMany DdhMany2 DdhHear5 SpecCheat CheatProofs CheatProofs2 SpecIdeal IdealProofs ComposeProofs SpecDot DotProofs.
Import ListNotations.
Open Scope Z_scope.

Section Dot.
  Variables (dbg : bool) (live : Z -> bool).
  Notation like := (DdhMany2.like live).
  Notation dlike := (dlike live).
  Lemma shown_z a0 a1 b0 b1 x y z0 z1 z0' z1' q : pow z0 = pow z0' -> pow z1 = pow z1' -> shown a0 a1 b0 b1 x y z0 z1 q = shown a0 a1 b0 b1 x y z0' z1' q.
  Proof. intros H0 H1. unfold shown. rewrite <- (pow_add _ z0), <- (pow_add _ z1), H0, H1, !pow_add. reflexivity. Qed.
  Definition cnt (a0 a1 b0 b1 x y z0 z1 : Z) (A : list (elt * elt) -> bool) (N : Z) : Prop := how_many (fun q => four q /\ A (shown a0 a1 b0 b1 x y z0 z1 q) = true) N.
  Lemma judged_cnt O c a0 a1 b0 b1 pk x y m0 m1 z0 z1 A N : dlike (sdme O) c a0 a1 b0 b1 -> like (pg pk) x -> like (ph pk) y -> is_valid live m0 -> is_valid live m1 ->
    den CV m0 = pow z0 -> den CV m1 = pow z1 -> (judged dbg live O pk 0 m0 m1 A N <-> cnt a0 a1 b0 b1 x y z0 z1 A N).
  Proof.
    intros HD HX HY V0 V1 E0 E1. assert (X : forall q, (let '(s0, t0, s1, t1) := q in draw s0 /\ draw t0 /\ draw s1 /\ draw t1 /\ exists S' cs, answer dbg live O pk 0 m0 m1 s0 t0 s1 t1 = Ok (S', cs) /\ A (map view cs) = true)
      <-> four q /\ A (shown a0 a1 b0 b1 x y z0 z1 q) = true).
    { intros [[[s0 t0] s1] t1]. destruct (answer_like dbg live O c a0 a1 b0 b1 pk x y 0 m0 m1 s0 t0 s1 t1 HD HX HY V0 V1) as [S' [cs [E EV]]]. cbn [Z.eqb] in EV.
      assert (ES : map view cs = shown a0 a1 b0 b1 x y z0 z1 (s0, t0, s1, t1)).
      { rewrite EV. unfold sees, shown, i0, i1, i2, i3. cbn [fst snd]. rewrite E0, E1, !pow_add. reflexivity. }
      split.
      - intros [D0 [D1 [D2 [D3 [S1 [cs' [E' AY]]]]]]]. rewrite E in E'. apply Ok_inj in E'. assert (cs = cs') by congruence. subst cs'. rewrite ES in AY. split; [split; [exact D0|split; [exact D1|split; [exact D2|exact D3]]]|exact AY].
      - intros [[D0 [D1 [D2 D3]]] AY]. split; [exact D0|]. split; [exact D1|]. split; [exact D2|]. split; [exact D3|]. exists S', cs. split; [exact E|]. rewrite ES. exact AY. }
    split; intros H; [exact (how_many_same _ _ _ X H)|]. refine (how_many_same _ _ _ _ H). intros q. symmetry. apply X.
  Qed.
  Lemma cnt_some a0 a1 b0 b1 x y z0 z1 A : exists N, cnt a0 a1 b0 b1 x y z0 z1 A N.
  Proof. exact (how_many_filter four _ (fun q => A (shown a0 a1 b0 b1 x y z0 z1 q)) (four_count live)). Qed.
  Lemma told_cnt D c a0 a1 b0 b1 pk x y w xs A N : dlike D c a0 a1 b0 b1 -> like (pg pk) x -> like (ph pk) y -> Forall (sender_ok live D) (w :: xs) ->
    exists z0 z1, total (map snd_m0 (w :: xs)) = pow z0 /\ total (map snd_m1 (w :: xs)) = pow z1 /\
      (cnt a0 a1 b0 b1 x y z0 z1 A N -> told dbg live pk (w :: xs) A (order ^ (4 * Z.of_nat (length xs)) * N)).
  Proof.
    intros HD HX HY F. destruct (gathered_logs dbg live D c a0 a1 b0 b1 pk x y w xs HD HX HY F) as [z0 [z1 [T0 [T1 H]]]]. exists z0, z1. split; [exact T0|]. split; [exact T1|]. intros C.
    unfold told. refine (how_many_same _ _ _ _ (sums_count _ N (length xs) C)). intros ds. split; intros [L [FF X]]; (split; [exact L|]; split; [exact FF|]).
    - destruct ds as [|q ds]; [destruct X|]. cbn [length] in L. destruct (H q ds ltac:(lia)) as [cs [E EV]]. exists cs. split; [exact E|]. rewrite EV. exact X.
    - destruct ds as [|q ds]; [discriminate L|]. cbn [length] in L. destruct (H q ds ltac:(lia)) as [cs [E EV]]. destruct X as [cs' [E' AY]]. rewrite E in E'. apply Ok_inj in E'. subst cs'. rewrite EV in AY. exact AY.
  Qed.
  Lemma point_of c z : live c = true -> exists P, is_valid live P /\ den CV P = pow z.
  Proof. intros L. destruct (randP_m dbg live c z L) as [P [_ [V E]]]. exists P. split; [exact V|exact E]. Qed.

  Lemma L_C125_one O pk xs T0 T1 A : dme_ok live (sdme O) -> pk_valid live pk -> xs <> [] -> Forall (sender_ok live (sdme O)) xs ->
    is_valid live T0 -> is_valid live T1 -> den CV T0 = total (map (snd_msg 0) xs) -> den CV T1 = total (map (snd_msg 1) xs) ->
    exists N, judged dbg live O pk 0 T0 T1 A N /\ told dbg live pk xs A (order ^ (4 * (Z.of_nat (length xs) - 1)) * N).
  Proof.
    intros OK [VX VY] NE F V0 V1 E0 E1. destruct xs as [|w xs]; [destruct (NE eq_refl)|]. destruct (ok_like live _ OK) as [c [a0 [a1 [b0 [b1 HD]]]]].
    destruct (like_valid live _ VX) as [x HX]. destruct (like_valid live _ VY) as [y HY].
    change (map (snd_msg 0) (w :: xs)) with (map snd_m0 (w :: xs)) in E0. change (map (snd_msg 1) (w :: xs)) with (map snd_m1 (w :: xs)) in E1.
    destruct (gathered_logs dbg live (sdme O) c a0 a1 b0 b1 pk x y w xs HD HX HY F) as [z0 [z1 [T0' [T1' _]]]].
    destruct (cnt_some a0 a1 b0 b1 x y z0 z1 A) as [N C]. exists N. split.
    - rewrite T0' in E0. rewrite T1' in E1. apply (judged_cnt O c a0 a1 b0 b1 pk x y T0 T1 z0 z1 A N HD HX HY V0 V1 E0 E1). exact C.
    - destruct (told_cnt (sdme O) c a0 a1 b0 b1 pk x y w xs A N HD HX HY F) as [y0 [y1 [S0 [S1 H]]]]. rewrite T0' in S0. rewrite T1' in S1.
      replace (Z.of_nat (length (w :: xs)) - 1) with (Z.of_nat (length xs)) by (cbn [length]; lia). apply H. refine (how_many_same _ _ _ _ C). intros q. rewrite (shown_z a0 a1 b0 b1 x y z0 z1 y0 y1 q S0 S1). reflexivity.
  Qed.
  Lemma L_C125_sums O pk xs xs' A : dme_ok live (sdme O) -> pk_valid live pk -> xs <> [] -> length xs' = length xs -> Forall (sender_ok live (sdme O)) xs -> Forall (sender_ok live (sdme O)) xs' ->
    (forall b, branch b -> hidden dbg live O pk b \/ total (map (snd_msg b) xs) = total (map (snd_msg b) xs')) ->
    exists N, told dbg live pk xs A N /\ told dbg live pk xs' A N.
  Proof.
    intros OK VK NE LN F F' HH. destruct (ok_like live _ OK) as [c [a0 [a1 [b0 [b1 HD]]]]]. pose proof VK as [VX VY].
    destruct (like_valid live _ VX) as [x HX]. destruct (like_valid live _ VY) as [y HY].
    destruct (fold_logs dbg live (sdme O) c a0 a1 b0 b1 pk x y HD HX HY xs F) as [z0 [z1 [E0 [E1 _]]]].
    destruct (fold_logs dbg live (sdme O) c a0 a1 b0 b1 pk x y HD HX HY xs' F') as [z0' [z1' [E0' [E1' _]]]].
    pose proof (dl_live _ _ _ _ _ _ _ HD) as LC.
    destruct (point_of c z0 LC) as [P0 [V0 D0]]. destruct (point_of c z1 LC) as [P1 [V1 D1]]. destruct (point_of c z0' LC) as [Q0 [W0 B0]]. destruct (point_of c z1' LC) as [Q1 [W1 B1]].
    assert (NE' : xs' <> []) by (intros ->; destruct xs; [destruct (NE eq_refl)|discriminate LN]).
    destruct (L_C125_one O pk xs P0 P1 A OK VK NE F V0 V1 (eq_trans D0 (eq_sym E0)) (eq_trans D1 (eq_sym E1))) as [N [J T]].
    destruct (L_C125_one O pk xs' Q0 Q1 A OK VK NE' F' W0 W1 (eq_trans B0 (eq_sym E0')) (eq_trans B1 (eq_sym E1'))) as [N' [J' T']].
    assert (EN : N = N').
    { assert (X : forall b, branch b -> hidden dbg live O pk b \/ same_point (if b =? 0 then P0 else P1) (if b =? 0 then Q0 else Q1)).
      { intros b [-> | ->]; cbn [Z.eqb]; unfold same_point.
        - destruct (HH 0 (or_introl eq_refl)) as [H|H]; [left; exact H|right]. change (total (map snd_m0 xs) = total (map snd_m0 xs')) in H. rewrite D0, B0, <- E0, <- E0'. exact H.
        - destruct (HH 1 (or_intror eq_refl)) as [H|H]; [left; exact H|right]. change (total (map snd_m1 xs) = total (map snd_m1 xs')) in H. rewrite D1, B1, <- E1, <- E1'. exact H. }
      destruct (both_messages dbg live O (fun _ => pk) (fun _ => (P0, P1)) (fun _ => (Q0, Q1)) OK (fun _ => VK) (fun _ => conj V0 V1) (fun _ => conj W0 W1)) with (A := fun h : seen => match h with [v] => A v | _ => false end) (n := 1%nat) (S := O) (S' := O) (h := @nil (list (elt * elt))) as [M [C1 C2]]; [|reflexivity|reflexivity|].
      { intros _ b Hb. destruct (X b Hb) as [H|H]; [left; exact H|right]. destruct Hb as [-> | ->]; exact H. }
      assert (Y : forall m0 m1 K, counted (fun ds => transfers dbg live O (fun _ => pk) (fun _ => (m0, m1)) ds []) 1 (fun h : seen => match h with [v] => A v | _ => false end) K -> judged dbg live O pk 0 m0 m1 A K).
      { intros m0 m1 K C. refine (how_many_map (fun ds => nth 0 ds (0, 0, 0, 0)) _ _ _ C _ _).
        - intros l l' [L _] [L' _]. destruct l as [|q [|]]; try discriminate L. destruct l' as [|q' [|]]; try discriminate L'. cbn [nth]. intros ->. reflexivity.
        - intros [[[s0 t0] s1] t1]. split.
          + intros [R0 [R1 [R2 [R3 [S' [cs [E AY]]]]]]]. exists [(s0, t0, s1, t1)]. split; [|reflexivity]. split; [reflexivity|]. split; [constructor; [split; [exact R0|split; [exact R1|split; [exact R2|exact R3]]]|constructor]|].
            exists [map view cs]. split; [|exact AY]. cbn [transfers message_of Z.eqb fst snd]. unfold answer in E. cbn [Z.eqb] in E. change (message_of (m0, m1) 0) with m0. change (message_of (m0, m1) 1) with m1. rewrite E. reflexivity.
          + intros [l [[L [FF [h [E AY]]]] EQ]]. destruct l as [|q [|]]; try discriminate L. cbn [nth] in EQ. subst q. apply Forall_cons_iff in FF. destruct FF as [[R0 [R1 [R2 R3]]] _].
            split; [exact R0|]. split; [exact R1|]. split; [exact R2|]. split; [exact R3|]. cbn [transfers] in E. apply bind_Ok in E. destruct E as [[S' cs] [E EE]]. apply Ok_inj in EE. subst h.
            exists S', cs. split; [exact E|exact AY]. }
      pose proof (how_many_unique _ _ _ J (Y _ _ _ C1)) as U1. pose proof (how_many_unique _ _ _ J' (Y _ _ _ C2)) as U2. rewrite U1, U2. reflexivity. }
    subst N'. rewrite LN in T'. eexists. split; [exact T|exact T'].
  Qed.
  Lemma L_C125_revealed O pk b : dme_ok live (sdme O) -> pk_valid live pk -> branch b -> revealed dbg live O pk b ->
    exists f, forall xs ds, xs <> [] -> length ds = length xs -> Forall (sender_ok live (sdme O)) xs ->
      exists cs, gathered dbg live pk xs ds = Ok cs /\ f (map view cs) = total (map (snd_msg b) xs).
  Proof.
    intros OK [VX VY] Hb RV. destruct (ok_like live _ OK) as [c [a0 [a1 [b0 [b1 HD]]]]]. destruct (like_valid live _ VX) as [x HX]. destruct (like_valid live _ VY) as [y HY].
    destruct (either dbg live O c a0 a1 b0 b1 pk x y b HD HX HY Hb) as [[[k [H1 H2]] _]|H]; [|destruct (L_C117_not_both dbg live O pk b OK H RV)].
    exists (fun l => undo k (nth (Z.to_nat b) l (None, None))). intros xs ds NE LN F. destruct xs as [|w xs]; [destruct (NE eq_refl)|]. destruct ds as [|q ds]; [discriminate LN|]. cbn [length] in LN.
    destruct (gathered_logs dbg live (sdme O) c a0 a1 b0 b1 pk x y w xs HD HX HY F) as [z0 [z1 [T0 [T1 H]]]]. destruct (H q ds ltac:(lia)) as [cs [E EV]]. exists cs. split; [exact E|]. rewrite EV.
    assert (U : forall a e z s t, (order | x - k * a) -> (order | y - k * e) -> undo k (pow (s * a + t * e), pow (s * x + t * y + z)) = pow z).
    { intros a e z s t K1 K2. unfold undo. cbn [fst snd]. rewrite pow_mul, pow_add. apply pow_eq.
      replace (s * x + t * y + z + - k * (s * a + t * e) - z) with (s * (x - k * a) + t * (y - k * e)) by ring. apply order_lin; assumption. }
    destruct Hb as [-> | ->]; cbn [at_branch Z.eqb] in H1, H2.
    - change (map (snd_msg 0) (w :: xs)) with (map snd_m0 (w :: xs)). rewrite T0. change (Z.to_nat 0) with 0%nat. unfold shown. cbn [nth]. apply U; assumption.
    - change (map (snd_msg 1) (w :: xs)) with (map snd_m1 (w :: xs)). rewrite T1. change (Z.to_nat 1) with 1%nat. unfold shown. cbn [nth]. apply U; assumption.
  Qed.
End Dot.
