(** Oblivious transfers with a cheating receiver, and the world with one message only. *)
From Coq Require Import ZArith Znumtheory Bool List Lia.
From Verif Require Import Outcome FieldModel ZpField SpecField FieldProofs ECGroup ECOrder CurveParams CurveFacts EccModel EccProofs SpecEcc EccThms Emb RF DmeModel SpecDme DmeProofs OtModel OtProofs SpecCount CountMath SpecDdh SpecDdh2 SpecDdh3 SpecDdh4 DdhProofs DdhProofs2 DdhCases DdhMany DdhMany2 DdhHear DdhHear5 SpecCheat CheatProofs CheatProofs2 SpecIdeal.
Import ListNotations.
Open Scope Z_scope.

(** ** Counting along a first component *)
Lemma how_many_none {A} (P : A -> Prop) : (forall x, ~ P x) -> how_many P 0.
Proof. intros H. exists []. split; [constructor|]. split; [|reflexivity]. intros x. split; [intros []|intros X; destruct (H x X)]. Qed.
Section Count.
  Context {A B : Type}.
  Lemma along_list (f : A -> A) (P P' : A -> B -> Prop) : forall l, NoDup l -> NoDup (map f l) ->
    (forall q, In q l -> exists N, how_many (P q) N /\ how_many (P' (f q)) N) ->
    exists N, how_many (fun z : A * B => In (fst z) l /\ P (fst z) (snd z)) N /\ how_many (fun z : A * B => In (fst z) (map f l) /\ P' (fst z) (snd z)) N.
  Proof.
    assert (One : forall (R : A -> B -> Prop) q N, how_many (R q) N -> how_many (fun z : A * B => fst z = q /\ R (fst z) (snd z)) N).
    { intros R q N H. refine (how_many_map (fun y => (q, y)) _ _ _ H _ _); [intros x y _ _ E; congruence|]. intros [u y]. cbn [fst snd]. split.
      - intros [-> Y]. exists y. split; [exact Y|reflexivity].
      - intros [y' [Y E]]. assert (u = q /\ y = y') as [-> ->] by (split; congruence). split; [reflexivity|exact Y]. }
    induction l as [|q l IH]; intros ND ND' H.
    - exists 0. cbn [map In]. split; apply (how_many_none (A := A * B)); intros z [[] _].
    - cbn [map] in ND'. apply NoDup_cons_iff in ND. apply NoDup_cons_iff in ND'. destruct ND as [NI ND], ND' as [NI' ND'].
      destruct (H q (or_introl eq_refl)) as [N1 [H1 H1']]. destruct (IH ND ND' (fun x X => H x (or_intror X))) as [N2 [H2 H2']].
      exists (N1 + N2). cbn [map In]. split.
      + refine (how_many_same _ _ _ _ (how_many_or _ _ _ _ (One P q N1 H1) H2 _)).
        * intros [u y]. cbn [fst snd]. split; [intros [[-> X]|[X Y]]; tauto|intros [[->|X] Y]; tauto].
        * intros [u y]. cbn [fst snd]. intros [-> _] [X _]. contradiction.
      + refine (how_many_same _ _ _ _ (how_many_or _ _ _ _ (One P' (f q) N1 H1') H2' _)).
        * intros [u y]. cbn [fst snd]. split; [intros [[-> X]|[X Y]]; tauto|intros [[<-|X] Y]; tauto].
        * intros [u y]. cbn [fst snd]. intros [-> _] [X _]. contradiction.
  Qed.
  (** a bijection of the first components under which the counts of the second are equal *)
  Lemma along (f g : A -> A) (D : A -> Prop) n (P P' : A -> B -> Prop) : how_many D n -> (forall q, D q -> D (f q) /\ g (f q) = q) -> (forall q, D q -> D (g q) /\ f (g q) = q) ->
    (forall q, D q -> exists N, how_many (P q) N /\ how_many (P' (f q)) N) ->
    exists N, how_many (fun z : A * B => D (fst z) /\ P (fst z) (snd z)) N /\ how_many (fun z : A * B => D (fst z) /\ P' (fst z) (snd z)) N.
  Proof.
    intros [l [ND [M _]]] F G H.
    assert (ND' : NoDup (map f l)).
    { clear H. assert (I : forall x, In x l -> D x) by (intros x X; apply M, X). clear M. induction l as [|q l IH]; [constructor|]. apply NoDup_cons_iff in ND. destruct ND as [NI ND].
      cbn [map]. constructor; [|apply IH; [exact ND|intros x X; apply I; right; exact X]]. intros J. apply in_map_iff in J. destruct J as [x [E X]]. apply NI.
      assert (x = q) as <-; [|exact X]. rewrite <- (proj2 (F x (I x (or_intror X)))), E. apply (F q), I. left. reflexivity. }
    destruct (along_list f P P' l ND ND' (fun q X => H q (proj1 (M q) X))) as [N [H1 H2]]. exists N. split.
    - refine (how_many_same _ _ _ _ H1). intros [q y]. cbn [fst snd]. rewrite M. tauto.
    - refine (how_many_same _ _ _ _ H2). intros [q y]. cbn [fst snd]. assert (X : In q (map f l) <-> D q); [|rewrite X; tauto]. rewrite in_map_iff. split.
      + intros [x [<- X]]. apply (F x), M, X.
      + intros Q. exists (g q). split; [apply (G q Q)|]. apply M, (G q Q).
  Qed.
End Count.

Section Ideal.
  Variables (dbg : bool) (live : Z -> bool).
  Notation like := (DdhMany2.like live).
  Notation dlike := (dlike live).

  (** ** One transfer *)
  (** a bijection of the draws takes the answer with one message to the answer with another *)
  Definition swaps (S : otsndr) (pk : pkey) (m0 m1 m0' m1' : point) : Prop :=
    exists f g : Z * Z * Z * Z -> Z * Z * Z * Z, (forall q, four q -> four (f q) /\ g (f q) = q) /\ (forall q, four q -> four (g q) /\ f (g q) = q) /\
      forall s0 t0 s1 t1, four (s0, t0, s1, t1) -> exists S' S'' cs cs', encMsgs dbg live S pk m0 m1 s0 t0 s1 t1 = Ok (S', cs) /\ sdme S' = sdme S /\
        (let '(s0', t0', s1', t1') := f (s0, t0, s1, t1) in encMsgs dbg live S pk m0' m1' s0' t0' s1' t1') = Ok (S'', cs') /\ sdme S'' = sdme S /\ map view cs' = map view cs.
  Lemma msgs_like S c a0 a1 b0 b1 pk x y m0 m1 s0 t0 s1 t1 : dlike (sdme S) c a0 a1 b0 b1 -> like (pg pk) x -> like (ph pk) y -> is_valid live m0 -> is_valid live m1 ->
    exists S' cs, encMsgs dbg live S pk m0 m1 s0 t0 s1 t1 = Ok (S', cs) /\ sdme S' = sdme S /\ map view cs = [sees a0 b0 x y m0 s0 t0; sees a1 b1 x y m1 s1 t1].
  Proof.
    intros HD HX HY V0 V1. destruct (answer_like dbg live S c a0 a1 b0 b1 pk x y 0 m0 m1 s0 t0 s1 t1 HD HX HY V0 V1) as [S' [cs [E EV]]]. cbn [Z.eqb] in EV.
    exists S', cs. split; [exact E|]. split; [|exact EV]. unfold answer, encMsgs in E. cbn [Z.eqb] in E.
    destruct (Enc dbg live (sdme S) pk 0 m0 s0 t0) as [d0|]; [|discriminate E]. cbn [bind] in E. destruct (Enc dbg live (sdme S) pk 1 m1 s1 t1) as [d1|]; [|discriminate E]. cbn [bind] in E.
    apply Ok_inj in E. assert (X : S' = fst (S', cs)) by reflexivity. rewrite X, <- E. reflexivity.
  Qed.
  Lemma swaps_if S c a0 a1 b0 b1 pk x y b m m' o : dlike (sdme S) c a0 a1 b0 b1 -> like (pg pk) x -> like (ph pk) y -> branch b ->
    (forall d, exists p q, (order | p * at_branch b a0 a1 + q * at_branch b b0 b1) /\ (order | p * x + q * y - d)) -> is_valid live m -> is_valid live m' -> is_valid live o ->
    swaps S pk (if b =? 0 then m else o) (if b =? 0 then o else m) (if b =? 0 then m' else o) (if b =? 0 then o else m').
  Proof.
    intros HD HX HY Hb H VM VM' VO. destruct (like_valid live m VM) as [z LZ]. destruct (like_valid live m' VM') as [z' LZ']. apply (like_den live) in LZ, LZ'.
    destruct (H (z - z')) as [p [q [H1 H2]]]. destruct Hb as [-> | ->]; cbn [Z.eqb Pos.eqb at_branch] in *.
    - exists (fun w : Z * Z * Z * Z => let '(s0, t0, s1, t1) := w in (moved p s0, moved q t0, s1, t1)), (fun w : Z * Z * Z * Z => let '(s0, t0, s1, t1) := w in (moved (- p) s0, moved (- q) t0, s1, t1)).
      split; [|split].
      + intros [[[s0 t0] s1] t1] [D0 [D1 [D2 D3]]]. rewrite !moved_back by assumption. split; [|reflexivity]. split; [apply moved_draw|]. split; [apply moved_draw|]. split; assumption.
      + intros [[[s0 t0] s1] t1] [D0 [D1 [D2 D3]]]. rewrite !moved_forth by assumption. split; [|reflexivity]. split; [apply moved_draw|]. split; [apply moved_draw|]. split; assumption.
      + intros s0 t0 s1 t1 _. destruct (msgs_like S c a0 a1 b0 b1 pk x y m o s0 t0 s1 t1 HD HX HY VM VO) as [S' [cs [E [ES EV]]]].
        destruct (msgs_like S c a0 a1 b0 b1 pk x y m' o (moved p s0) (moved q t0) s1 t1 HD HX HY VM' VO) as [S'' [cs' [E' [ES' EV']]]].
        exists S', S'', cs, cs'. split; [exact E|]. split; [exact ES|]. split; [exact E'|]. split; [exact ES'|]. rewrite EV, EV', (sees_moved a0 b0 x y m m' z z' p q s0 t0 LZ LZ' H1 H2). reflexivity.
    - exists (fun w : Z * Z * Z * Z => let '(s0, t0, s1, t1) := w in (s0, t0, moved p s1, moved q t1)), (fun w : Z * Z * Z * Z => let '(s0, t0, s1, t1) := w in (s0, t0, moved (- p) s1, moved (- q) t1)).
      split; [|split].
      + intros [[[s0 t0] s1] t1] [D0 [D1 [D2 D3]]]. rewrite !moved_back by assumption. split; [|reflexivity]. split; [assumption|]. split; [assumption|]. split; apply moved_draw.
      + intros [[[s0 t0] s1] t1] [D0 [D1 [D2 D3]]]. rewrite !moved_forth by assumption. split; [|reflexivity]. split; [assumption|]. split; [assumption|]. split; apply moved_draw.
      + intros s0 t0 s1 t1 _. destruct (msgs_like S c a0 a1 b0 b1 pk x y o m s0 t0 s1 t1 HD HX HY VO VM) as [S' [cs [E [ES EV]]]].
        destruct (msgs_like S c a0 a1 b0 b1 pk x y o m' s0 t0 (moved p s1) (moved q t1) HD HX HY VO VM') as [S'' [cs' [E' [ES' EV']]]].
        exists S', S'', cs, cs'. split; [exact E|]. split; [exact ES|]. split; [exact E'|]. split; [exact ES'|]. rewrite EV, EV', (sees_moved a1 b1 x y m m' z z' p q s1 t1 LZ LZ' H1 H2). reflexivity.
  Qed.

  (** ** The messy branch *)
  Definition messy_branch (D : dme) (pk : pkey) (b : Z) : Prop := exists c a0 a1 b0 b1 x y, dlike D c a0 a1 b0 b1 /\ like (pg pk) x /\ like (ph pk) y /\
    forall d, exists p q, (order | p * at_branch b a0 a1 + q * at_branch b b0 b1) /\ (order | p * x + q * y - d).
  Lemma valid_log P : is_valid live P -> exists x, rf live CV P (ZpField.mk (fieldn CV) x).
  Proof. intros V. destruct (val_rf live P V) as [z K]. exists (val (fieldn CV) z). apply (rf_cong live CV _ _ _ K). symmetry. apply mk_val. Qed.
  Lemma found c c2 r1 r2 r3 r4 D pk : live c = true -> live c2 = true -> dme_new dbg live c messy r1 r2 r3 r4 = Ok D -> ~ (order | r1 - r2) -> some_key live pk ->
    exists b, FindMessy dbg live D pk = Ok b /\ branch b /\ messy_branch (dme_new_crs c2 (dcrs D)) pk b.
  Proof.
    intros LC LC2 ED N12 [[VX VY] SK]. destruct (new_messy_rf dbg live c r1 r2 r3 r4 LC) as [D' [E [T0 [T1 K]]]]. rewrite ED in E. apply Ok_inj in E. subst D'.
    assert (K' : drf live D c (ZpField.mk (fieldn CV) r3) (ZpField.mk (fieldn CV) r4) (ZpField.mk (fieldn CV) (r1 * r3)) (ZpField.mk (fieldn CV) (r2 * r4))) by (rewrite <- !mk_mul; exact K).
    pose proof (moved_like live D c c2 _ _ _ _ LC2 K') as HD.
    destruct (valid_log _ VX) as [x X], (valid_log _ VY) as [y Y].
    destruct (FindMessy_rf dbg live D _ pk _ _ T0 X Y) as [b [EF H]]. exists b. split; [exact EF|].
    assert (HX : like (pg pk) x) by (left; exact X). assert (HY : like (ph pk) y) by (left; exact Y).
    apply (some_like live pk x y HX HY) in SK.
    destruct H as [[-> H]|[-> H]].
    - split; [right; reflexivity|]. exists c2, r3, r4, (r1 * r3), (r2 * r4), x, y. split; [exact HD|]. split; [exact HX|]. split; [exact HY|]. cbn [at_branch Z.eqb].
      destruct (shift_or_multiple r4 (r2 * r4) x y) as [[k [H1 H2]]|R]; [|exact R]. exfalso. 
      assert (Hy : (order | y - r1 * x)) by (rewrite mk_mul in H; apply mk_order_eq in H; exact H).
      assert (Q : (order | (r1 - r2) * x)).
      { replace ((r1 - r2) * x) with (1 * (y - k * (r2 * r4)) + ((-1) * (y - r1 * x) + (- r2) * (x - k * r4))) by ring. apply Z.divide_add_r; [apply Z.divide_mul_r, H2|apply order_lin; assumption]. }
      apply order_mult in Q. destruct Q as [Q|Q]; [exact (N12 Q)|]. apply SK. split; [exact Q|]. replace y with (1 * (y - r1 * x) + r1 * x) by ring. apply order_lin; assumption.
    - split; [left; reflexivity|]. exists c2, r3, r4, (r1 * r3), (r2 * r4), x, y. split; [exact HD|]. split; [exact HX|]. split; [exact HY|]. cbn [at_branch Z.eqb].
      destruct (shift_or_multiple r3 (r1 * r3) x y) as [[k [H1 H2]]|R]; [|exact R]. exfalso. apply H. rewrite mk_mul. apply mk_order_eq.
      replace (y - r1 * x) with (1 * (y - k * (r1 * r3)) + (- r1) * (x - k * r3)) by ring. apply order_lin; assumption.
  Qed.

  (** ** Any number of transfers *)
  Lemma four_count : how_many four (order * order * order * order).
  Proof. exact (four_draws live). Qed.
  Lemma of_pairs (R : (Z * Z * Z * Z) -> list (Z * Z * Z * Z) -> Prop) n N :
    how_many (fun z : (Z * Z * Z * Z) * list (Z * Z * Z * Z) => four (fst z) /\ (length (snd z) = n /\ Forall four (snd z) /\ R (fst z) (snd z))) N ->
    how_many (fun ds => length ds = Datatypes.S n /\ Forall four ds /\ match ds with q :: l => R q l | [] => False end) N.
  Proof.
    intros H. refine (how_many_map (fun z => fst z :: snd z) _ _ _ H _ _).
    - intros [q l] [q' l'] _ _ E. cbn [fst snd] in E. congruence.
    - intros ds. split.
      + intros [L [F X]]. destruct ds as [|q l]; [destruct X|]. exists (q, l). cbn [fst snd]. split; [|reflexivity]. cbn [length] in L.
        split; [exact (Forall_inv F)|]. split; [lia|]. split; [exact (Forall_inv_tail F)|exact X].
      + intros [[q l] [[Q [L [F X]]] <-]]. cbn [fst snd length] in *. split; [lia|]. split; [constructor; assumption|exact X].
  Qed.

  Variables (c c2 r1 r2 r3 r4 : Z) (D : dme) (K : seen -> pkey) (M : seen -> point * point).
  Hypothesis LC : live c = true.
  Hypothesis LC2 : live c2 = true.
  Hypothesis ED : dme_new dbg live c messy r1 r2 r3 r4 = Ok D.
  Hypothesis N12 : ~ (order | r1 - r2).
  Hypothesis HK : forall h, some_key live (K h).
  Hypothesis HM : forall h, is_valid live (message_of (M h) 0) /\ is_valid live (message_of (M h) 1).

  Lemma both_worlds A : forall n S S' h, sdme S = dme_new_crs c2 (dcrs D) -> sdme S' = dme_new_crs c2 (dcrs D) ->
    exists N, counted (fun ds => transfers dbg live S K M ds h) n A N /\ counted (fun ds => simulated dbg live D S' K M ds h) n A N.
  Proof.
    induction n as [|n IH]; intros S S' h ES ES'.
    - unfold counted. destruct (A h) eqn:EA.
      + exists 1. split; (exists [[]]; split; [constructor; [intros []|constructor]|split; [|reflexivity]]; intros ds; split;
          [intros [<-|[]]; split; [reflexivity|split; [constructor|exists h; split; [reflexivity|exact EA]]]|intros [L _]; destruct ds; [left; reflexivity|discriminate L]]).
      + exists 0. split; apply how_many_none; intros ds [L [_ [h' [E EA']]]]; (destruct ds; [|discriminate L]); apply Ok_inj in E; congruence.
    - destruct (found c c2 r1 r2 r3 r4 D (K h) LC LC2 ED N12 (HK h)) as [b [EF [Hb [d [a0 [a1 [b0 [b1 [x [y [HD [HX [HY H]]]]]]]]]]]]].
      destruct (HM h) as [V0 V1]. set (m := message_of (M h) b). set (o := message_of (M h) (1 - b)).
      assert (VM : is_valid live m) by (unfold m; destruct Hb as [-> | ->]; assumption). assert (VO : is_valid live o) by (unfold o; destruct Hb as [-> | ->]; assumption).
      pose proof HD as HD'. rewrite <- ES in HD.
      destruct (swaps_if S d a0 a1 b0 b1 (K h) x y b m (pt_inf CV) o HD HX HY Hb H VM (inf_valid live) VO) as [f [g [F [G SW]]]].
      set (R := fun (q : Z * Z * Z * Z) l => let '(s0, t0, s1, t1) := q in exists h', (do z <- encMsgs dbg live S (K h) (message_of (M h) 0) (message_of (M h) 1) s0 t0 s1 t1;
        transfers dbg live (fst z) K M l (h ++ [map view (snd z)])) = Ok h' /\ A h' = true).
      set (R' := fun (q : Z * Z * Z * Z) l => let '(s0, t0, s1, t1) := q in exists h', (do z <- encMsgs dbg live S' (K h) (if b =? 0 then pt_inf CV else o) (if b =? 0 then o else pt_inf CV) s0 t0 s1 t1;
        simulated dbg live D (fst z) K M l (h ++ [map view (snd z)])) = Ok h' /\ A h' = true).
      destruct (along f g four _ (fun q l => length l = n /\ Forall four l /\ R q l) (fun q l => length l = n /\ Forall four l /\ R' q l) four_count F G) as [N [C1 C2]].
      + intros [[[s0 t0] s1] t1] Q. destruct (SW s0 t0 s1 t1 Q) as [S1 [S2 [cs [cs' [E1 [D1 [E2 [D2 EV]]]]]]]].
        assert (P1 : encMsgs dbg live S (K h) (message_of (M h) 0) (message_of (M h) 1) s0 t0 s1 t1 = Ok (S1, cs)) by (rewrite <- E1; unfold m, o; destruct Hb as [-> | ->]; reflexivity).
        destruct (f (s0, t0, s1, t1)) as [[[s0' t0'] s1'] t1'].
        assert (P2 : encMsgs dbg live S' (K h) (if b =? 0 then pt_inf CV else o) (if b =? 0 then o else pt_inf CV) s0' t0' s1' t1' = Ok (S2, cs')) by (rewrite <- E2; unfold encMsgs; rewrite ES, ES'; reflexivity).
        destruct (IH S1 S2 (h ++ [map view cs])) as [N [C1 C2]]; [rewrite D1; exact ES|rewrite D2; exact ES|]. exists N. unfold R, R'. rewrite P1, P2. cbn [bind fst snd]. rewrite EV. split; assumption.
      + exists N. split.
        * refine (how_many_same _ _ _ _ (of_pairs R n N C1)). intros ds. destruct ds as [|[[[s0 t0] s1] t1] l]; [split; intros [L _]; discriminate L|]. reflexivity.
        * refine (how_many_same _ _ _ _ (of_pairs R' n N C2)). intros ds. destruct ds as [|[[[s0 t0] s1] t1] l]; [split; intros [L _]; discriminate L|].
          cbn [simulated]. rewrite EF. cbn [bind]. reflexivity.
  Qed.
End Ideal.
