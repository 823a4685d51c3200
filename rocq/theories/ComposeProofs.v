(** Any number of transfers on any string with any keys: the messages that single answers hide stay hidden. *)
From Coq Require Import ZArith Znumtheory Bool List Lia.
From Verif Require Import Outcome FieldModel ZpField SpecField FieldProofs ECGroup ECOrder CurveParams CurveFacts EccModel EccProofs SpecEcc EccThms Emb RF DmeModel SpecDme DmeProofs OtModel OtProofs SpecCount CountMath SpecDdh SpecDdh2 SpecDdh3 SpecDdh4 DdhProofs DdhCases DdhMany DdhMany2 DdhHear5 SpecCheat CheatProofs CheatProofs2 SpecIdeal IdealProofs.
Import ListNotations.
Open Scope Z_scope.

Section Compose.
  Variables (dbg : bool) (live : Z -> bool).
  Notation like := (DdhMany2.like live).
  Notation dlike := (dlike live).

  (** ** One transfer *)
  Lemma branch_moves O c a0 a1 b0 b1 pk x y b m m' : dme_ok live (sdme O) -> dlike (sdme O) c a0 a1 b0 b1 -> like (pg pk) x -> like (ph pk) y -> branch b -> is_valid live m -> is_valid live m' ->
    hidden dbg live O pk b \/ same_point m m' ->
    exists p q, forall s t, sees (at_branch b a0 a1) (at_branch b b0 b1) x y m' (moved p s) (moved q t) = sees (at_branch b a0 a1) (at_branch b b0 b1) x y m s t.
  Proof.
    intros OK HD HX HY Hb VM VM' H. destruct (like_valid live m VM) as [z LZ]. destruct (like_valid live m' VM') as [z' LZ']. apply (like_den live) in LZ, LZ'.
    assert (X : exists p q, (order | p * at_branch b a0 a1 + q * at_branch b b0 b1) /\ (order | p * x + q * y - (z - z'))).
    { destruct H as [H|H].
      - destruct (shift_or_multiple (at_branch b a0 a1) (at_branch b b0 b1) x y) as [[k [H1 H2]]|R]; [|apply R].
        destruct (L_C117_not_both dbg live O pk b OK H (revealed_if dbg live O c a0 a1 b0 b1 pk x y b k HD HX HY Hb H1 H2)).
      - exists 0, 0. split; [exists 0; ring|]. unfold same_point in H. rewrite LZ, LZ' in H. apply pow_eq in H. replace (0 * x + 0 * y - (z - z')) with (- (z - z')) by ring. apply Z.divide_opp_r. exact H. }
    destruct X as [p [q [H1 H2]]]. exists p, q. intros s t. exact (sees_moved _ _ x y m m' z z' p q s t LZ LZ' H1 H2).
  Qed.
  Lemma swaps_both O pk m0 m1 m0' m1' : dme_ok live (sdme O) -> pk_valid live pk -> is_valid live m0 -> is_valid live m1 -> is_valid live m0' -> is_valid live m1' ->
    hidden dbg live O pk 0 \/ same_point m0 m0' -> hidden dbg live O pk 1 \/ same_point m1 m1' -> swaps dbg live O pk m0 m1 m0' m1'.
  Proof.
    intros OK [VX VY] V0 V1 V0' V1' H0 H1. destruct (ok_like live _ OK) as [c [a0 [a1 [b0 [b1 HD]]]]]. destruct (like_valid live _ VX) as [x HX]. destruct (like_valid live _ VY) as [y HY].
    destruct (branch_moves O c a0 a1 b0 b1 pk x y 0 m0 m0' OK HD HX HY (or_introl eq_refl) V0 V0' H0) as [p [q X0]].
    destruct (branch_moves O c a0 a1 b0 b1 pk x y 1 m1 m1' OK HD HX HY (or_intror eq_refl) V1 V1' H1) as [u [v X1]]. cbn [at_branch Z.eqb] in X0, X1.
    exists (fun w : Z * Z * Z * Z => let '(s0, t0, s1, t1) := w in (moved p s0, moved q t0, moved u s1, moved v t1)), (fun w : Z * Z * Z * Z => let '(s0, t0, s1, t1) := w in (moved (- p) s0, moved (- q) t0, moved (- u) s1, moved (- v) t1)).
    split; [|split].
    - intros [[[s0 t0] s1] t1] [D0 [D1 [D2 D3]]]. rewrite !moved_back by assumption. split; [|reflexivity]. split; [apply moved_draw|]. split; [apply moved_draw|]. split; apply moved_draw.
    - intros [[[s0 t0] s1] t1] [D0 [D1 [D2 D3]]]. rewrite !moved_forth by assumption. split; [|reflexivity]. split; [apply moved_draw|]. split; [apply moved_draw|]. split; apply moved_draw.
    - intros s0 t0 s1 t1 _. destruct (msgs_like dbg live O c a0 a1 b0 b1 pk x y m0 m1 s0 t0 s1 t1 HD HX HY V0 V1) as [S' [cs [E [ES EV]]]].
      destruct (msgs_like dbg live O c a0 a1 b0 b1 pk x y m0' m1' (moved p s0) (moved q t0) (moved u s1) (moved v t1) HD HX HY V0' V1') as [S'' [cs' [E' [ES' EV']]]].
      exists S', S'', cs, cs'. split; [exact E|]. split; [exact ES|]. split; [exact E'|]. split; [exact ES'|]. rewrite EV, EV', X0, X1. reflexivity.
  Qed.

  (** ** Any number *)
  Variables (O : otsndr) (K : seen -> pkey) (M M' : seen -> point * point).
  Hypothesis OK : dme_ok live (sdme O).
  Hypothesis HK : forall h, pk_valid live (K h).
  Hypothesis HM : forall h, is_valid live (message_of (M h) 0) /\ is_valid live (message_of (M h) 1).
  Hypothesis HM' : forall h, is_valid live (message_of (M' h) 0) /\ is_valid live (message_of (M' h) 1).
  Hypothesis HH : forall h b, branch b -> hidden dbg live O (K h) b \/ same_point (message_of (M h) b) (message_of (M' h) b).

  Lemma both_messages A : forall n S S' h, sdme S = sdme O -> sdme S' = sdme O ->
    exists N, counted (fun ds => transfers dbg live S K M ds h) n A N /\ counted (fun ds => transfers dbg live S' K M' ds h) n A N.
  Proof.
    induction n as [|n IH]; intros S S' h ES ES'.
    - unfold counted. destruct (A h) eqn:EA.
      + exists 1. split; (exists [[]]; split; [constructor; [intros []|constructor]|split; [|reflexivity]]; intros ds; split;
          [intros [<-|[]]; split; [reflexivity|split; [constructor|exists h; split; [reflexivity|exact EA]]]|intros [L _]; destruct ds; [left; reflexivity|discriminate L]]).
      + exists 0. split; apply how_many_none; intros ds [L [_ [h' [E EA']]]]; (destruct ds; [|discriminate L]); apply Ok_inj in E; congruence.
    - destruct (HM h) as [V0 V1]. destruct (HM' h) as [V0' V1'].
      destruct (swaps_both O (K h) _ _ _ _ OK (HK h) V0 V1 V0' V1' (HH h 0 (or_introl eq_refl)) (HH h 1 (or_intror eq_refl))) as [f [g [F [G SW]]]].
      set (R := fun (q : Z * Z * Z * Z) l => let '(s0, t0, s1, t1) := q in exists h', (do z <- encMsgs dbg live S (K h) (message_of (M h) 0) (message_of (M h) 1) s0 t0 s1 t1;
        transfers dbg live (fst z) K M l (h ++ [map view (snd z)])) = Ok h' /\ A h' = true).
      set (R' := fun (q : Z * Z * Z * Z) l => let '(s0, t0, s1, t1) := q in exists h', (do z <- encMsgs dbg live S' (K h) (message_of (M' h) 0) (message_of (M' h) 1) s0 t0 s1 t1;
        transfers dbg live (fst z) K M' l (h ++ [map view (snd z)])) = Ok h' /\ A h' = true).
      destruct (along f g four _ (fun q l => length l = n /\ Forall four l /\ R q l) (fun q l => length l = n /\ Forall four l /\ R' q l) (four_count live) F G) as [N [C1 C2]].
      + intros [[[s0 t0] s1] t1] Q. destruct (SW s0 t0 s1 t1 Q) as [S1 [S2 [cs [cs' [E1 [D1 [E2 [D2 EV]]]]]]]].
        assert (P1 : encMsgs dbg live S (K h) (message_of (M h) 0) (message_of (M h) 1) s0 t0 s1 t1 = Ok (S1, cs)) by (rewrite <- E1; unfold encMsgs; rewrite ES; reflexivity).
        destruct (f (s0, t0, s1, t1)) as [[[s0' t0'] s1'] t1'].
        assert (P2 : encMsgs dbg live S' (K h) (message_of (M' h) 0) (message_of (M' h) 1) s0' t0' s1' t1' = Ok (S2, cs')) by (rewrite <- E2; unfold encMsgs; rewrite ES'; reflexivity).
        destruct (IH S1 S2 (h ++ [map view cs]) D1 D2) as [N [C1 C2]]. exists N. unfold R, R'. rewrite P1, P2. cbn [bind fst snd]. rewrite EV. split; assumption.
      + exists N. split.
        * refine (how_many_same _ _ _ _ (of_pairs R n N C1)). intros ds. destruct ds as [|[[[s0 t0] s1] t1] l]; [split; intros [L _]; discriminate L|]. reflexivity.
        * refine (how_many_same _ _ _ _ (of_pairs R' n N C2)). intros ds. destruct ds as [|[[[s0 t0] s1] t1] l]; [split; intros [L _]; discriminate L|]. reflexivity.
  Qed.
End Compose.

Section Reveal.
  Variables (dbg : bool) (live : Z -> bool).
  Lemma L_C123_hidden S K M M' A n : dme_ok live (sdme S) -> (forall h, pk_valid live (K h)) ->
    (forall h, is_valid live (message_of (M h) 0) /\ is_valid live (message_of (M h) 1)) -> (forall h, is_valid live (message_of (M' h) 0) /\ is_valid live (message_of (M' h) 1)) ->
    (forall h b, branch b -> hidden dbg live S (K h) b \/ same_point (message_of (M h) b) (message_of (M' h) b)) ->
    exists N, counted (fun ds => transfers dbg live S K M ds []) n A N /\ counted (fun ds => transfers dbg live S K M' ds []) n A N.
  Proof. intros OK HK HM HM' HH. exact (both_messages dbg live S K M M' OK HK HM HM' HH A n S S [] eq_refl eq_refl). Qed.

  Lemma transfers_total K M : (forall h, pk_valid live (K h)) -> (forall h, is_valid live (message_of (M h) 0) /\ is_valid live (message_of (M h) 1)) ->
    forall ds S h, dme_ok live (sdme S) -> exists t, transfers dbg live S K M ds h = Ok (h ++ t) /\ length t = length ds.
  Proof.
    intros HK HM. induction ds as [|[[[s0 t0] s1] t1] l IH]; intros S h OK; [exists []; rewrite app_nil_r; split; reflexivity|].
    destruct (ok_like live _ OK) as [c [a0 [a1 [b0 [b1 HD]]]]]. destruct (HK h) as [VX VY]. destruct (like_valid live _ VX) as [x HX]. destruct (like_valid live _ VY) as [y HY]. destruct (HM h) as [V0 V1].
    destruct (msgs_like dbg live S c a0 a1 b0 b1 (K h) x y _ _ s0 t0 s1 t1 HD HX HY V0 V1) as [S' [cs [E [ES _]]]].
    destruct (IH S' (h ++ [map view cs])) as [t [ET LT]]; [rewrite ES; exact OK|]. exists (map view cs :: t). cbn [transfers]. rewrite E. cbn [bind fst snd]. rewrite ET, <- app_assoc. split; [reflexivity|]. cbn [length]. rewrite LT. reflexivity.
  Qed.
  Definition first_is (g : elt) (f : list (elt * elt) -> elt) (h : seen) : bool := is_elt g f (hd [] h).
  Lemma is_elt_true g f l : is_elt g f l = true <-> f l = g.
  Proof. unfold is_elt. destruct (ept_dec (c_prime CV) (f l) g) as [X|X]; split; [intros _; exact X|reflexivity|discriminate|intros Y; destruct (X Y)]. Qed.
  Lemma first_answer S K M b f ds : dme_ok live (sdme S) -> (forall h, pk_valid live (K h)) -> (forall h, is_valid live (message_of (M h) 0) /\ is_valid live (message_of (M h) 1)) -> branch b ->
    (forall m o s0 t0 s1 t1, is_valid live m -> is_valid live o -> exists S' cs, answer dbg live S (K []) b m o s0 t0 s1 t1 = Ok (S', cs) /\ f (map view cs) = den CV m) ->
    ds <> [] -> exists h, transfers dbg live S K M ds [] = Ok h /\ f (hd [] h) = den CV (message_of (M []) b).
  Proof.
    intros OK HK HM Hb H ND. destruct ds as [|[[[s0 t0] s1] t1] l]; [destruct (ND eq_refl)|]. destruct (HM []) as [V0 V1].
    assert (X : exists S' cs, encMsgs dbg live S (K []) (message_of (M []) 0) (message_of (M []) 1) s0 t0 s1 t1 = Ok (S', cs) /\ f (map view cs) = den CV (message_of (M []) b)).
    { destruct Hb as [-> | ->]; [exact (H _ _ s0 t0 s1 t1 V0 V1)|exact (H _ _ s0 t0 s1 t1 V1 V0)]. }
    destruct X as [S' [cs [E EF]]]. destruct (transfers_total K M HK HM l S' ([] ++ [map view cs])) as [t [ET _]].
    { assert (ES : sdme S' = sdme S); [|rewrite ES; exact OK]. unfold encMsgs in E. destruct (Enc dbg live (sdme S) (K []) 0 (message_of (M []) 0) s0 t0) as [d0|]; [|discriminate E]. cbn [bind] in E.
      destruct (Enc dbg live (sdme S) (K []) 1 (message_of (M []) 1) s1 t1) as [d1|]; [|discriminate E]. cbn [bind] in E. apply Ok_inj in E. assert (X : S' = fst (S', cs)) by reflexivity. rewrite X, <- E. reflexivity. }
    exists (([] ++ [map view cs]) ++ t). split; [cbn [transfers]; rewrite E; cbn [bind fst snd]; exact ET|]. cbn [app hd]. exact EF.
  Qed.
  Lemma L_C123_revealed S K M M' b n : dme_ok live (sdme S) -> (forall h, pk_valid live (K h)) ->
    (forall h, is_valid live (message_of (M h) 0) /\ is_valid live (message_of (M h) 1)) -> (forall h, is_valid live (message_of (M' h) 0) /\ is_valid live (message_of (M' h) 1)) ->
    branch b -> revealed dbg live S (K []) b -> ~ same_point (message_of (M []) b) (message_of (M' []) b) -> (0 < n)%nat ->
    exists A, counted (fun ds => transfers dbg live S K M ds []) n A (order ^ (4 * Z.of_nat n)) /\ counted (fun ds => transfers dbg live S K M' ds []) n A 0.
  Proof.
    intros OK HK HM HM' Hb [f H] NS LN. exists (first_is (den CV (message_of (M []) b)) f). unfold counted. split.
    - replace (order ^ (4 * Z.of_nat n)) with ((order * order * order * order) ^ Z.of_nat n) by (rewrite Z.pow_mul_r by lia; f_equal; ring).
      refine (how_many_same _ _ _ _ (lists_count four _ (four_count live) n)). intros ds. split.
      + intros [L F]. split; [exact L|]. split; [exact F|].
        destruct (first_answer S K M b f ds OK HK HM Hb H) as [h [E EF]]; [intros ->; cbn [length] in L; lia|]. exists h. split; [exact E|]. apply is_elt_true, EF.
      + intros [L [F _]]. split; [exact L|exact F].
    - apply how_many_none. intros ds [L [F [h [E EA]]]].
      destruct (first_answer S K M' b f ds OK HK HM' Hb H) as [h' [E' EF]]; [intros ->; cbn [length] in L; lia|]. rewrite E in E'. apply Ok_inj in E'. subst h'.
      apply is_elt_true in EA. apply NS. unfold same_point. rewrite <- EA, <- EF. reflexivity.
  Qed.
End Reveal.
