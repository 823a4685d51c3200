(** Someone who listens to oblivious transfers: the choices. *)
From Coq Require Import ZArith Znumtheory Bool List Lia.
From Verif Require Import Outcome FieldModel ZpField SpecField FieldProofs ECGroup ECOrder CurveParams CurveFacts EccModel EccProofs SpecEcc EccThms Emb RF DmeModel SpecDme DmeProofs OtModel OtProofs SpecCount CountMath SpecDdh SpecDdh2 SpecDdh3 SpecDdh4 SpecDdh5 DdhProofs DdhProofs2 DdhProofs3 DdhMany DdhMany2 DdhServe DdhHear DdhHear2 DdhHear3 DdhHear4 DdhHear5 DdhHear6 DdhCases.
Import ListNotations.
Open Scope Z_scope.

Lemma shape_first l l' : same_shape l l' -> key_first l -> key_first l'.
Proof. intros H F. destruct H as [|[b|] [b'|] l l' E H]; solve [destruct F|destruct E|exact I]. Qed.
Lemma shape_needs l l' : same_shape l l' -> needs l = needs l' /\ keys_in l = keys_in l' /\ pairs_in l = pairs_in l' /\ forall ks ps, weave l ks ps = weave l' ks ps.
Proof.
  induction 1 as [|s s' l l' E H [I1 [I2 [I3 I4]]]]; [conj; reflexivity|]. destruct s as [b|], s' as [b'|]; try destruct E.
  - split; [exact (f_equal S I1)|]. split; [exact (f_equal S I2)|]. split; [exact I3|].
    intros [|k ks] ps; [reflexivity|]. cbn [weave]. rewrite I4. reflexivity.
  - split; [exact (f_equal (fun n => 4 + n)%nat I1)|]. split; [exact I2|]. split; [exact (f_equal (cons Pair) I3)|].
    intros ks [|[|i0 [|j0 [|i1 [|j1 [|]]]]] ps]; try reflexivity. cbn [weave]. rewrite I4. reflexivity.
Qed.
Lemma branches_length l : length (branches l) = keys_in l.
Proof. induction l as [|[b|] l IH]; [reflexivity| |exact IH]. cbn. f_equal. exact IH. Qed.
Lemma branches_good l : good_steps l -> Forall branch (branches l).
Proof. induction 1 as [|[b|] l E H IH]; [constructor|constructor; assumption|exact IH]. Qed.
Lemma needs_split l : needs l = (keys_in l + needs (pairs_in l))%nat.
Proof.
  induction l as [|[b|] l IH]; [reflexivity| |].
  - change (1 + needs l = 1 + keys_in l + needs (pairs_in l))%nat. lia.
  - change (4 + needs l = keys_in l + (4 + needs (pairs_in l)))%nat. lia.
Qed.
Lemma first_keys_in l : key_first l -> (1 <= keys_in l)%nat.
Proof. destruct l as [|[b|] l]; intros []. unfold keys_in. cbn [filter length]. lia. Qed.

(** the draws of a conversation: those of the keys and the others *)
Fixpoint part (l : list step) (ds : list (list Z)) : list Z * list (list Z) :=
  match l, ds with
  | Key _ :: l', d :: ds' => let (rs, ps) := part l' ds' in (hd 0 d :: rs, ps)
  | Pair :: l', d :: ds' => let (rs, ps) := part l' ds' in (rs, d :: ps)
  | _, _ => ([], [])
  end.
Fixpoint join (l : list step) (rs : list Z) (ps : list (list Z)) : list (list Z) :=
  match l, rs, ps with
  | Key _ :: l', r :: rs', _ => [r] :: join l' rs' ps
  | Pair :: l', _, p :: ps' => p :: join l' rs ps'
  | _, _, _ => []
  end.
Lemma part_join l : forall ds, shaped l ds -> length (fst (part l ds)) = length (branches l) /\ Forall draw (fst (part l ds)) /\ shaped (pairs_in l) (snd (part l ds)) /\ join l (fst (part l ds)) (snd (part l ds)) = ds.
Proof.
  induction l as [|s l IH]; intros ds H; inversion H as [|? d ? ds' F H' E1 E2]; subst; [conj; constructor|]. fold (shaped l ds') in H'. destruct (IH ds' H') as [A [B [C D]]]. destruct s as [b|]; cbn [part].
  - destruct (one_fits b d F) as [r [-> R]]. destruct (part l ds') as [rs ps]. cbn [fst snd hd join length branches flat_map app] in *. split; [f_equal; exact A|]. split; [constructor; assumption|]. split; [exact C|rewrite D; reflexivity].
  - destruct (part l ds') as [rs ps]. cbn [fst snd join branches flat_map app] in *. split; [exact A|]. split; [exact B|]. split; [constructor; [exact F|exact C]|rewrite D; reflexivity].
Qed.
Lemma join_part l : forall rs ps, length rs = length (branches l) -> Forall draw rs -> shaped (pairs_in l) ps -> shaped l (join l rs ps) /\ part l (join l rs ps) = (rs, ps).
Proof.
  induction l as [|[b|] l IH]; intros rs ps L F H.
  - destruct rs; [|discriminate L]. inversion H. subst. split; [constructor|reflexivity].
  - destruct rs as [|r rs]; [discriminate L|]. apply Forall_cons_iff in F. destruct F as [F1 F]. destruct (IH rs ps ltac:(cbn in L; injection L as L; exact L) F H) as [A B]. cbn [join part]. rewrite B. cbn [hd]. split; [|reflexivity].
    constructor; [|exact A]. split; [reflexivity|constructor; [exact F1|constructor]].
  - inversion H as [|? p ? ps' FP H' E1 E2]. subst. destruct (IH rs ps' L F H') as [A B]. cbn [join part]. rewrite B. split; [|reflexivity]. constructor; [exact FP|exact A].
Qed.
Lemma nv_weave w0 y0 w1 y1 l : forall rs ps, length rs = length (branches l) -> shaped (pairs_in l) ps ->
  nv w0 y0 w1 y1 l (join l rs ps) = weave l (made w0 w1 y0 y1 (branches l) rs) ps.
Proof.
  unfold made. induction l as [|[b|] l IH]; intros rs ps L H; [reflexivity| |].
  - destruct rs as [|r rs]; [discriminate L|]. cbn [join nv branches flat_map app combine map weave]. rewrite (IH rs ps); [|cbn in L; injection L as L; exact L|exact H]. reflexivity.
  - inversion H as [|? p ? ps' FP H' E1 E2]. subst. destruct (four_fits p FP) as [i0 [j0 [i1 [j1 [-> _]]]]]. cbn [join nv weave branches flat_map app]. rewrite (IH rs ps' L H'). reflexivity.
Qed.

Section Choices.
  Context {T : Type} (coin : T -> Prop) (K : Z).
  Hypothesis COIN : how_many coin K.
  Variables (l : list step) (A : T -> four -> heard -> bool).
  Notation C' := (and_steps (pairs_in l) coin).
  Lemma mumbles_single N : single C' (fun _ a => a) (keyed l A) (branches l) N -> mumbles coin l A N.
  Proof.
    intros H. unfold mumbles.
    refine (how_many_bij (fun z : T * list (list Z) * Z * Z * Z * Z * list Z => let '(t, ps, w, a, x, y, rs) := z in (t, w, a, x, y, join l rs ps))
      (fun z : T * Z * Z * Z * Z * list (list Z) => let '(t, w, a, x, y, ds) := z in (t, snd (part l ds), w, a, x, y, fst (part l ds))) _ _ _ H _ _).
    - intros [[[[[[t ps] w] a] x] y] rs] [[[C HP] [W [HA [HX [HY [L F]]]]]] EA]. destruct (join_part l rs ps L F HP) as [S E]. rewrite E. split; [|reflexivity].
      split; [split; [split; [split; [split; [split; [exact C|exact W]|exact HA]|exact HX]|exact HY]|exact S]|]. unfold keyed in EA. unfold kv. rewrite (nv_weave _ _ _ _ l rs ps L HP). exact EA.
    - intros [[[[[t w] a] x] y] ds] [[[[[[C W] HA] HX] HY] S] EA]. destruct (part_join l ds S) as [L [F [HP E]]]. rewrite E. split; [|reflexivity].
      split; [split; [split; [exact C|exact HP]|conj; assumption]|]. unfold keyed. unfold kv in EA. rewrite <- (nv_weave _ _ _ _ l _ _ L HP), E. exact EA.
  Qed.
End Choices.

Lemma L_C115_choices dbg live c c1 c2 : live c = true -> live c1 = true -> live c2 = true ->
  forall (T : Type) (coin : T -> Prop) K, how_many coin K -> forall l l' M M' A, key_first l -> same_shape l l' -> good_steps l -> good_steps l' ->
  (forall t k h, coin t -> is_valid live (fst (M t k h)) /\ is_valid live (snd (M t k h))) -> (forall t k h, coin t -> is_valid live (fst (M' t k h)) /\ is_valid live (snd (M' t k h))) ->
  let n := keys_in l in let four_draws := and_draw (and_draw (and_draw (and_draw coin))) in
  let coins := and_pairs n (and_draw (and_draw (and_draw (and_steps (pairs_in l) coin)))) in
  exists N N' g g' g1 g2 g1' g2', overheard_guess dbg live c c1 c2 l coin M A N /\ overheard_guess dbg live c c1 c2 l' coin M' A N' /\
    ddh_gap (and_steps l four_draws) (with_string l M A) g /\ ddh_gap (and_steps l' four_draws) (with_string l' M' A) g' /\
    ddh_gap coins (first_keys (fun _ y => y) (branches l) (keyed l A)) g1 /\ ddh_gap coins (second_keys (fun _ y => y) (branches l) (keyed l A)) g2 /\
    ddh_gap coins (first_keys (fun _ y => y) (branches l') (keyed l A)) g1' /\ ddh_gap coins (second_keys (fun _ y => y) (branches l') (keyed l A)) g2' /\
    Z.abs (order ^ (Z.of_nat n + 2) * (N - N') - (order ^ (Z.of_nat n - 1) * (g - g') + (g1 + g2 - g1' - g2'))) <=
      (20 + 2 * Z.of_nat n) * K * order ^ (Z.of_nat (needs l) + Z.of_nat n + 5).
Proof.
  intros L L1 L2 T coin K H l l' M M' A F SS G G' V V' n four_draws coins. pose proof order_pos as OP.
  destruct (L_C114_silent dbg live c c1 c2 L L1 L2 T coin K H l M A F G V) as [N [W [g [HN [HW [HG B]]]]]].
  destruct (L_C114_silent dbg live c c1 c2 L L1 L2 T coin K H l' M' A (shape_first _ _ SS F) G' V') as [N' [W' [g' [HN' [HW' [HG' B']]]]]].
  destruct (shape_needs _ _ SS) as [EN [EK [EP EW]]]. rewrite <- EN, <- EK in B'.
  assert (EL : length (branches l) = length (branches l')) by (rewrite !branches_length; exact EK).
  pose proof (and_steps_count (pairs_in l) coin K H) as HC.
  destruct (two_singles (and_steps (pairs_in l) coin) _ HC (fun _ a => a) (fun w a => scale w a) (fun w a => unscale w a) scale_un un_scale
    (fun w a k NZ => pow_scale2' w a k NZ) (branches l) (branches l') (keyed l A) (branches_good l G) (branches_good l' G') EL) as [X [X' [g1 [g2 [g1' [g2' [HX [HX' [G1 [G2 [G1' [G2' BX]]]]]]]]]]]].
  apply mumbles_single in HX.
  assert (HX2 : mumbles coin l' A X').
  { apply (mumbles_single coin l' A). rewrite <- EP. refine (how_many_same _ _ _ _ HX'). intros [[[[[[t ps] w] a] x] y] rs]. unfold keyed. rewrite EW. reflexivity. }
  apply (mumbles_game dbg live c c1 c2 L L1 L2 coin l G A) in HX. apply (mumbles_game dbg live c c1 c2 L L1 L2 coin l' G' A) in HX2.
  pose proof (how_many_unique _ _ _ HW HX) as E1. pose proof (how_many_unique _ _ _ HW' HX2) as E2. subst X X'.
  rewrite branches_length in G1, G2, G1', G2', BX. fold n in G1, G2, G1', G2', BX.
  exists N, N', g, g', g1, g2, g1', g2'. conj; try assumption.
  pose proof (first_keys_in l F) as N1. fold n in N1. pose proof (needs_split l) as ES. fold n in ES.
  rewrite ES. fold n in B, B'. rewrite ES in B, B'.
  set (d := needs (pairs_in l)) in *. assert (P0 : forall k, 0 <= k -> 0 < order ^ k) by (intros k Hk; apply Z.pow_pos_nonneg; lia).
  replace (order ^ (Z.of_nat n + 2)) with (order ^ (Z.of_nat n - 1) * order ^ 3) in * by (rewrite <- Z.pow_add_r by lia; f_equal; lia).
  pose proof (P0 (Z.of_nat n - 1) ltac:(lia)) as Q.
  assert (Y : forall u v k, Z.abs (order ^ 3 * u - v) <= k -> Z.abs (order ^ (Z.of_nat n - 1) * order ^ 3 * u - order ^ (Z.of_nat n - 1) * v) <= order ^ (Z.of_nat n - 1) * k).
  { intros u v k HK. replace (order ^ (Z.of_nat n - 1) * order ^ 3 * u - order ^ (Z.of_nat n - 1) * v) with (order ^ (Z.of_nat n - 1) * (order ^ 3 * u - v)) by ring.
    rewrite Z.abs_mul, (Z.abs_eq (order ^ (Z.of_nat n - 1))) by lia. apply Z.mul_le_mono_nonneg_l; lia. }
  apply Y in B, B'.
  assert (R1 : order ^ (Z.of_nat n - 1) * ((4 + Z.of_nat n) * K * order ^ (Z.of_nat (n + d) + 6)) = (4 + Z.of_nat n) * K * order ^ (Z.of_nat (n + d) + Z.of_nat n + 5)).
  { replace (Z.of_nat (n + d) + Z.of_nat n + 5) with ((Z.of_nat n - 1) + (Z.of_nat (n + d) + 6)) by lia. rewrite (Z.pow_add_r order (Z.of_nat n - 1)) by lia. ring. }
  assert (R2 : K * order ^ Z.of_nat d * (12 * order ^ (2 * Z.of_nat n + 5)) = 12 * K * order ^ (Z.of_nat (n + d) + Z.of_nat n + 5)).
  { replace (Z.of_nat (n + d) + Z.of_nat n + 5) with (Z.of_nat d + (2 * Z.of_nat n + 5)) by lia. rewrite (Z.pow_add_r order (Z.of_nat d)) by lia. ring. }
  rewrite R1 in B, B'. rewrite R2 in BX. set (B0 := K * order ^ (Z.of_nat (n + d) + Z.of_nat n + 5)) in *.
  replace ((4 + Z.of_nat n) * K * order ^ (Z.of_nat (n + d) + Z.of_nat n + 5)) with ((4 + Z.of_nat n) * B0) in B, B' by (unfold B0; ring).
  replace (12 * K * order ^ (Z.of_nat (n + d) + Z.of_nat n + 5)) with (12 * B0) in BX by (unfold B0; ring).
  replace ((20 + 2 * Z.of_nat n) * K * order ^ (Z.of_nat (n + d) + Z.of_nat n + 5)) with ((4 + Z.of_nat n) * B0 + (4 + Z.of_nat n) * B0 + 12 * B0) by (unfold B0; ring).
  rewrite !Z.mul_sub_distr_l in B, B', BX |- *. lia.
Qed.
