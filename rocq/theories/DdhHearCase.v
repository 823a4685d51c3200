(** Concrete counts for the example of Prop_Ddh4. *)
From Coq Require Import ZArith Znumtheory Bool List Lia.
From Verif Require Import Outcome FieldModel ZpField SpecField FieldProofs ECGroup ECOrder CurveParams CurveFacts EccModel EccProofs SpecEcc EccThms Emb RF DmeModel SpecDme DmeProofs OtModel OtProofs SpecCount CountMath SpecDdh SpecDdh2 SpecDdh3 SpecDdh4 DdhProofs DdhProofs2 DdhMany DdhHear DdhHear2 DdhHear4 DdhHear5 DdhCases.
Import ListNotations.
Open Scope Z_scope.

(** a key for branch 0, then one pair of ciphertexts; A recognises the point at infinity under a string without g0, h0 *)
Definition one_transfer : list step := [Key 0; Pair].
Definition first_inf (t : unit) (k : four) (h : heard) : bool :=
  match h with [_; [(_, v); _]] => is_inf (fst (fst k)) && is_inf (fst (snd k)) && is_inf v | _ => false end.
Definition sends_inf (t : unit) (k : four) (h : heard) : point * point := (pt_inf CV, pt_inf CV).
(** the generator once a key has been heard *)
Definition sends_gen (a : Z) (t : unit) (k : four) (h : heard) : point * point := (match h with [] => pt_inf CV | _ => gen CV a end, pt_inf CV).

Lemma case_shape ds : shaped one_transfer ds <-> exists r s0 t0 s1 t1, ds = [[r]; [s0; t0; s1; t1]] /\ draw r /\ draw s0 /\ draw t0 /\ draw s1 /\ draw t1.
Proof.
  split.
  - intros H. inversion H as [|? d1 ? ds1 F1 H1]. subst. inversion H1 as [|? d2 ? ds2 F2 H2]. subst. inversion H2. subst.
    destruct (one_fits _ _ F1) as [r [-> R]]. destruct (four_fits _ F2) as [s0 [t0 [s1 [t1 [-> [A [B [C D]]]]]]]]. exists r, s0, t0, s1, t1. tauto.
  - intros [r [s0 [t0 [s1 [t1 [-> [R [A [B [C D]]]]]]]]]]. constructor; [split; [reflexivity|constructor; [exact R|constructor]]|].
    constructor; [split; [reflexivity|]; constructor; [exact A|]; constructor; [exact B|]; constructor; [exact C|]; constructor; [exact D|constructor]|constructor].
Qed.

Lemma case_hear dbg live c c1 c2 : live c = true -> live c1 = true -> live c2 = true ->
  overheard_guess dbg live c c1 c2 one_transfer no_coin sends_inf first_inf (order ^ 7) /\ overheard_guess dbg live c c1 c2 one_transfer no_coin (sends_gen c) first_inf 0 /\
  silent_guess dbg live c c1 one_transfer no_coin first_inf (order ^ 6).
Proof.
  intros L L1 L2. pose proof (rf_inf live CV good_CV) as RI. pose proof (rf_gen live CV good_CV c L) as RG. pose proof (rf_val live _ _ RI) as VI. pose proof (rf_val live _ _ RG) as VG.
  change (f0 (fieldn CV)) with (mk (fieldn CV) 0) in RI. change (f1 (fieldn CV)) with (mk (fieldn CV) 1) in RG. apply (rf_pow live) in RI, RG.
  assert (Z0 : (order | 0)) by (exists 0; reflexivity). pose proof draw_0 as D0. pose proof prime_order as [P2 _].
  assert (F : key_first one_transfer) by exact I.
  assert (G : good_steps one_transfer) by (constructor; [left; reflexivity|constructor; [exact I|constructor]]).
  split; [|split].
  - apply talks_game; [exact L|exact L1|exact L2|exact F|exact G|intros; split; exact VI|].
    replace (order ^ 7) with (1 * order * order * order * order * order * order * order) by ring.
    refine (how_many_bij (fun z : unit * Z * Z * Z * Z * Z * Z * Z => let '(t, w1, y1, r, s0, t0, s1, t1) := z in (t, 0, 0, w1, y1, [[r]; [s0; t0; s1; t1]]))
      (fun z : unit * Z * Z * Z * Z * list (list Z) => match z with (t, w0, y0, w1, y1, [[r]; [s0; t0; s1; t1]]) => (t, w1, y1, r, s0, t0, s1, t1) | _ => (tt, 0, 0, 0, 0, 0, 0, 0) end) _ _ _
      (and_draws _ _ (and_draws _ _ (and_draws _ _ (and_draws _ _ (and_draws _ _ (and_draws _ _ (and_draws _ _ no_coins))))))) _ _).
    + intros [[[[[[[t w1] y1] r] s0] t0] s1] t1] [[[[[[[C W1] Y1] R] A0] B0] A1] B1]. split; [|reflexivity]. split.
      * split; [split; [split; [split; [split; [exact C|exact D0]|exact D0]|exact W1]|exact Y1]|]. apply case_shape. exists r, s0, t0, s1, t1. tauto.
      * cbn [hv one_transfer app]. unfold first_inf, kv, at_branch. cbn [fst snd sends_inf Z.eqb]. rewrite RI, pow_add, !Z.mul_0_r, !Z.add_0_r. rewrite (proj2 (is_inf_pow 0) Z0). reflexivity.
    + intros [[[[[t w0] y0] w1] y1] ds] [[[[[[C W0] Y0] W1] Y1] H] EA]. apply case_shape in H. destruct H as [r [s0 [t0 [s1 [t1 [-> [R [A0 [B0 [A1 B1]]]]]]]]]].
      cbn [hv one_transfer app] in EA. unfold first_inf, kv in EA. cbn [fst snd] in EA. rewrite !andb_true_iff, !is_inf_pow, (draw_order w0 W0), (draw_order y0 Y0) in EA. destruct EA as [[-> ->] _].
      split; [|reflexivity]. cbn. tauto.
  - apply talks_game; [exact L|exact L1|exact L2|exact F|exact G|intros t k [|x h]; split; cbn; assumption|].
    apply none. intros [[[[[t w0] y0] w1] y1] ds] [[[[[[C W0] Y0] W1] Y1] H] EA]. apply case_shape in H. destruct H as [r [s0 [t0 [s1 [t1 [-> [R [A0 [B0 [A1 B1]]]]]]]]]].
    cbn [hv one_transfer app] in EA. unfold first_inf, kv, at_branch in EA. cbn [fst snd sends_gen Z.eqb] in EA. rewrite RG, pow_add in EA.
    rewrite !andb_true_iff, !is_inf_pow, (draw_order w0 W0), (draw_order y0 Y0) in EA. destruct EA as [[-> ->] EA]. rewrite !Z.mul_0_r in EA. apply Z.divide_pos_le in EA; lia.
  - apply (mumbles_game dbg live c c1 c2); [exact L|exact L1|exact L2|exact G|].
    replace (order ^ 6) with (1 * order * order * order * order * order * order) by ring.
    refine (how_many_bij (fun z : unit * Z * Z * Z * Z * Z * Z => let '(t, w1, y1, r, i0, i1, j1) := z in (t, 0, 0, w1, y1, [[r]; [i0; 0; i1; j1]]))
      (fun z : unit * Z * Z * Z * Z * list (list Z) => match z with (t, w0, y0, w1, y1, [[r]; [s0; t0; s1; t1]]) => (t, w1, y1, r, s0, s1, t1) | _ => (tt, 0, 0, 0, 0, 0, 0) end) _ _ _
      (and_draws _ _ (and_draws _ _ (and_draws _ _ (and_draws _ _ (and_draws _ _ (and_draws _ _ no_coins)))))) _ _).
    + intros [[[[[[t w1] y1] r] s0] s1] t1] [[[[[[C W1] Y1] R] A0] A1] B1]. split; [|reflexivity]. split.
      * split; [split; [split; [split; [split; [exact C|exact D0]|exact D0]|exact W1]|exact Y1]|]. apply case_shape. exists r, s0, 0, s1, t1. tauto.
      * cbn [nv one_transfer app]. unfold first_inf, kv, at_branch. cbn [fst snd Z.eqb]. rewrite (proj2 (is_inf_pow 0) Z0). reflexivity.
    + intros [[[[[t w0] y0] w1] y1] ds] [[[[[[C W0] Y0] W1] Y1] H] EA]. apply case_shape in H. destruct H as [r [s0 [t0 [s1 [t1 [-> [R [A0 [B0 [A1 B1]]]]]]]]]].
      cbn [nv one_transfer app] in EA. unfold first_inf, kv in EA. cbn [fst snd] in EA. rewrite !andb_true_iff, !is_inf_pow, (draw_order w0 W0), (draw_order y0 Y0), (draw_order t0 B0) in EA. destruct EA as [[-> ->] ->].
      split; [|reflexivity]. cbn. tauto.
Qed.
