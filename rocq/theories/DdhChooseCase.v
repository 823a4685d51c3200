(** Concrete counts for the example of Prop_Ddh5. *)
From Coq Require Import ZArith Znumtheory Bool List Lia.
From Verif Require Import Outcome FieldModel ZpField SpecField FieldProofs ECGroup ECOrder CurveParams CurveFacts EccModel EccProofs SpecEcc EccThms Emb RF DmeModel SpecDme DmeProofs OtModel OtProofs SpecCount CountMath SpecDdh SpecDdh2 SpecDdh3 SpecDdh4 SpecDdh5 DdhProofs DdhProofs2 DdhMany DdhHear DdhHear2 DdhHear4 DdhHear5 DdhHearCase DdhCases.
Import ListNotations.
Open Scope Z_scope.

(** a transfer on the other branch; A looks for a finite key under a string without g0 *)
Definition other_transfer : list step := [Key 1; Pair].
Definition finite_key (t : unit) (k : four) (h : heard) : bool :=
  match h with [[(g, _)]; _] => is_inf (fst (fst k)) && negb (is_inf g) | _ => false end.

Lemma other_shape ds : shaped other_transfer ds <-> shaped one_transfer ds.
Proof. split; intros H; inversion H as [|? d ? ds' F H']; subst; (constructor; [exact F|exact H']). Qed.
Lemma case_choose dbg live c c1 c2 : live c = true -> live c1 = true -> live c2 = true ->
  overheard_guess dbg live c c1 c2 one_transfer no_coin sends_inf finite_key 0 /\
  overheard_guess dbg live c c1 c2 other_transfer no_coin sends_inf finite_key (order ^ 6 * (order - 1) ^ 2).
Proof.
  intros L L1 L2. pose proof (rf_val live _ _ (rf_inf live CV good_CV)) as VI.
  assert (Z0 : (order | 0)) by (exists 0; reflexivity). pose proof draw_0 as D0.
  assert (F : key_first one_transfer) by exact I. assert (F' : key_first other_transfer) by exact I.
  assert (G : good_steps one_transfer) by (constructor; [left; reflexivity|constructor; [exact I|constructor]]).
  assert (G' : good_steps other_transfer) by (constructor; [right; reflexivity|constructor; [exact I|constructor]]).
  split.
  - apply talks_game; [exact L|exact L1|exact L2|exact F|exact G|intros; split; exact VI|].
    apply none. intros [[[[[t w0] y0] w1] y1] ds] [[[[[[C W0] Y0] W1] Y1] H] EA]. apply case_shape in H. destruct H as [r [s0 [t0 [s1 [t1 [-> [R [A0 [B0 [A1 B1]]]]]]]]]].
    cbn [hv one_transfer app] in EA. unfold finite_key, kv, key_item, at_branch in EA. cbn [fst snd Z.eqb] in EA. rewrite andb_true_iff, negb_true_iff, is_inf_pow, is_inf_false in EA.
    destruct EA as [E N]. apply N, Z.divide_mul_r, E.
  - apply talks_game; [exact L|exact L1|exact L2|exact F'|exact G'|intros; split; exact VI|].
    replace (order ^ 6 * (order - 1) ^ 2) with (1 * order * (order - 1) * order * (order - 1) * order * order * order * order) by ring.
    refine (how_many_bij (fun z : unit * Z * Z * Z * Z * Z * Z * Z * Z => let '(t, y0, w1, y1, r, s0, t0, s1, t1) := z in (t, 0, y0, w1, y1, [[r]; [s0; t0; s1; t1]]))
      (fun z : unit * Z * Z * Z * Z * list (list Z) => match z with (t, w0, y0, w1, y1, [[r]; [s0; t0; s1; t1]]) => (t, y0, w1, y1, r, s0, t0, s1, t1) | _ => (tt, 0, 0, 0, 0, 0, 0, 0, 0) end) _ _ _
      (and_draws _ _ (and_draws _ _ (and_draws _ _ (and_draws _ _ (and_nonzeros _ _ (and_draws _ _ (and_nonzeros _ _ (and_draws _ _ no_coins)))))))) _ _).
    + intros [[[[[[[[t y0] w1] y1] r] s0] t0] s1] t1] [[[[[[[[C Y0] [W1 NW]] Y1] [R NR]] A0] B0] A1] B1]. split; [|reflexivity]. split.
      * split; [split; [split; [split; [split; [exact C|exact D0]|exact Y0]|exact W1]|exact Y1]|]. apply other_shape, case_shape. exists r, s0, t0, s1, t1. tauto.
      * cbn [hv other_transfer app]. unfold finite_key, kv, key_item, at_branch. cbn [fst snd Z.eqb Pos.eqb].
        rewrite (proj2 (is_inf_pow 0) Z0), andb_true_l, negb_true_iff, is_inf_false, order_mult, (draw_order r R), (draw_order w1 W1). tauto.
    + intros [[[[[t w0] y0] w1] y1] ds] [[[[[[C W0] Y0] W1] Y1] H] EA]. apply other_shape, case_shape in H. destruct H as [r [s0 [t0 [s1 [t1 [-> [R [A0 [B0 [A1 B1]]]]]]]]]].
      cbn [hv other_transfer app] in EA. unfold finite_key, kv, key_item, at_branch in EA. cbn [fst snd Z.eqb Pos.eqb] in EA.
      rewrite andb_true_iff, negb_true_iff, is_inf_pow, is_inf_false, order_mult, (draw_order r R), (draw_order w1 W1), (draw_order w0 W0) in EA. destruct EA as [-> N].
      split; [|reflexivity]. cbn. tauto.
Qed.
