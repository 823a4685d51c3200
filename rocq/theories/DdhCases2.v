(** Concrete counts for the example of C108. *)
From Coq Require Import ZArith Znumtheory Bool List Lia.
From Verif Require Import Outcome FieldModel ZpField SpecField FieldProofs ECGroup ECOrder CurveParams CurveFacts EccModel EccProofs SpecEcc EccThms Emb RF DmeModel SpecDme DmeProofs OtModel OtProofs OpprfModel SpecCount CountMath SpecDdh SpecDdh2 DdhProofs DdhProofs2 DdhProofs3 DdhCases DdhMany DdhMany2.
Import ListNotations.
Open Scope Z_scope.

(** g0 infinite and a key finite *)
Definition some_finite (t : unit) (a0 a1 b0 b1 : elt) (l : list (elt * elt)) : bool := is_inf a0 && existsb (fun k => negb (is_inf (fst k))) l.

Lemma zeros_made a0 a1 b0 b1 : (order | a0) -> forall rs n, existsb (fun k => negb (is_inf (fst k))) (made a0 a1 b0 b1 (repeat 0 n) rs) = false.
Proof.
  intros D. induction rs as [|r rs IH]; intros [|n]; try reflexivity. unfold made in *. cbn [repeat combine map existsb fst snd pickz Z.eqb]. rewrite IH, orb_false_r, negb_false_iff. apply is_inf_pow, Z.divide_mul_r, D.
Qed.
Lemma bits_0 : bits_of 0 = repeat 0 16. Proof. reflexivity. Qed.
Lemma bits_top : bits_of 32768 = 1 :: repeat 0 15. Proof. reflexivity. Qed.

Lemma case_client_0 dbg live c c' : live c = true -> live c' = true -> client_guess dbg live c c' 0 no_coin some_finite 0.
Proof.
  intros L L'. apply client_bool; [exact L|exact L'|]. apply none. intros [[[[[t w] a] x] y] rs] [_ EA]. revert EA. unfold some_finite. rewrite andb_true_iff, is_inf_pow. intros [D E].
  rewrite bits_0, (zeros_made _ _ _ _ D) in E. discriminate.
Qed.

Lemma head_count n : how_many (fun l => length l = Datatypes.S n /\ Forall draw l /\ hd 0 l <> 0) ((order - 1) * order ^ Z.of_nat n).
Proof.
  assert (NZ : how_many (fun w => 1 <= w < order) (order - 1)) by (apply range_count; pose proof order_pos; lia).
  pose proof (how_many_prod _ _ _ _ NZ (lists_count draw _ draws n)) as X. refine (how_many_map (fun x : Z * list Z => fst x :: snd x) _ _ _ X _ _).
  - intros [a l] [a' l'] _ _ E. cbn in E. injection E as -> ->. reflexivity.
  - intros l. split.
    + intros [L [F N]]. destruct l as [|a l]; [discriminate|]. apply Forall_cons_iff in F. exists (a, l). cbn [length hd fst snd] in *. destruct F as [Da F]. unfold draw in Da. split; [|reflexivity]. split; [lia|split; [lia|exact F]].
    + intros [[a l'] [[Pa [Ln F]] <-]]. cbn [length hd fst snd] in *. split; [lia|]. split; [|lia]. constructor; [unfold draw; lia|exact F].
Qed.

Lemma case_client_top dbg live c c' : live c = true -> live c' = true ->
  client_guess dbg live c c' 32768 no_coin some_finite (order ^ 17 * (order - 1) ^ 2).
Proof.
  intros L L'. apply client_bool; [exact L|exact L'|]. unfold single.
  pose proof (how_many_prod _ _ _ _ (and_draws _ _ (and_nonzeros _ _ (and_draws _ _ (and_zeros _ _ no_coins)))) (head_count 15)) as X.
  replace (1 * 1 * order * (order - 1) * order * ((order - 1) * order ^ Z.of_nat 15)) with (order ^ 17 * (order - 1) ^ 2) in X by (change (Z.of_nat 15) with 15; ring).
  refine (how_many_same _ _ _ _ X). intros [[[[[t w] a] x] y] rs]. cbn [fst snd and_draw and_zero and_nonzero]. rewrite bits_length. unfold some_finite. rewrite andb_true_iff, is_inf_pow, bits_top.
  change MSG_BITS with 16%nat. pose proof draw_0 as D0.
  assert (H : draw x -> (order | w) -> length rs = 16%nat -> Forall draw rs ->
    (existsb (fun k => negb (is_inf (fst k))) (made w x a y (1 :: repeat 0 15) rs) = true <-> hd 0 rs <> 0 /\ x <> 0)).
  { intros Dx Dw Ln F. destruct rs as [|r rs]; [discriminate|]. apply Forall_cons_iff in F. cbn [hd]. pose proof (zeros_made w x a y Dw rs 15) as Z. unfold made in *.
    cbn [combine map existsb fst snd]. change (pickz 1 w x) with x. rewrite Z, orb_false_r, negb_true_iff, is_inf_false, order_mult, (draw_order r (proj1 F)), (draw_order x Dx). tauto. }
  split.
  - intros [[[[[C ->] Da] [Dx Nx]] Dy] [Ln [F Nr]]]. assert (W : (order | 0)) by (exists 0; reflexivity). specialize (H Dx W Ln F). tauto.
  - intros [[C [Dw [Da [Dx [Dy [Ln F]]]]]] [W E]]. apply (H Dx W Ln F) in E. rewrite (draw_order w Dw) in W. tauto.
Qed.
