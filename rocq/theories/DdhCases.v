(** Concrete counts for the examples of Prop_Ddh. *)
From Coq Require Import ZArith Znumtheory Bool List Lia.
From Verif Require Import Outcome FieldModel ZpField SpecField FieldProofs ECGroup ECOrder CurveParams CurveFacts EccModel EccProofs SpecEcc EccThms Emb RF DmeModel SpecDme DmeProofs OtModel OtProofs ElgamalModel SpecElgamal ElgamalProofs SpecCount CountMath SpecDdh DdhProofs DdhProofs2 DdhProofs3.
Import ListNotations.
Open Scope Z_scope.

(** no coin at all, and the test for the point at infinity *)
Definition no_coin (t : unit) : Prop := True.
Definition is_inf (P : elt) : bool := if ept_dec (c_prime CV) P (pow 0) then true else false.

Lemma no_coins : how_many no_coin 1.
Proof. exists [tt]. split; [repeat constructor; intros []|]. split; [|reflexivity]. intros []. cbn. unfold no_coin. tauto. Qed.
Lemma draw_0 : draw 0.
Proof. pose proof order_pos. unfold draw. lia. Qed.
Lemma draw_order x : draw x -> (order | x) <-> x = 0.
Proof. intros D. pose proof order_pos. split; [|intros ->; exists 0; reflexivity]. intros H'. destruct (Z.eq_dec x 0) as [E|N]; [exact E|]. apply Z.divide_pos_le in H'; unfold draw in D; lia. Qed.
Lemma is_inf_pow i : is_inf (pow i) = true <-> (order | i).
Proof. unfold is_inf. destruct (ept_dec (c_prime CV) (pow i) (pow 0)) as [E|N]; rewrite pow_eq, Z.sub_0_r in *; [tauto|]. split; [discriminate|intros D; destruct (N D)]. Qed.
Lemma is_inf_draw i : draw i -> (is_inf (pow i) = true <-> i = 0).
Proof. intros D. rewrite is_inf_pow. apply draw_order, D. Qed.
Lemma is_inf_false i : is_inf (pow i) = false <-> ~ (order | i).
Proof. rewrite <- is_inf_pow. destruct (is_inf (pow i)); [split; [discriminate|intros H; destruct (H eq_refl)]|split; [discriminate|reflexivity]]. Qed.
Lemma prime_order : prime order.
Proof. rewrite order_eq. exact (prime_n CV good_CV). Qed.
Lemma order_mult i j : (order | i * j) <-> (order | i) \/ (order | j).
Proof. split; [apply prime_mult, prime_order|]. intros [H|H]; [apply Z.divide_mul_l, H|apply Z.divide_mul_r, H]. Qed.

(** a product of Diffie-Hellman with itself: the second and the third element both infinite *)
Definition both_inf (t : unit) (X Y Z : elt) : bool := is_inf Y && is_inf Z.

Lemma case_gap : ddh_gap no_coin both_inf (order * order - order).
Proof.
  exists order, order. split; [|split; [|reflexivity]].
  - pose proof (and_zeros _ _ (and_draws _ _ no_coins)) as H. replace (1 * order * 1) with order in H by ring. refine (how_many_same _ _ _ _ H).
    intros [[t a] b]. cbn. unfold both_inf. rewrite andb_true_iff, !is_inf_pow, order_mult. split.
    + intros [[C A] ->]. pose proof draw_0. assert (Z : (order | 0)) by (exists 0; reflexivity). tauto.
    + intros [C [A [B [H1 _]]]]. rewrite (draw_order b B) in H1. tauto.
  - pose proof (and_zeros _ _ (and_zeros _ _ (and_draws _ _ no_coins))) as H. replace (1 * order * 1 * 1) with order in H by ring. refine (how_many_same _ _ _ _ H).
    intros [[[t a] b] c]. cbn. unfold both_inf. rewrite andb_true_iff, !is_inf_pow. pose proof draw_0. split.
    + intros [[[C A] ->] ->]. rewrite (draw_order 0 draw_0). tauto.
    + intros [C [A [B [Cc [H1 H2]]]]]. rewrite (draw_order b B) in H1. rewrite (draw_order c Cc) in H2. tauto.
Qed.

Lemma none {A} (P : A -> Prop) : (forall x, ~ P x) -> how_many P 0.
Proof. intros H. exists []. split; [constructor|]. split; [|reflexivity]. intros x. split; [intros []|intros X; exact (H x X)]. Qed.
Definition and_nonzero {T} (coin : T -> Prop) : T * Z -> Prop := fun '(t, w) => coin t /\ draw w /\ w <> 0.
Lemma and_nonzeros {T} (coin : T -> Prop) K : how_many coin K -> how_many (and_nonzero coin) (K * (order - 1)).
Proof.
  intros H. apply (how_many_same (fun x : T * Z => coin (fst x) /\ 1 <= snd x < order)); [intros [t w]; cbn [fst snd and_nonzero]; unfold draw; intuition lia|].
  apply (how_many_prod coin (fun w => 1 <= w < order)); [exact H|]. apply range_count. pose proof order_pos. lia.
Qed.

(** the point at infinity and the generator, told apart when the randomness of the ciphertext is zero *)
Lemma case_eg dbg live a : live a = true ->
  eg_guess dbg live (eg_new a) no_coin (fun _ _ => pt_inf CV) both_inf order /\ eg_guess dbg live (eg_new a) no_coin (fun _ _ => gen CV a) both_inf 0.
Proof.
  intros La. pose proof (eg_new_ok live a La) as OK. pose proof (rf_inf live CV good_CV) as VI. pose proof (rf_gen live CV good_CV a La) as VG. split.
  - apply eg_bool; [exact OK|intros; exact (rf_val live _ _ VI)|].
    pose proof (and_zeros _ _ (and_draws _ _ no_coins)) as H. replace (1 * order * 1) with order in H by ring. refine (how_many_same _ _ _ _ H).
    intros [[t i] j]. cbn [and_zero and_draw]. unfold with_message, both_inf. change (f0 (fieldn CV)) with (mk (fieldn CV) 0) in VI. rewrite (rf_pow live _ 0 VI), pow_add, Z.add_0_r, andb_true_iff, !is_inf_pow, order_mult.
    pose proof draw_0. split.
    + intros [[C A] ->]. assert (Z : (order | 0)) by (exists 0; reflexivity). tauto.
    + intros [C [A [B [H1 _]]]]. rewrite (draw_order j B) in H1. tauto.
  - apply eg_bool; [exact OK|intros; exact (rf_val live _ _ VG)|]. apply none. intros [[t i] j] [_ [_ [D EA]]]. revert EA. unfold with_message, both_inf.
    change (f1 (fieldn CV)) with (mk (fieldn CV) 1) in VG. rewrite (rf_pow live _ 1 VG), pow_add, andb_true_iff, !is_inf_pow. rewrite (draw_order j D). intros [-> H]. rewrite Z.mul_0_r in H.
    pose proof prime_order as [P _]. apply Z.divide_pos_le in H; lia.
Qed.

(** a string with g0 infinite and g1 finite comes from the messy constructor only; the distinguisher made of this test never says yes *)
Definition half_inf (t : unit) (a0 a1 b0 b1 : elt) : bool := is_inf a0 && negb (is_inf a1).
Lemma case_crs dbg live c : live c = true ->
  dec_guess dbg live c no_coin half_inf 0 /\ messy_guess dbg live c no_coin half_inf (order * order * (order - 1)) /\ ddh_gap (and_draw no_coin) (blown half_inf) 0.
Proof.
  intros L. split; [|split].
  - apply (dec_bool dbg live c L). apply none. intros [[[t r1] r2] r3] [_ EA]. revert EA. unfold half_inf. rewrite andb_true_iff, negb_true_iff, is_inf_pow, is_inf_false, order_mult. tauto.
  - apply (messy_bool dbg live c L).
    pose proof (and_nonzeros _ _ (and_zeros _ _ (and_draws _ _ (and_draws _ _ no_coins)))) as H. replace (1 * order * order * 1 * (order - 1)) with (order * order * (order - 1)) in H by ring.
    refine (how_many_same _ _ _ _ H). intros [[[[t r1] r2] r3] r4]. cbn. unfold half_inf. rewrite andb_true_iff, negb_true_iff, is_inf_pow, is_inf_false. pose proof draw_0. split.
    + intros [[[[C D1] D2] ->] [D4 N]]. rewrite (draw_order r4 D4), (draw_order 0 draw_0). tauto.
    + intros [[C [D1 [D2 [D3 D4]]]] [E N]]. rewrite (draw_order r4 D4) in N. rewrite (draw_order r3 D3) in E. tauto.
  - assert (X : forall t w a b c, blown half_inf (t, w) (pow a) b c = false).
    { intros t w a b c'. cbn [blown]. unfold half_inf. rewrite pow_mul. destruct (is_inf (pow w)) eqn:E; [|reflexivity]. destruct (is_inf (pow (w * a))) eqn:F; [reflexivity|].
      apply is_inf_pow in E. apply is_inf_false in F. exfalso. apply F, Z.divide_mul_l, E. }
    exists 0, 0. split; [|split; [|ring]]; apply none; [intros [[[t w] a] b]|intros [[[[t w] a] b] e]]; rewrite X; intros H; decompose [and] H; discriminate.
Qed.

(** with g0 infinite, a public key of branch 0 is infinite too, one of branch 1 seldom is *)
Definition key_finite (t : unit) (a0 a1 b0 b1 u v : elt) : bool := is_inf a0 && negb (is_inf u).
Lemma case_branch dbg live c : live c = true ->
  branch_guess dbg live c 0 no_coin key_finite 0 /\ branch_guess dbg live c 1 no_coin key_finite (order ^ 2 * (order - 1) ^ 2).
Proof.
  intros L. split.
  - apply branch_0; [exact L|]. apply none. intros [[[[[t w] h] x] y] r] [_ EA]. revert EA. unfold key_finite. rewrite andb_true_iff, negb_true_iff, is_inf_pow, is_inf_false, order_mult. tauto.
  - apply branch_1; [exact L|]. unfold game, swap, key_finite.
    pose proof (and_nonzeros _ _ (and_draws _ _ (and_zeros _ _ (and_draws _ _ (and_nonzeros _ _ no_coins))))) as H.
    replace (1 * (order - 1) * order * 1 * order * (order - 1)) with (order ^ 2 * (order - 1) ^ 2) in H by ring.
    refine (how_many_same _ _ _ _ H). intros [[[[[t w] h] x] y] r]. cbn. rewrite andb_true_iff, negb_true_iff, is_inf_pow, is_inf_false, order_mult. pose proof draw_0. split.
    + intros [[[[[C [Dw Nw]] Dh] ->] Dy] [Dr Nr]]. rewrite (draw_order w Dw), (draw_order r Dr), (draw_order 0 draw_0). tauto.
    + intros [[C [Dw [Dh [Dx [Dy Dr]]]]] [E N]]. rewrite (draw_order w Dw), (draw_order r Dr) in N. rewrite (draw_order x Dx) in E. tauto.
Qed.
Lemma case_branch_messy dbg live c : live c = true -> branch_guess_messy dbg live c 0 no_coin key_finite 0.
Proof.
  intros L. unfold branch_guess_messy. apply none. intros [[[[[t r1] r2] r3] r4] r] [_ [_ [_ [_ [_ [_ S]]]]]].
  apply (messy_selected dbg live c L 0 t r1 r2 r3 r4 r (fun _ => key_finite tt) (or_introl eq_refl)) in S. revert S. unfold key_finite. cbn [pickz Z.eqb].
  rewrite andb_true_iff, negb_true_iff, is_inf_pow, is_inf_false, order_mult. tauto.
Qed.
