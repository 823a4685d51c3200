(** A receiver that sends any public key it likes: proofs. *)
From Coq Require Import ZArith Znumtheory Bool List Lia.
From Verif Require Import Outcome FieldModel ZpField SpecField FieldProofs ECGroup ECOrder CurveParams CurveFacts EccModel EccProofs SpecEcc EccThms Emb RF DmeModel SpecDme DmeProofs OtModel OtProofs SpecCount CountMath SpecDdh SpecDdh2 SpecDdh3 SpecDdh4 DdhProofs DdhProofs2 DdhCases DdhMany DdhMany2 DdhHear DdhHear5 SpecCheat.
Import ListNotations.
Open Scope Z_scope.

(** ** Residues modulo the order *)
Lemma order_dec x : (order | x) \/ ~ (order | x).
Proof. destruct (Z.eq_dec (x mod order) 0) as [E|N]; [left; apply Z.mod_divide; [pose proof order_pos; lia|exact E]|right; intros H; apply N, Z.mod_divide; [pose proof order_pos; lia|exact H]]. Qed.
Lemma order_inv x : ~ (order | x) -> exists y, (order | y * x - 1).
Proof.
  intros N. pose proof (prime_rel_prime order prime_order x N) as R. destruct (rel_prime_bezout _ _ R) as [u v E]. exists v. exists (- u). lia.
Qed.
Lemma order_one : ~ (order | 1).
Proof. intros H. pose proof (prime_ge_2 order prime_order). apply Z.divide_pos_le in H; lia. Qed.
Lemma order_lin x y k l : (order | x) -> (order | y) -> (order | k * x + l * y).
Proof. intros [u ->] [v ->]. exists (k * u + l * v). ring. Qed.

(** the three cases of a public key *)
Lemma shift_or_multiple a b x y : (exists k, (order | x - k * a) /\ (order | y - k * b)) \/
  (forall d, exists p q, (order | p * a + q * b) /\ (order | p * x + q * y - d)).
Proof.
  destruct (order_dec x) as [X|X]; [destruct (order_dec y) as [Y|Y]|].
  - left. exists 0. rewrite !Z.mul_0_l, !Z.sub_0_r. split; assumption.
  - destruct (order_dec a) as [A|A]; [destruct (order_dec b) as [B|B]|].
    + right. intros d. destruct (order_inv y Y) as [i I]. exists 0, (d * i). split.
      * replace (0 * a + d * i * b) with (d * i * b) by ring. apply Z.divide_mul_r, B.
      * replace (0 * x + d * i * y - d) with (d * (i * y - 1)) by ring. apply Z.divide_mul_r, I.
    + destruct (order_inv b B) as [i I]. left. exists (y * i). split.
      * replace (x - y * i * a) with (1 * x + (- (y * i)) * a) by ring. apply order_lin; assumption.
      * replace (y - y * i * b) with (- y * (i * b - 1)) by ring. apply Z.divide_mul_r, I.
    + right. intros d. assert (N : ~ (order | a * y)) by (rewrite order_mult; tauto). destruct (order_inv _ N) as [i I].
      exists (- (b * (d * i))), (a * (d * i)). split; [replace (- (b * (d * i)) * a + a * (d * i) * b) with 0 by ring; apply Z.divide_0_r|].
      replace (- (b * (d * i)) * x + a * (d * i) * y - d) with ((- (b * (d * i))) * x + d * (i * (a * y) - 1)) by ring. apply order_lin; assumption.
  - destruct (order_dec (a * y - b * x)) as [E|E].
    + destruct (order_dec a) as [A|A].
      * assert (B : (order | b)). { assert (BX : (order | b * x)) by (replace (b * x) with (y * a + (-1) * (a * y - b * x)) by ring; apply order_lin; assumption). apply order_mult in BX. tauto. }
        right. intros d. destruct (order_inv x X) as [i I]. exists (d * i), 0. split.
        -- replace (d * i * a + 0 * b) with (d * i * a) by ring. apply Z.divide_mul_r, A.
        -- replace (d * i * x + 0 * y - d) with (d * (i * x - 1)) by ring. apply Z.divide_mul_r, I.
      * destruct (order_inv a A) as [i I]. left. exists (x * i). split.
        -- replace (x - x * i * a) with (- x * (i * a - 1)) by ring. apply Z.divide_mul_r, I.
        -- replace (y - x * i * b) with (- y * (i * a - 1) + i * (a * y - b * x)) by ring. apply order_lin; assumption.
    + right. intros d. destruct (order_inv _ E) as [i I]. exists (- (b * (d * i))), (a * (d * i)).
      split; [replace (- (b * (d * i)) * a + a * (d * i) * b) with 0 by ring; apply Z.divide_0_r|].
      replace (- (b * (d * i)) * x + a * (d * i) * y - d) with (d * (i * (a * y - b * x) - 1)) by ring. apply Z.divide_mul_r, I.
Qed.

(** ** The answer to a key *)
Section Cheat.
  Variables (dbg : bool) (live : Z -> bool).
  Notation like := (like live).
  Notation dlike := (dlike live).

  Definition sees (a b x y : Z) (m : point) (s t : Z) : elt * elt := (pow (s * a + t * b), gadd CV (pow (s * x + t * y)) (den CV m)).
  Lemma answer_like S c a0 a1 b0 b1 pk x y b m o s0 t0 s1 t1 : dlike (sdme S) c a0 a1 b0 b1 -> like (pg pk) x -> like (ph pk) y ->
    is_valid live m -> is_valid live o -> exists S' cs, answer dbg live S pk b m o s0 t0 s1 t1 = Ok (S', cs) /\
      map view cs = [sees a0 b0 x y (if b =? 0 then m else o) s0 t0; sees a1 b1 x y (if b =? 0 then o else m) s1 t1].
  Proof.
    intros HD HX HY VM VO. unfold answer, encMsgs.
    destruct (enc_like dbg live _ c _ _ _ _ pk x y 0 (if b =? 0 then m else o) s0 t0 HD HX HY) as [d0 [-> E0]]; [destruct (b =? 0); assumption|left; reflexivity|].
    destruct (enc_like dbg live _ c _ _ _ _ pk x y 1 (if b =? 0 then o else m) s1 t1 HD HX HY) as [d1 [-> E1]]; [destruct (b =? 0); assumption|right; reflexivity|].
    cbn [bind app]. do 2 eexists. split; [reflexivity|]. cbn [map]. rewrite E0, E1. reflexivity.
  Qed.

  Lemma judged_is S c a0 a1 b0 b1 pk x y b m o A N : dlike (sdme S) c a0 a1 b0 b1 -> like (pg pk) x -> like (ph pk) y -> is_valid live m -> is_valid live o ->
    (judged dbg live S pk b m o A N <-> how_many (fun z : Z * Z * Z * Z => let '(s0, t0, s1, t1) := z in (draw s0 /\ draw t0 /\ draw s1 /\ draw t1) /\
      A [sees a0 b0 x y (if b =? 0 then m else o) s0 t0; sees a1 b1 x y (if b =? 0 then o else m) s1 t1] = true) N).
  Proof.
    intros HD HX HY VM VO. unfold judged.
    assert (X : forall z : Z * Z * Z * Z, (let '(s0, t0, s1, t1) := z in draw s0 /\ draw t0 /\ draw s1 /\ draw t1 /\
        exists S' cs, answer dbg live S pk b m o s0 t0 s1 t1 = Ok (S', cs) /\ A (map view cs) = true) <->
      (let '(s0, t0, s1, t1) := z in (draw s0 /\ draw t0 /\ draw s1 /\ draw t1) /\
        A [sees a0 b0 x y (if b =? 0 then m else o) s0 t0; sees a1 b1 x y (if b =? 0 then o else m) s1 t1] = true)).
    { intros [[[s0 t0] s1] t1]. destruct (answer_like S c a0 a1 b0 b1 pk x y b m o s0 t0 s1 t1 HD HX HY VM VO) as [S' [cs [E EV]]]. rewrite <- EV. split.
      - intros [H0 [H1 [H2 [H3 [S2 [cs2 [E2 EA]]]]]]]. rewrite E in E2. apply Ok_inj in E2. assert (cs = cs2) as <- by congruence. split; [|exact EA]. split; [exact H0|]. split; [exact H1|]. split; [exact H2|exact H3].
      - intros [[H0 [H1 [H2 H3]]] EA]. split; [exact H0|]. split; [exact H1|]. split; [exact H2|]. split; [exact H3|]. exists S', cs. split; [exact E|exact EA]. }
    split; apply how_many_same; [exact X|]. intros z. symmetry. apply X.
  Qed.
  Lemma four_draws : how_many (fun z : Z * Z * Z * Z => let '(s0, t0, s1, t1) := z in draw s0 /\ draw t0 /\ draw s1 /\ draw t1) (order * order * order * order).
  Proof.
    refine (how_many_same _ _ _ _ (how_many_prod _ _ _ _ (how_many_prod _ _ _ _ (how_many_prod _ _ _ _ draws draws) draws) draws)).
    intros [[[s0 t0] s1] t1]. cbn [fst snd]. tauto.
  Qed.
  Lemma judged_exists S c a0 a1 b0 b1 pk x y b m o A : dlike (sdme S) c a0 a1 b0 b1 -> like (pg pk) x -> like (ph pk) y -> is_valid live m -> is_valid live o ->
    exists N, judged dbg live S pk b m o A N.
  Proof.
    intros HD HX HY VM VO.
    destruct (how_many_filter _ _ (fun z : Z * Z * Z * Z => let '(s0, t0, s1, t1) := z in
      A [sees a0 b0 x y (if b =? 0 then m else o) s0 t0; sees a1 b1 x y (if b =? 0 then o else m) s1 t1]) four_draws) as [N H].
    exists N. apply (judged_is S c a0 a1 b0 b1 pk x y b m o A N HD HX HY VM VO). refine (how_many_same _ _ _ _ H). intros [[[s0 t0] s1] t1]. tauto.
  Qed.

  (** two draws moved by p and q *)
  Definition moved (p s : Z) : Z := (s + p) mod order.
  Lemma moved_draw p s : draw (moved p s).
  Proof. unfold moved, draw. apply Z.mod_pos_bound. pose proof order_pos. lia. Qed.
  Lemma moved_back p s : draw s -> moved (- p) (moved p s) = s.
  Proof. intros D. unfold moved. rewrite Zplus_mod_idemp_l. replace (s + p + - p) with s by ring. apply Z.mod_small, D. Qed.
  Lemma moved_forth p s : draw s -> moved p (moved (- p) s) = s.
  Proof. intros D. rewrite <- (Z.opp_involutive p) at 1. apply moved_back, D. Qed.
  Lemma pow_lin i j a b : pow (i mod order * a + j mod order * b) = pow (i * a + j * b).
  Proof. rewrite <- !pow_add, !(Z.mul_comm _ a), !(Z.mul_comm _ b), !pow_mulmod. reflexivity. Qed.
  Lemma sees_moved a b x y m m' z z' p q s t : den CV m = pow z -> den CV m' = pow z' -> (order | p * a + q * b) -> (order | p * x + q * y - (z - z')) ->
    sees a b x y m' (moved p s) (moved q t) = sees a b x y m s t.
  Proof.
    intros EM EM' H1 H2. unfold sees, moved. rewrite !pow_lin, EM, EM', !pow_add.
    assert (F : pow ((s + p) * a + (t + q) * b) = pow (s * a + t * b)) by (apply pow_eq; replace ((s + p) * a + (t + q) * b - (s * a + t * b)) with (p * a + q * b) by ring; exact H1).
    assert (G : pow ((s + p) * x + (t + q) * y + z') = pow (s * x + t * y + z)) by (apply pow_eq; replace ((s + p) * x + (t + q) * y + z' - (s * x + t * y + z)) with (p * x + q * y - (z - z')) by ring; exact H2).
    rewrite F, G. reflexivity.
  Qed.

  Lemma hidden_if S c a0 a1 b0 b1 pk x y b : dlike (sdme S) c a0 a1 b0 b1 -> like (pg pk) x -> like (ph pk) y -> branch b ->
    (forall d, exists p q, (order | p * at_branch b a0 a1 + q * at_branch b b0 b1) /\ (order | p * x + q * y - d)) -> hidden dbg live S pk b.
  Proof.
    intros HD HX HY Hb H m m' o A VM VM' VO. destruct (judged_exists S c a0 a1 b0 b1 pk x y b m o A HD HX HY VM VO) as [N HN]. exists N. split; [exact HN|].
    apply (judged_is S c a0 a1 b0 b1 pk x y b _ o A N HD HX HY VM VO) in HN. apply (judged_is S c a0 a1 b0 b1 pk x y b _ o A N HD HX HY VM' VO).
    destruct (like_valid live m VM) as [z LZ]. destruct (like_valid live m' VM') as [z' LZ']. apply (like_den live) in LZ, LZ'.
    destruct (H (z - z')) as [p [q [H1 H2]]]. destruct Hb as [-> | ->]; cbn [Z.eqb Pos.eqb at_branch] in *.
    - refine (how_many_bij (fun w : Z * Z * Z * Z => let '(s0, t0, s1, t1) := w in (moved p s0, moved q t0, s1, t1))
        (fun w : Z * Z * Z * Z => let '(s0, t0, s1, t1) := w in (moved (- p) s0, moved (- q) t0, s1, t1)) _ _ N HN _ _); intros [[[s0 t0] s1] t1] [[D0 [D1 [D2 D3]]] EA].
      + rewrite (sees_moved a0 b0 x y m m' z z' p q s0 t0 LZ LZ' H1 H2), !moved_back by assumption. split; [|reflexivity]. split; [|exact EA].
        split; [apply moved_draw|]. split; [apply moved_draw|]. split; assumption.
      + rewrite !moved_forth by assumption. split; [|reflexivity]. split; [split; [apply moved_draw|]; split; [apply moved_draw|]; split; assumption|].
        rewrite <- (sees_moved a0 b0 x y m m' z z' p q _ _ LZ LZ' H1 H2), !moved_forth by assumption. exact EA.
    - refine (how_many_bij (fun w : Z * Z * Z * Z => let '(s0, t0, s1, t1) := w in (s0, t0, moved p s1, moved q t1))
        (fun w : Z * Z * Z * Z => let '(s0, t0, s1, t1) := w in (s0, t0, moved (- p) s1, moved (- q) t1)) _ _ N HN _ _); intros [[[s0 t0] s1] t1] [[D0 [D1 [D2 D3]]] EA].
      + rewrite (sees_moved a1 b1 x y m m' z z' p q s1 t1 LZ LZ' H1 H2), !moved_back by assumption. split; [|reflexivity]. split; [|exact EA].
        split; [assumption|]. split; [assumption|]. split; apply moved_draw.
      + rewrite !moved_forth by assumption. split; [|reflexivity]. split; [split; [assumption|]; split; [assumption|]; split; apply moved_draw|].
        rewrite <- (sees_moved a1 b1 x y m m' z z' p q _ _ LZ LZ' H1 H2), !moved_forth by assumption. exact EA.
  Qed.

  Definition undo (k : Z) (v : elt * elt) : elt := gadd CV (snd v) (gmul CV (- k) (fst v)).
  Lemma undo_sees a b x y k m z s t : den CV m = pow z -> (order | x - k * a) -> (order | y - k * b) -> undo k (sees a b x y m s t) = den CV m.
  Proof.
    intros EM H1 H2. unfold undo, sees. cbn [fst snd]. rewrite EM, pow_add, pow_mul, pow_add. apply pow_eq.
    replace (s * x + t * y + z + - k * (s * a + t * b) - z) with (s * (x - k * a) + t * (y - k * b)) by ring. apply order_lin; assumption.
  Qed.
  Lemma revealed_if S c a0 a1 b0 b1 pk x y b k : dlike (sdme S) c a0 a1 b0 b1 -> like (pg pk) x -> like (ph pk) y -> branch b ->
    (order | x - k * at_branch b a0 a1) -> (order | y - k * at_branch b b0 b1) -> revealed dbg live S pk b.
  Proof.
    intros HD HX HY Hb H1 H2. exists (fun l => undo k (nth (Z.to_nat b) l (None, None))). intros m o s0 t0 s1 t1 VM VO.
    destruct (answer_like S c a0 a1 b0 b1 pk x y b m o s0 t0 s1 t1 HD HX HY VM VO) as [S' [cs [E EV]]]. exists S', cs. split; [exact E|]. rewrite EV.
    destruct (like_valid live m VM) as [z LZ]. apply (like_den live) in LZ.
    destruct Hb as [-> | ->]; cbn [Z.eqb Pos.eqb at_branch Z.to_nat Pos.to_nat Pos.iter_op nth Nat.add] in *; apply (undo_sees _ _ _ _ _ _ z); assumption.
  Qed.
  Lemma either S c a0 a1 b0 b1 pk x y b : dlike (sdme S) c a0 a1 b0 b1 -> like (pg pk) x -> like (ph pk) y -> branch b ->
    ((exists k, (order | x - k * at_branch b a0 a1) /\ (order | y - k * at_branch b b0 b1)) /\ revealed dbg live S pk b) \/ hidden dbg live S pk b.
  Proof.
    intros HD HX HY Hb. destruct (shift_or_multiple (at_branch b a0 a1) (at_branch b b0 b1) x y) as [[k [H1 H2]]|H].
    - left. split; [exists k; split; assumption|]. exact (revealed_if S c a0 a1 b0 b1 pk x y b k HD HX HY Hb H1 H2).
    - right. exact (hidden_if S c a0 a1 b0 b1 pk x y b HD HX HY Hb H).
  Qed.
End Cheat.
