(** Proofs about the check that Puda::Verify leaves in a comment. *)
From Coq Require Import ZArith Znumtheory Bool List Lia.
From Verif Require Import Fermat FastMod Pocklington Outcome FieldModel ZpField SpecField FieldProofs ECGroup ECOrder CurveParams CurveFacts EccModel EccProofs SpecEcc EccThms Emb RF DmeModel SpecDme DmeProofs OtModel SpecOt OtProofs PudaModel SpecPuda PudaProofs SpecPair PairMath.
Import ListNotations.
Open Scope Z_scope.

Lemma mult_add c j k : gadd (params c) (mult (params c) j) (mult (params c) k) = mult (params c) (j + k).
Proof. exact (gk_add (params c) (good_params c) j k). Qed.
Lemma mult_eq c j k : mult (params c) j = mult (params c) k <-> (c_order (params c) | j - k).
Proof. exact (gk_eq (params c) (good_params c) j k). Qed.

(** ** Additive maps into finite groups *)
Section Finite.
  Variable c : cname.
  Let C := params c.
  Context {X : Type} (D : X -> Prop) (mul : X -> X -> X) (one : X) (inv : X -> X).
  Hypothesis G : abelian D mul one inv.
  Variable e : ept (c_prime C) -> ept (c_prime C) -> X.
  Hypothesis A : additive C D mul e.

  Lemma left_add l j k : e (mult C (j + k)) (mult C l) = mul (e (mult C j) (mult C l)) (e (mult C k) (mult C l)).
  Proof. unfold C. rewrite <- mult_add. apply (proj2 A). Qed.

  Lemma left_order l j : e (mult C (j * c_order C)) (mult C l) = one.
  Proof.
    assert (E : mult C (j * c_order C) = mult C 0).
    { apply mult_eq. exists j. unfold C. ring. }
    rewrite E. exact (hom_0 D mul one inv G (fun i => e (mult C i) (mult C l)) (fun i => proj1 A i l) (left_add l)).
  Qed.

  Lemma L_C109_trivial N : has_size D N -> ~ (c_order C | N) -> forall j l, e (mult C j) (mult C l) = one.
  Proof.
    intros HN Hd j l.
    pose (f := fun i => e (mult C i) (mult C l)). change (f j = one).
    apply (hom_coprime D mul one inv G f (fun i => proj1 A i l) (left_add l) j N (c_order C)).
    - apply Zgcd_1_rel_prime, rel_prime_sym, prime_rel_prime; [apply (g_order C (good_params c))|exact Hd].
    - apply (hom_size D mul one inv G f (fun i => proj1 A i l) (left_add l)), HN.
    - apply left_order.
  Qed.

  Lemma L_C109_field k : 0 < k < degree c -> has_size D (c_prime C ^ k - 1) -> forall j l, e (mult C j) (mult C l) = one.
  Proof.
    intros Hk HN. apply (L_C109_trivial _ HN). intros H. apply (L_C109_degree c k (proj1 Hk)) in H.
    apply Z.divide_pos_le in H; lia.
  Qed.

  (** one value decides *)
  Lemma left_inj : e (mult C 1) (mult C 1) <> one ->
    forall j k, e (mult C j) (mult C 1) = e (mult C k) (mult C 1) -> (c_order C | j - k).
  Proof.
    intros N j k E. pose (f := fun i => e (mult C i) (mult C 1)).
    assert (HD : forall i, D (f i)) by (intros i; apply (proj1 A)).
    assert (HA : forall a b, f (a + b) = mul (f a) (f b)) by (intros a b; apply left_add).
    assert (E0 : f (j - k) = one).
    { apply (ab_cancel D mul one inv G (f k)); [apply HD|apply HD|apply (ab_one _ _ _ _ G)|].
      rewrite <- HA, (ab_one_r D mul one inv G) by apply HD. replace (k + (j - k)) with j by ring. exact E. }
    destruct (Zdivide_dec (c_order C) (j - k)) as [H|H]; [exact H|exfalso]. apply N.
    change (f 1 = one). apply (hom_coprime D mul one inv G f HD HA 1 (j - k) (c_order C)).
    - apply Zgcd_1_rel_prime, rel_prime_sym, prime_rel_prime; [apply (g_order C (good_params c))|exact H].
    - rewrite Z.mul_1_l. exact E0.
    - apply left_order.
  Qed.
End Finite.

(** moving a factor from one side to the other *)
Section Bilinear.
  Variable c : cname.
  Let C := params c.
  Context {X : Type} (D : X -> Prop) (mul : X -> X -> X) (one : X) (inv : X -> X).
  Hypothesis G : abelian D mul one inv.
  Variable e : ept (c_prime C) -> ept (c_prime C) -> X.
  Hypothesis B : bilinear C D mul e.

  Lemma hom_unique (f g : Z -> X) : (forall i, D (f i)) -> (forall i, D (g i)) ->
    (forall a b, f (a + b) = mul (f a) (f b)) -> (forall a b, g (a + b) = mul (g a) (g b)) -> f 1 = g 1 -> forall i, f i = g i.
  Proof.
    intros Df Dg Af Ag E1.
    assert (E0 : f 0 = g 0) by (rewrite (hom_0 D mul one inv G f Df Af), (hom_0 D mul one inv G g Dg Ag); reflexivity).
    assert (P : forall i, 0 <= i -> f i = g i).
    { apply natlike_ind; [exact E0|]. intros i _ IH. rewrite <- Z.add_1_r, Af, Ag, IH, E1. reflexivity. }
    intros i. destruct (Z.le_gt_cases 0 i) as [H|H]; [apply P, H|].
    apply (ab_cancel D mul one inv G (f (- i))); [apply Df|apply Df|apply Dg|].
    rewrite <- Af. rewrite (P (- i)) by lia. rewrite <- Ag. rewrite Z.add_opp_diag_l. exact E0.
  Qed.

  Lemma move j k : e (mult C j) (mult C k) = e (mult C (j * k)) (mult C 1).
  Proof.
    apply (hom_unique (fun i => e (mult C j) (mult C i)) (fun i => e (mult C (j * i)) (mult C 1))).
    - intros i. apply (proj1 (proj1 B)).
    - intros i. apply (proj1 (proj1 B)).
    - intros a b. unfold C. rewrite <- mult_add. apply (proj2 B).
    - intros a b. rewrite Z.mul_add_distr_l. apply (left_add c D mul e (proj1 B)).
    - rewrite Z.mul_1_r. reflexivity.
  Qed.
End Bilinear.

(** ** The check *)
Section Check.
  Variables (dbg : bool) (live : Z -> bool).
  Context {X : Type} (D : X -> Prop) (mul : X -> X -> X) (one : X) (inv : X -> X).
  Hypothesis G : abelian D mul one inv.
  Variable e : ept (c_prime CV) -> ept (c_prime CV) -> X.

  Lemma den_mult P : is_valid live P -> exists j, den CV P = mult CV j.
  Proof. intros H. destruct (L_C13_generated live CV good_CV P H) as [j [_ E]]. exists j. exact E. Qed.
  Lemma gmul_mult k j : gmul CV k (mult CV j) = mult CV (k * j).
  Proof. exact (gk_mul CV good_CV k j). Qed.

  Lemma L_C109_accepts k pp vk sum tag t : additive CV D mul e -> 0 < k < degree Secp256r1 -> has_size D (c_prime CV ^ k - 1) ->
    public_valid live pp vk -> is_valid live tag -> check mul e pp vk sum tag t.
  Proof.
    intros A Hk HN [V1 [V2 [Vh [Vk1 Vk2]]]] VT. unfold check.
    destruct (den_mult _ V1) as [a ->]. destruct (den_mult _ V2) as [b ->]. destruct (den_mult _ Vh) as [h ->].
    destruct (den_mult _ Vk1) as [u ->]. destruct (den_mult _ Vk2) as [v ->]. destruct (den_mult _ VT) as [w ->].
    rewrite !gmul_mult.
    rewrite !(L_C109_field Secp256r1 D mul one inv G e A k Hk HN : forall j l, e (mult CV j) (mult CV l) = one).
    symmetry. apply (ab_one_l _ _ _ _ G), (ab_one _ _ _ _ G).
  Qed.

  Lemma check_logs pp vk rh ra tks sum tag T t : bilinear CV D mul e -> e (ggen CV) (ggen CV) <> one ->
    multiple live (ppg1 pp) 1 -> multiple live (ppg2 pp) 1 -> multiple live (pphash pp) rh ->
    multiple live (vk_1 vk) tks -> multiple live (vk_2 vk) ra -> multiple live tag T ->
    (check mul e pp vk sum tag t <-> (order | T - (tks * (t * rh) + ra * sum))).
  Proof.
    intros B N [_ E1] [_ E2] [_ Eh] [_ Ek1] [_ Ek2] [_ ET]. unfold check. rewrite E1, E2, Eh, Ek1, Ek2, ET.
    change (e (mult CV T) (mult CV 1) = mul (e (gmul CV t (mult CV rh)) (mult CV tks)) (e (gmul CV sum (mult CV 1)) (mult CV ra)) <->
      (order | T - (tks * (t * rh) + ra * sum))).
    rewrite !gmul_mult.
    rewrite (move Secp256r1 D mul one inv G e B (t * rh) tks : e (mult CV (t * rh)) (mult CV tks) = _).
    rewrite (move Secp256r1 D mul one inv G e B (sum * 1) ra : e (mult CV (sum * 1)) (mult CV ra) = _).
    rewrite <- (left_add Secp256r1 D mul e (proj1 B)).
    assert (N1 : e (mult CV 1) (mult CV 1) <> one).
    { assert (E : mult CV 1 = ggen CV) by (exact (gk_1 CV)). rewrite E. exact N. }
    replace (t * rh * tks + sum * 1 * ra) with (tks * (t * rh) + ra * sum) by ring. split; intros H.
    - apply (left_inj Secp256r1 D mul one inv G e (proj1 B) N1), H.
    - f_equal. apply (mult_eq Secp256r1), H.
  Qed.

  Section Bil.
  Hypothesis B : bilinear CV D mul e.
  Hypothesis N : e (ggen CV) (ggen CV) <> one.

  Lemma L_C110_exact c1 c2 rh ra ds ms t o sum tag : live c1 = true -> live c2 = true -> length ds = length ms ->
    session dbg live c1 c2 rh ra ds ms t = Ok o -> is_valid live tag ->
    (check mul e (o_pp o) (o_vk o) sum tag t <-> den CV tag = gadd CV (den CV (o_tag o)) (gmul CV (ra * (sum - sumz ms)) (ggen CV))).
  Proof.
    intros L1 L2 E ES VT. destruct (L_puda dbg live c1 c2 rh ra ds ms t L1 L2 E) as [o' [ES' [_ [_ [_ [V1 [V2 [T [G1 [G2 [H _]]]]]]]]]]].
    rewrite ES in ES'. apply Ok_inj in ES'. subst o'.
    destruct (L_C13_generated live CV good_CV tag VT) as [w [_ Ew]].
    rewrite (check_logs _ _ rh ra (sumz (map snd ds)) sum tag w t B N G1 G2 H V1 V2 (conj VT Ew)).
    rewrite (proj2 T), Ew.
    change (gadd CV (gmul CV ?a (ggen CV)) (gmul CV ?b (ggen CV))) with (gadd CV (mult CV a) (mult CV b)).
    rewrite (mult_add Secp256r1 _ _ : gadd CV (mult CV _) (mult CV _) = _).
    rewrite (mult_eq Secp256r1 w _ : gmul CV w (ggen CV) = mult CV _ <-> _). unfold order.
    change (c_order (params Secp256r1)) with (c_order CV).
    replace (sumz (map snd ds) * (t * rh) + ra * sumz ms + ra * (sum - sumz ms)) with (sumz (map snd ds) * (t * rh) + ra * sum) by ring.
    reflexivity.
  Qed.

  Lemma L_C110_honest c1 c2 rh ra ds ms t o : live c1 = true -> live c2 = true -> length ds = length ms ->
    Forall u16 ms -> sumz ms < order ->
    session dbg live c1 c2 rh ra ds ms t = Ok o ->
    (check mul e (o_pp o) (o_vk o) (o_sum o) (o_tag o) t <-> sumz ms < 65535 \/ (order | ra)).
  Proof.
    intros L1 L2 E HU HS ES. destruct (L_puda dbg live c1 c2 rh ra ds ms t L1 L2 E) as [o' [ES' [S [_ [_ [V1 [V2 [T [G1 [G2 [H _]]]]]]]]]]].
    rewrite ES in ES'. apply Ok_inj in ES'. subst o'.
    rewrite (check_logs _ _ rh ra (sumz (map snd ds)) (o_sum o) (o_tag o) _ t B N G1 G2 H V1 V2 T).
    assert (H0 : 0 <= sumz ms).
    { clear - HU. induction HU as [|m ms Hm _ IH]; unfold sumz in *; cbn [fold_right]; [lia|]. unfold u16 in Hm. lia. }
    rewrite Z.mod_small in S by lia. cbv zeta in S. rewrite S.
    destruct (Z.ltb_spec (sumz ms) 65535) as [Lt|Ge].
    - split; [intros _; left; exact Lt|intros _]. rewrite Z.sub_diag. apply Z.divide_0_r.
    - replace (sumz (map snd ds) * (t * rh) + ra * sumz ms - (sumz (map snd ds) * (t * rh) + ra * 0)) with (ra * sumz ms) by ring.
      split; [intros Hd|intros [Hl|Hd]].
      + right. apply prime_mult in Hd; [|apply (g_order CV good_CV)]. destruct Hd as [Hd|Hd]; [exact Hd|].
        apply Z.divide_pos_le in Hd; lia.
      + lia.
      + apply Z.divide_mul_l, Hd.
  Qed.

  Lemma L_C110_forge c1 c2 rh ra ds ms1 t1 o1 ms2 t2 o2 w : live c1 = true -> live c2 = true ->
    length ds = length ms1 -> length ds = length ms2 ->
    session dbg live c1 c2 rh ra ds ms1 t1 = Ok o1 -> session dbg live c1 c2 rh ra ds ms2 t2 = Ok o2 ->
    (order | (sumz ms1 * t2 - sumz ms2 * t1) * w - 1) ->
    forall s t, exists F, combine_tags dbg live (o_tag o1) (o_tag o2) ((s * t2 - sumz ms2 * t) * w) ((sumz ms1 * t - s * t1) * w) = Ok F /\
      check mul e (o_pp o1) (o_vk o1) s F t.
  Proof.
    intros L1 L2 E1 E2 ES1 ES2 W s t.
    destruct (L_puda dbg live c1 c2 rh ra ds ms1 t1 L1 L2 E1) as [o' [ES' [_ [_ [_ [V1 [V2 [T1 [G1 [G2 [H _]]]]]]]]]]].
    rewrite ES1 in ES'. apply Ok_inj in ES'. subst o'.
    destruct (L_puda dbg live c1 c2 rh ra ds ms2 t2 L1 L2 E2) as [o' [ES' [_ [_ [_ [_ [_ [T2 _]]]]]]]].
    rewrite ES2 in ES'. apply Ok_inj in ES'. subst o'.
    set (x := (s * t2 - sumz ms2 * t) * w). set (y := (sumz ms1 * t - s * t1) * w).
    apply (multiple_rf live) in T1, T2. unfold combine_tags.
    destruct (pmulz_rf dbg live CV good_CV _ _ x T1) as [P1 [-> K1]]. cbn [bind].
    destruct (pmulz_rf dbg live CV good_CV _ _ y T2) as [P2 [-> K2]]. cbn [bind].
    destruct (padd_rf dbg live CV good_CV _ _ _ _ K1 K2) as [F [-> K]]. exists F. split; [reflexivity|].
    rewrite !mk_mul, mk_add in K. apply (multiple_rf live) in K.
    apply (check_logs _ _ rh ra (sumz (map snd ds)) s F _ t B N G1 G2 H V1 V2 K).
    destruct W as [u Hu]. unfold x, y. set (tk := sumz (map snd ds)).
    set (s1 := sumz ms1) in *. set (s2 := sumz ms2) in *.
    exists (u * (tk * (t * rh) + ra * s)).
    assert (Ew : (s1 * t2 - s2 * t1) * w = u * order + 1) by lia.
    replace ((s * t2 - s2 * t) * w * (tk * (t1 * rh) + ra * s1) + (s1 * t - s * t1) * w * (tk * (t2 * rh) + ra * s2))
      with (((s1 * t2 - s2 * t1) * w) * (tk * (t * rh) + ra * s)) by ring.
    rewrite Ew. ring.
  Qed.
  End Bil.
End Check.

(** ** Instances *)
Lemma pow_div p x k : prime p -> 0 <= k -> (p | x ^ k) -> (p | x).
Proof.
  intros Hp Hk. revert k Hk. apply (natlike_ind (fun k => (p | x ^ k) -> (p | x))).
  - intros H. exfalso. rewrite Z.pow_0_r in H. pose proof (prime_ge_2 p Hp). apply Z.divide_1_r_nonneg in H; lia.
  - intros k Hk IH H. rewrite Z.pow_succ_r in H by exact Hk. apply prime_mult in H; [|exact Hp].
    destruct H as [H|H]; [exact H|apply IH, H].
Qed.

(** the residues other than 0 modulo the prime of a curve *)
Lemma units_group c : let p := c_prime (params c) in
  abelian (fun x => 1 <= x < p) (fun x y => (x * y) mod p) 1 (fun x => x ^ (p - 2) mod p) /\ has_size (fun x => 1 <= x < p) (p ^ 1 - 1).
Proof.
  intros p. assert (Hp : prime p) by apply (g_prime (params c) (good_params c)). pose proof (prime_ge_2 p Hp) as H2.
  assert (U : forall z, ~ (p | z) -> 1 <= z mod p < p).
  { intros z Hz. pose proof (Z.mod_pos_bound z p ltac:(lia)). assert (z mod p <> 0); [|lia].
    intros E. apply Hz. apply Z.mod_divide; [lia|exact E]. }
  assert (S : forall x, 1 <= x < p -> ~ (p | x)). { intros x Hx Hd. apply Z.divide_pos_le in Hd; lia. }
  split; [constructor|].
  - lia.
  - intros x y Hx Hy. apply U, prime_not_div_mul; [exact Hp|apply S, Hx|apply S, Hy].
  - intros x Hx. apply U. intros Hd. apply (S x Hx). apply (pow_div p x (p - 2) Hp); [lia|exact Hd].
  - intros x y z _ _ _. rewrite Zmult_mod_idemp_l, Zmult_mod_idemp_r, Z.mul_assoc. reflexivity.
  - intros x y _ _. rewrite Z.mul_comm. reflexivity.
  - intros x Hx. rewrite Z.mul_1_l. apply Z.mod_small. lia.
  - intros x Hx. rewrite Zmult_mod_idemp_l. rewrite Z.mul_comm.
    replace (x * x ^ (p - 2)) with (x ^ (p - 1)).
    + apply fermat; [exact Hp|apply S, Hx].
    + replace (p - 1) with (Z.succ (p - 2)) by lia. apply Z.pow_succ_r. lia.
  - exists (zrange p). split; [apply zrange_NoDup|]. split; [intros x; symmetry; apply zrange_In|].
    unfold zrange. rewrite map_length, seq_length. rewrite Z.pow_1_r. apply Z2Nat.id. lia.
Qed.

(** the constant map into it *)
Lemma constant_additive c : let p := c_prime (params c) in
  additive (params c) (fun x => 1 <= x < p) (fun x y => (x * y) mod p) (fun _ _ => 1).
Proof.
  intros p. assert (Hp : prime p) by apply (g_prime (params c) (good_params c)). pose proof (prime_ge_2 p Hp) as H2.
  split; intros; [lia|]. rewrite Z.mul_1_l. symmetry. apply Z.mod_small. lia.
Qed.

(** the residues modulo the order, with addition, and the product of the logarithms *)
Lemma residues_group_of n : prime n ->
  abelian (fun _ : Fp n => True) (fadd n) (f0 n) (fopp n) /\ has_size (fun _ : Fp n => True) n.
Proof.
  intros Hn. pose proof (ring_Fp n) as R. split; [constructor|].
  - exact I.
  - intros; exact I.
  - intros; exact I.
  - intros x y z _ _ _. symmetry. apply (Ring_theory.Radd_assoc R).
  - intros x y _ _. apply (Ring_theory.Radd_comm R).
  - intros x _. apply (Ring_theory.Radd_0_l R).
  - intros x _. rewrite (Ring_theory.Radd_comm R). apply (Ring_theory.Ropp_def R).
  - pose proof (prime_ge_2 n Hn). exists (map (mk n) (zrange (n + 1))). split; [|split].
    + apply NoDup_map_inj; [|apply zrange_NoDup]. intros x y Hx Hy E. apply zrange_In in Hx, Hy.
      apply mk_eq_inv in E. destruct (Z.eq_dec x n) as [->|Nx], (Z.eq_dec y n) as [->|Ny]; [reflexivity| | |].
      * rewrite Z_mod_same_full, Z.mod_small in E by lia. lia.
      * rewrite Z_mod_same_full, Z.mod_small in E by lia. lia.
      * rewrite !Z.mod_small in E by lia. exact E.
    + intros x. split; [intros _|intros _; exact I]. apply in_map_iff.
      pose proof (val_range n Hn x) as V. destruct (Z.eq_dec (val n x) 0) as [E|E].
      * exists n. split; [|apply zrange_In; lia]. rewrite <- (mk_val n x), E. apply mk_eq. rewrite Z_mod_same_full, Z.mod_0_l by lia. reflexivity.
      * exists (val n x). split; [apply mk_val|apply zrange_In; lia].
    + unfold zrange. rewrite !map_length, seq_length. replace (n + 1 - 1) with n by ring. apply Z2Nat.id. lia.
Qed.
Lemma residues_group : let n := fieldn CV in
  abelian (fun _ : Fp n => True) (fadd n) (f0 n) (fopp n) /\ has_size (fun _ : Fp n => True) (c_order CV).
Proof. exact (residues_group_of (fieldn CV) (prime_n CV good_CV)). Qed.
Lemma pairing_bilinear : let n := fieldn CV in
  bilinear CV (fun _ : Fp n => True) (fadd n) pairing /\ pairing (ggen CV) (ggen CV) <> f0 n.
Proof.
  intros n. destruct L_pairing as [P1 [P2 P3]]. fold n in P1, P2, P3. cbv zeta in *.
  assert (S : forall j l, pairing (gmul CV j (ggen CV)) (gmul CV l (ggen CV)) = pairing (gmul CV (j * l) (ggen CV)) (gmul CV 1 (ggen CV))).
  { intros j l. rewrite P2, Z.mul_1_r. reflexivity. }
  split; [split; [split|]|].
  - intros; exact I.
  - intros j k l. rewrite (mult_add Secp256r1 j k : gadd CV (mult CV j) (mult CV k) = _). apply P1.
  - intros j k l. rewrite (mult_add Secp256r1 j k : gadd CV (mult CV j) (mult CV k) = _).
    change (mult (params Secp256r1)) with (mult CV). unfold mult. rewrite (S l (j + k)), (S l j), (S l k), Z.mul_add_distr_l. apply P1.
  - assert (E : gmul CV 1 (ggen CV) = ggen CV) by (exact (gk_1 CV)). rewrite E in P3. exact P3.
Qed.
