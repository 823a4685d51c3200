(** Multiplicative orders, and homomorphisms into finite abelian groups. *)
From Coq Require Import ZArith Znumtheory Bool List Lia Permutation.
From Verif Require Import FastMod Pocklington Primes CurveParams SpecEcc SpecPair.
Import ListNotations.
Open Scope Z_scope.

(** ** The order of a residue *)
Lemma prime_in l q : (forall x, In x l -> prime x) -> prime q -> (q | fold_right Z.mul 1 l) -> In q l.
Proof.
  induction l as [|x l IH]; intros Hl Hq Hd.
  - exfalso. cbn in Hd. destruct Hq as [H1 _]. apply Z.divide_1_r_nonneg in Hd; lia.
  - cbn [fold_right] in Hd. apply (prime_mult q Hq) in Hd. destruct Hd as [Hd|Hd].
    + left. symmetry. apply prime_div_prime; [exact Hq|apply Hl; left; reflexivity|exact Hd].
    + right. apply IH; [intros y Hy; apply Hl; right; exact Hy|exact Hq|exact Hd].
Qed.

Lemma order_iff a r l k : let d := fold_right Z.mul 1 l in
  1 < r -> 0 < d -> a ^ d mod r = 1 -> (forall q, In q l -> prime q) -> (forall q, In q l -> a ^ (d / q) mod r <> 1) ->
  0 < k -> (a ^ k mod r = 1 <-> (d | k)).
Proof.
  intros d Hr Hd Ha Hp Hn Hk. split.
  - intros Hak. set (g := Z.gcd k d).
    assert (Hg : a ^ g mod r = 1) by (apply pow_gcd_1; assumption).
    assert (Hgd : (g | d)) by apply Z.gcd_divide_r.
    assert (Hg0 : 0 < g).
    { pose proof (Z.gcd_nonneg k d). destruct (Z.eq_dec g 0) as [E|]; [|unfold g in *; lia].
      apply Z.gcd_eq_0_r in E. lia. }
    destruct Hgd as [m Hm]. assert (0 < m) by nia.
    destruct (Z.eq_dec m 1) as [->|Hm1].
    + rewrite Z.mul_1_l in Hm. rewrite Hm. apply Z.gcd_divide_l.
    + exfalso. destruct (exists_prime_divisor m) as [q [Hq [u Hu]]]; [lia|].
      assert (Hin : In q l).
      { apply prime_in; [exact Hp|exact Hq|]. change (q | d). exists (u * g). rewrite Hm, Hu. ring. }
      apply (Hn q Hin). assert (0 < q) by (destruct Hq; lia).
      replace (d / q) with (g * u) by (rewrite Hm, Hu; replace (u * q * g) with (g * u * q) by ring; symmetry; apply Z.div_mul; lia).
      apply pow_mod_1; [lia|nia|exact Hr|exact Hg].
  - intros [u Hu]. rewrite Hu, Z.mul_comm. apply pow_mod_1; [lia|nia|exact Hr|exact Ha].
Qed.

(** The checks by computation: the powers a^(d/q) for all primes q are found by going down a tree of the primes. *)
Inductive ptree := Leaf (q : Z) | Node (l r : ptree).
Fixpoint tprod (T : ptree) : Z := match T with Leaf q => q | Node l r => tprod l * tprod r end.
Fixpoint tlist (T : ptree) : list Z := match T with Leaf q => [q] | Node l r => tlist l ++ tlist r end.
(** a^d itself is checked at the last leaf only *)
Fixpoint tcheck (r b : Z) (w : bool) (T : ptree) : bool :=
  (0 <? b) && match T with
  | Leaf q => negb (b =? 1) && (1 <? q) && (if w then zpowm b q r =? 1 else true)
  | Node x y => tcheck r (zpowm b (tprod y) r) false x && tcheck r (zpowm b (tprod x) r) w y
  end.

Lemma tcheck_pos r b w T : tcheck r b w T = true -> 0 < tprod T.
Proof.
  revert b w. induction T as [q|x IHx y IHy]; intros b w; cbn [tcheck tprod]; rewrite !andb_true_iff.
  - intros [_ [[_ H] _]]. apply Z.ltb_lt in H. lia.
  - intros [_ [Hx Hy]]. specialize (IHx _ _ Hx). specialize (IHy _ _ Hy). lia.
Qed.

Lemma tcheck_spec r a T : 1 < r -> Z.odd r = true -> forall b c w, 0 <= c -> b = a ^ c mod r -> tcheck r b w T = true ->
  (w = true -> a ^ (c * tprod T) mod r = 1) /\ forall q, In q (tlist T) -> a ^ (c * tprod T / q) mod r <> 1.
Proof.
  intros Hr Ho. induction T as [q|x IHx y IHy]; intros b c w Hc Eb H.
  - cbn [tcheck tprod tlist In] in *. rewrite !andb_true_iff in H. destruct H as [Hb [[H1 H2] H3]].
    apply Z.ltb_lt in Hb, H2. split.
    + intros ->. apply Z.eqb_eq in H3. rewrite zpowm_spec in H3 by (assumption || lia). rewrite Z.pow_mul_r by lia. rewrite Zpow_facts.Zpower_mod, <- Eb by lia. exact H3.
    + intros q' [<-|[]] E. rewrite Z.div_mul in E by lia. rewrite E in Eb. rewrite Eb in H1. discriminate.
  - cbn [tcheck tprod tlist] in *. rewrite !andb_true_iff in H. destruct H as [Hb [Hx Hy]]. apply Z.ltb_lt in Hb.
    pose proof (tcheck_pos _ _ _ _ Hx) as Px. pose proof (tcheck_pos _ _ _ _ Hy) as Py.
    destruct (IHx (zpowm b (tprod y) r) (c * tprod y) false) as [_ Qx]; [nia| |exact Hx|].
    { rewrite zpowm_spec by (assumption || lia). rewrite Eb, <- Zpow_facts.Zpower_mod by lia. rewrite Z.pow_mul_r by lia. reflexivity. }
    destruct (IHy (zpowm b (tprod x) r) (c * tprod x) w) as [Ay Qy]; [nia| |exact Hy|].
    { rewrite zpowm_spec by (assumption || lia). rewrite Eb, <- Zpow_facts.Zpower_mod by lia. rewrite Z.pow_mul_r by lia. reflexivity. }
    replace (c * (tprod x * tprod y)) with (c * tprod x * tprod y) by ring. split; [exact Ay|].
    intros q Hq. apply in_app_or in Hq. destruct Hq as [Hq|Hq]; [|apply Qy, Hq].
    replace (c * tprod x * tprod y) with (c * tprod y * tprod x) by ring. apply Qx, Hq.
Qed.

(** [c] is made of primes of the tree *)
Definition order_check (a r c : Z) (T : ptree) : bool :=
  (1 <? r) && Z.odd r && (0 <? a) && (0 <? c) && tcheck r (zpowm a c r) true T.

Lemma tlist_prod T : fold_right Z.mul 1 (tlist T) = tprod T.
Proof.
  induction T as [q|x IHx y IHy]; cbn [tlist tprod]; [cbn; ring|].
  rewrite <- IHx, <- IHy. generalize (tlist x). intros l. induction l as [|z l IH]; cbn [app fold_right]; [ring|]. rewrite IH. ring.
Qed.

Lemma order_check_spec a r l T k : let c := fold_right Z.mul 1 l in
  order_check a r c T = true -> (forall q, In q (tlist T) -> prime q) -> (forall q, In q l -> In q (tlist T)) -> 0 < k ->
  ((r | a ^ k - 1) <-> (c * tprod T | k)).
Proof.
  intros c. unfold order_check. rewrite !andb_true_iff. intros [[[[H1 H2] H3] H4] H5] Hp Hl Hk.
  apply Z.ltb_lt in H1, H3, H4. rewrite zpowm_spec in H5 by (assumption || lia).
  destruct (tcheck_spec r a T H1 H2 _ c true ltac:(lia) eq_refl H5) as [HA HQ]. specialize (HA eq_refl).
  pose proof (tcheck_pos _ _ _ _ H5) as HT.
  assert (Ed : fold_right Z.mul 1 (l ++ tlist T) = c * tprod T).
  { rewrite <- (tlist_prod T). unfold c. generalize (tlist T). clear. intros m.
    induction l as [|x l IH]; cbn [app fold_right]; [ring|]. rewrite IH. ring. }
  rewrite <- Ed.
  rewrite <- (order_iff a r (l ++ tlist T) k); [|exact H1|rewrite Ed; nia|rewrite Ed; exact HA| | |exact Hk].
  - split; intros H.
    + destruct H as [u Hu]. replace (a ^ k) with (1 + u * r) by lia. rewrite Z.mod_add by lia. apply Z.mod_small; lia.
    + exists (a ^ k / r). pose proof (Z.div_mod (a ^ k) r ltac:(lia)). lia.
  - intros q Hq. apply in_app_or in Hq. apply Hp. destruct Hq as [Hq|Hq]; [apply Hl, Hq|exact Hq].
  - intros q Hq. rewrite Ed. apply HQ. apply in_app_or in Hq. destruct Hq as [Hq|Hq]; [apply Hl, Hq|exact Hq].
Qed.

Lemma prime_71 : prime 71. Proof. apply (small_prime_spec 71 10). vm_compute. reflexivity. Qed.
Lemma prime_131 : prime 131. Proof. apply (small_prime_spec 131 15). vm_compute. reflexivity. Qed.
Lemma prime_373 : prime 373. Proof. apply (small_prime_spec 373 20). vm_compute. reflexivity. Qed.
Lemma prime_3407 : prime 3407. Proof. apply (small_prime_spec 3407 60). vm_compute. reflexivity. Qed.
Lemma prime_17449 : prime 17449. Proof. apply (small_prime_spec 17449 140). vm_compute. reflexivity. Qed.
Lemma prime_38189 : prime 38189. Proof. apply (small_prime_spec 38189 200). vm_compute. reflexivity. Qed.
Lemma prime_9350987 : prime 9350987. Proof. apply (small_prime_spec 9350987 3060). vm_compute. reflexivity. Qed.
Lemma prime_187019741 : prime 187019741.
Proof.
  apply (pocklington 187019741 2 [(9350987, 1)]); [vm_compute; reflexivity|].
  intros q e [Heq|[]]. injection Heq as <- <-. exact prime_9350987.
Qed.
Lemma prime_311 : prime 311. Proof. apply (small_prime_spec 311 20). vm_compute. reflexivity. Qed.
Lemma prime_29 : prime 29. Proof. apply (small_prime_spec 29 10). vm_compute. reflexivity. Qed.
Lemma prime_311245691 : prime 311245691.
Proof.
  apply (pocklington 311245691 2 [(311, 1); (29, 2)]); [vm_compute; reflexivity|].
  intros q e [Heq|[Heq|[]]]; injection Heq as <- <-; [exact prime_311|exact prime_29].
Qed.
Lemma prime_622491383 : prime 622491383.
Proof.
  apply (pocklington 622491383 2 [(311245691, 1)]); [vm_compute; reflexivity|].
  intros q e [Heq|[]]. injection Heq as <- <-. exact prime_311245691.
Qed.

Definition ftree (k : cname) : ptree :=
  match k with
  | Secp256r1 =>
      Node (Node (Leaf 2624747550333869278416773953) (Node (Leaf 1002328039319) (Node (Leaf 17449) (Leaf 38189))))
           (Node (Node (Leaf 187019741) (Leaf 622491383))
                 (Node (Node (Leaf 131) (Leaf 373)) (Node (Leaf 3407) (Node (Leaf 71) (Leaf 2)))))
  | Bn254 => Node (Leaf 2) (Leaf 3)
  end.
Definition extra (k : cname) : list Z := match k with Secp256r1 => [2; 2; 2] | Bn254 => [2] end.

Lemma ftree_prime k q : In q (tlist (ftree k)) -> prime q.
Proof.
  destruct k; cbn [ftree tlist In app]; intros H.
  - repeat (destruct H as [<-|H]; [first [exact prime_2|exact prime_71|exact prime_131|exact prime_373|exact prime_3407|exact prime_17449
      |exact prime_38189|exact prime_187019741|exact prime_622491383|exact prime_1002328039319|exact prime_2624747550333869278416773953]|]).
    contradiction.
  - repeat (destruct H as [<-|H]; [first [exact prime_2|exact prime_3]|]). contradiction.
Qed.
Lemma extra_in k q : In q (extra k) -> In q (tlist (ftree k)).
Proof.
  destruct k; cbn [extra ftree tlist app In]; intros H; repeat (destruct H as [<-|H]; [tauto|]); contradiction.
Qed.

Lemma ftree_check k : order_check (c_prime (params k)) (c_order (params k)) (fold_right Z.mul 1 (extra k)) (ftree k) = true.
Proof. destruct k; vm_compute; reflexivity. Qed.

Lemma ftree_degree k : fold_right Z.mul 1 (extra k) * tprod (ftree k) = degree k.
Proof. destruct k; vm_compute; reflexivity. Qed.

Lemma L_C109_degree c k : 0 < k -> ((c_order (params c) | c_prime (params c) ^ k - 1) <-> (degree c | k)).
Proof.
  intros Hk. rewrite <- ftree_degree. apply order_check_spec; [apply ftree_check|apply ftree_prime|apply extra_in|exact Hk].
Qed.

(** ** Homomorphisms from the integers *)
Section Hom.
  Context {X : Type} (D : X -> Prop) (mul : X -> X -> X) (one : X) (inv : X -> X).
  Hypothesis G : abelian D mul one inv.
  Variable f : Z -> X.
  Hypothesis fD : forall j, D (f j).
  Hypothesis fadd : forall j k, f (j + k) = mul (f j) (f k).

  Lemma ab_cancel x y z : D x -> D y -> D z -> mul x y = mul x z -> y = z.
  Proof.
    intros Hx Hy Hz E. rewrite <- (ab_one_l _ _ _ _ G y Hy), <- (ab_one_l _ _ _ _ G z Hz), <- (ab_inv_l _ _ _ _ G x Hx).
    rewrite !(ab_assoc _ _ _ _ G) by (assumption || apply (ab_inv _ _ _ _ G); assumption). rewrite E. reflexivity.
  Qed.
  Lemma ab_one_r x : D x -> mul x one = x.
  Proof. intros H. rewrite (ab_comm _ _ _ _ G); [apply (ab_one_l _ _ _ _ G), H|exact H|apply (ab_one _ _ _ _ G)]. Qed.

  Lemma hom_0 : f 0 = one.
  Proof.
    apply (ab_cancel (f 0)); [apply fD|apply fD|apply (ab_one _ _ _ _ G)|].
    rewrite ab_one_r by apply fD. rewrite <- fadd. reflexivity.
  Qed.
  Lemma hom_opp j : f j = one -> f (- j) = one.
  Proof.
    intros E. pose proof (fadd j (- j)) as H. rewrite Z.add_opp_diag_r, hom_0, E, (ab_one_l _ _ _ _ G) in H by apply fD.
    symmetry. exact H.
  Qed.
  Lemma hom_mul j u : f j = one -> f (j * u) = one.
  Proof.
    intros E. assert (P : forall u, 0 <= u -> f (j * u) = one).
    { apply natlike_ind.
      - rewrite Z.mul_0_r. apply hom_0.
      - intros v _ IH. rewrite Z.mul_succ_r, fadd, IH, E. apply (ab_one_l _ _ _ _ G), (ab_one _ _ _ _ G). }
    destruct (Z.le_gt_cases 0 u) as [H|H]; [apply P, H|].
    replace (j * u) with (- (j * (- u))) by ring. apply hom_opp, P. lia.
  Qed.
  Lemma hom_coprime j a b : Z.gcd a b = 1 -> f (j * a) = one -> f (j * b) = one -> f j = one.
  Proof.
    intros Hg Ha Hb. destruct (Z.gcd_bezout a b 1 Hg) as [u [v E]].
    replace j with (j * a * u + j * b * v) by (replace (j * a * u + j * b * v) with (j * (u * a + v * b)) by ring; rewrite E; ring).
    rewrite fadd, (hom_mul _ u Ha), (hom_mul _ v Hb). apply (ab_one_l _ _ _ _ G), (ab_one _ _ _ _ G).
  Qed.

  (** the product of a list *)
  Let prod := fold_right mul one.
  Lemma prod_D l : (forall x, In x l -> D x) -> D (prod l).
  Proof.
    induction l as [|x l IH]; intros H; [apply (ab_one _ _ _ _ G)|]. apply (ab_mul _ _ _ _ G); [apply H; left; reflexivity|].
    apply IH. intros y Hy. apply H. right. exact Hy.
  Qed.
  Lemma prod_shift l j : (forall x, In x l -> D x) -> prod (map (mul (f j)) l) = mul (f (j * Z.of_nat (length l))) (prod l).
  Proof.
    induction l as [|x l IH]; intros H.
    - cbn [map length prod fold_right]. change (Z.of_nat 0) with 0. rewrite Z.mul_0_r, hom_0. symmetry. apply (ab_one_l _ _ _ _ G), (ab_one _ _ _ _ G).
    - assert (Hx : D x) by (apply H; left; reflexivity).
      assert (Hl : forall y, In y l -> D y) by (intros y Hy; apply H; right; exact Hy).
      cbn [map length]. change (mul (mul (f j) x) (prod (map (mul (f j)) l)) = mul (f (j * Z.of_nat (S (length l)))) (mul x (prod l))).
      rewrite IH by exact Hl. pose proof (prod_D l Hl) as HP.
      rewrite Nat2Z.inj_succ, Z.mul_succ_r, Z.add_comm, fadd.
      generalize (f (j * Z.of_nat (length l))) (fD (j * Z.of_nat (length l))). intros y Hy.
      generalize (f j) (fD j). intros w Hw. revert HP. generalize (prod l). intros z Hz.
      pose proof (ab_mul _ _ _ _ G) as HM.
      rewrite !(ab_assoc _ _ _ _ G); try (assumption || apply HM; assumption). f_equal.
      rewrite <- !(ab_assoc _ _ _ _ G); try (assumption || apply HM; assumption). f_equal.
      apply (ab_comm _ _ _ _ G); assumption.
  Qed.
  Lemma prod_perm l l' : Permutation l l' -> (forall x, In x l -> D x) -> prod l = prod l'.
  Proof.
    induction 1 as [|x l l' HP IH|x y l|l l' l'' HP1 IH1 HP2 IH2]; intros H.
    - reflexivity.
    - cbn. fold prod. rewrite IH; [reflexivity|]. intros y Hy. apply H. right. exact Hy.
    - cbn. fold prod.
      assert (Hx : D x) by (apply H; right; left; reflexivity). assert (Hy : D y) by (apply H; left; reflexivity).
      assert (HP : D (prod l)) by (apply prod_D; intros z Hz; apply H; right; right; exact Hz).
      rewrite <- !(ab_assoc _ _ _ _ G) by assumption. rewrite (ab_comm _ _ _ _ G x y) by assumption. reflexivity.
    - rewrite IH1 by exact H. apply IH2. intros x Hx. apply H, (Permutation_in _ (Permutation_sym HP1)), Hx.
  Qed.

  (** Lagrange for the elements f j *)
  Lemma hom_size N j : has_size D N -> f (j * N) = one.
  Proof.
    intros [l [ND [HD HN]]].
    assert (Hl : forall x, In x l -> D x) by (intros x Hx; apply HD, Hx).
    assert (HP : Permutation (map (mul (f j)) l) l).
    { apply NoDup_Permutation_bis.
      - assert (Inj : forall x y, In x l -> In y l -> mul (f j) x = mul (f j) y -> x = y).
        { intros x y Hx Hy. apply ab_cancel; [apply fD|apply Hl, Hx|apply Hl, Hy]. }
        clear HD HN. revert Inj. induction ND as [|x l Hx ND IH]; intros Inj; cbn [map]; constructor.
        + intros Hin. apply in_map_iff in Hin. destruct Hin as [y [E Hy]]. apply Hx.
          rewrite <- (Inj y x (or_intror Hy) (or_introl eq_refl) E). exact Hy.
        + apply IH.
          * intros y Hy. apply Hl. right. exact Hy.
          * intros a b Ha Hb. apply Inj; right; assumption.
      - rewrite map_length. reflexivity.
      - intros x Hx. apply in_map_iff in Hx. destruct Hx as [y [<- Hy]]. apply HD, (ab_mul _ _ _ _ G); [apply fD|apply Hl, Hy]. }
    pose proof (prod_shift l j Hl) as E.
    assert (HD' : forall x, In x (map (mul (f j)) l) -> D x).
    { intros x Hx. apply Hl, (Permutation_in _ HP), Hx. }
    rewrite (prod_perm _ _ HP HD') in E.
    rewrite HN in E. pose proof (prod_D l Hl) as HPD.
    apply (ab_cancel (prod l)); [exact HPD|apply fD|apply (ab_one _ _ _ _ G)|].
    rewrite ab_one_r by exact HPD. rewrite (ab_comm _ _ _ _ G) by (exact HPD || apply fD). symmetry. exact E.
  Qed.
End Hom.
