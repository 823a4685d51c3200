(** Modular exponentiation by binary Montgomery reduction.  Mathematics only; models no code.
    The certificates of this development are re-evaluated by coqchk without the bytecode machine,
    so the arithmetic is arranged to need few constructor steps. *)
From Coq Require Import ZArith Znumtheory Lia Zpow_facts.
From Verif Require Import Fermat.
Open Scope Z_scope.

(** x^2 *)
Fixpoint sq (x : positive) : positive :=
  match x with
  | xH => xH
  | xO x' => xO (xO (sq x'))
  | xI x' => xI (xO (Pos.add (sq x') x'))
  end.

Lemma sq_spec x : Zpos (sq x) = Zpos x * Zpos x.
Proof.
  induction x as [x IH|x IH|]; cbn [sq]; [| |reflexivity].
  - rewrite (Pos2Z.inj_xI (xO _)), (Pos2Z.inj_xO (_ + _)), Pos2Z.inj_add, IH, (Pos2Z.inj_xI x). ring.
  - rewrite (Pos2Z.inj_xO (xO _)), (Pos2Z.inj_xO (sq _)), (Pos2Z.inj_xO x), IH. ring.
Qed.

(** c / 2^k modulo the odd number m *)
Fixpoint redc (c : positive) (k : nat) (m : positive) : positive :=
  match k with
  | O => c
  | S k' =>
      match c with
      | xO c' => redc c' k' m
      | _ => redc (Pos.div2 (Pos.add c m)) k' m
      end
  end.

Definition eqm (m x y : Z) : Prop := (m | x - y).

Lemma eqm_mod m x y : 0 < m -> eqm m x y -> x mod m = y mod m.
Proof.
  intros Hm [k Hk]. replace x with (y + k * m) by lia. apply Z_mod_plus_full.
Qed.

Lemma eqm_refl m x : eqm m x x.
Proof. exists 0; lia. Qed.

Lemma eqm_trans m x y z : eqm m x y -> eqm m y z -> eqm m x z.
Proof. intros [k Hk] [j Hj]; exists (k + j); lia. Qed.

Lemma eqm_sym m x y : eqm m x y -> eqm m y x.
Proof. intros [k Hk]; exists (- k); lia. Qed.

Lemma eqm_mul m x y x' y' : eqm m x x' -> eqm m y y' -> eqm m (x * y) (x' * y').
Proof. intros [k Hk] [j Hj]; exists (k * y + x' * j).
  replace (x * y - x' * y') with ((x - x') * y + x' * (y - y')) by ring. rewrite Hk, Hj; ring. Qed.

Lemma odd_xO_contra c m : Z.odd (Zpos m) = true -> match c with xO _ => False | _ => True end ->
  2 * Zpos (Pos.div2 (Pos.add c m)) = Zpos c + Zpos m.
Proof.
  intros Hm Hc. rewrite <- Pos2Z.inj_add.
  assert (He : Z.odd (Zpos (c + m)) = false).
  { rewrite Pos2Z.inj_add, Z.odd_add, Hm. destruct c; [reflexivity|contradiction|reflexivity]. }
  destruct (c + m)%positive as [q|q|] eqn:E; try discriminate. reflexivity.
Qed.

Lemma redc_spec m k : Z.odd (Zpos m) = true -> forall c,
  eqm (Zpos m) (Zpos (redc c k m) * 2 ^ Z.of_nat k) (Zpos c).
Proof.
  intros Hm. induction k as [|k IH]; intros c.
  - cbn [redc]. change (2 ^ Z.of_nat 0) with 1. rewrite Z.mul_1_r. apply eqm_refl.
  - rewrite Nat2Z.inj_succ, Z.pow_succ_r by lia.
    assert (HS : forall d, 2 * Zpos d = Zpos c \/ 2 * Zpos d = Zpos c + Zpos m ->
                 eqm (Zpos m) (Zpos (redc d k m) * (2 * 2 ^ Z.of_nat k)) (Zpos c)).
    { intros d Hd. destruct (IH d) as [j Hj].
      set (R := Zpos (redc d k m)) in *. set (T := 2 ^ Z.of_nat k) in *.
      replace (R * (2 * T)) with (2 * (R * T)) by ring.
      destruct Hd as [Hd|Hd]; [exists (2 * j)|exists (2 * j + 1)]; lia. }
    cbn [redc]. destruct c as [c'|c'|]; apply HS.
    + right. apply odd_xO_contra; trivial.
    + left. reflexivity.
    + right. apply odd_xO_contra; trivial.
Qed.

(** a^e * 2^k modulo m, [one] being 2^k * a; a small base is multiplied in without reduction *)
Fixpoint pow_mont (small : bool) (one a : positive) (e : positive) (k : nat) (m : positive) : positive :=
  match e with
  | xH => one
  | xO e' => let r := pow_mont small one a e' k m in redc (sq r) k m
  | xI e' =>
      let r := pow_mont small one a e' k m in
      if small then Pos.mul a (redc (sq r) k m) else redc (Pos.mul one (redc (sq r) k m)) k m
  end.

Lemma two_unit m k x y : Z.odd (Zpos m) = true ->
  eqm (Zpos m) (x * 2 ^ Z.of_nat k) (y * 2 ^ Z.of_nat k) -> eqm (Zpos m) x y.
Proof.
  intros Hm H. unfold eqm in *. rewrite <- Z.mul_sub_distr_r, Z.mul_comm in H.
  apply Gauss in H; [assumption|].
  apply rel_prime_Zpower_r; [lia|]. apply rel_prime_sym, prime_rel_prime; [apply prime_2|].
  intros Hd. apply Z.divide_pos_le in Hd as Hd'; [|lia].
  rewrite Zodd_mod in Hm. apply Z.mod_divide in Hd; [|lia].
  rewrite Hd in Hm. discriminate.
Qed.

Lemma pow_mont_spec small one a k m : Z.odd (Zpos m) = true ->
  eqm (Zpos m) (Zpos one) (Zpos a * 2 ^ Z.of_nat k) ->
  forall e, eqm (Zpos m) (Zpos (pow_mont small one a e k m)) (Zpos a ^ Zpos e * 2 ^ Z.of_nat k).
Proof.
  intros Hm H1.
  assert (HS : forall r x, eqm (Zpos m) (Zpos r) (x * 2 ^ Z.of_nat k) ->
             eqm (Zpos m) (Zpos (redc (sq r) k m)) (x * x * 2 ^ Z.of_nat k)).
  { intros r x Hr. apply two_unit with k; [assumption|].
    eapply eqm_trans; [apply redc_spec; assumption|]. rewrite sq_spec.
    replace (x * x * 2 ^ Z.of_nat k * 2 ^ Z.of_nat k) with
      ((x * 2 ^ Z.of_nat k) * (x * 2 ^ Z.of_nat k)) by ring.
    apply eqm_mul; assumption. }
  induction e as [e IH|e IH|]; cbn [pow_mont].
  - rewrite Pos2Z.inj_xI, Z.pow_add_r, Z.pow_twice_r, Z.pow_1_r by lia.
    replace (Zpos a ^ Zpos e * Zpos a ^ Zpos e * Zpos a * 2 ^ Z.of_nat k) with
      (Zpos a * (Zpos a ^ Zpos e * Zpos a ^ Zpos e * 2 ^ Z.of_nat k)) by ring.
    destruct small.
    + rewrite Pos2Z.inj_mul. apply eqm_mul; [apply eqm_refl|apply HS; assumption].
    + apply two_unit with k; [assumption|]. eapply eqm_trans; [apply redc_spec; assumption|].
      rewrite Pos2Z.inj_mul.
      replace (Zpos a * (Zpos a ^ Zpos e * Zpos a ^ Zpos e * 2 ^ Z.of_nat k) * 2 ^ Z.of_nat k) with
        ((Zpos a * 2 ^ Z.of_nat k) * (Zpos a ^ Zpos e * Zpos a ^ Zpos e * 2 ^ Z.of_nat k)) by ring.
      apply eqm_mul; [assumption|apply HS; assumption].
  - rewrite Pos2Z.inj_xO, Z.pow_twice_r. apply HS; assumption.
  - rewrite Z.pow_1_r. assumption.
Qed.

(** some spare bits keep the unreduced intermediate values below a small multiple of m *)
Definition bits (m : positive) : nat := 12 + Pos.size_nat m.

(** a ^ e mod m for odd m *)
Definition powm (a e m : positive) : Z :=
  let k := bits m in
  match (Zpos a * 2 ^ Z.of_nat k) mod Zpos m with
  | Zpos one => Zpos (redc (pow_mont (Pos.ltb a 32) one a e k m) k m) mod Zpos m
  | _ => (Zpos a ^ Zpos e) mod Zpos m
  end.

Lemma powm_spec a e m : Z.odd (Zpos m) = true -> powm a e m = Zpos a ^ Zpos e mod Zpos m.
Proof.
  intros Hm. unfold powm.
  destruct ((Zpos a * 2 ^ Z.of_nat (bits m)) mod Zpos m) as [|one|one] eqn:E; try reflexivity.
  apply eqm_mod; [lia|]. apply two_unit with (bits m); [assumption|].
  eapply eqm_trans; [apply redc_spec; assumption|].
  apply pow_mont_spec; [assumption|].
  pose proof (Z.div_mod (Zpos a * 2 ^ Z.of_nat (bits m)) (Zpos m) ltac:(lia)) as HD. rewrite E in HD.
  exists (- ((Zpos a * 2 ^ Z.of_nat (bits m)) / Zpos m)). lia.
Qed.

Definition zpowm (a e m : Z) : Z := powm (Z.to_pos a) (Z.to_pos e) (Z.to_pos m).

Lemma zpowm_spec a e m : 0 < a -> 0 < e -> 0 < m -> Z.odd m = true -> zpowm a e m = a ^ e mod m.
Proof.
  intros Ha He Hm Ho. unfold zpowm. rewrite powm_spec; rewrite ?Z2Pos.id by assumption; trivial.
Qed.
