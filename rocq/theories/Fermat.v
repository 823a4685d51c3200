(** Number-theoretic background: Fermat's little theorem and fast modular powers.
    Nothing here models code; it is mathematics used by the proofs. *)
From Coq Require Import ZArith Znumtheory List Lia Permutation.
Import ListNotations.
Open Scope Z_scope.

Definition zrange (n : Z) : list Z := map (fun i => Z.of_nat i + 1) (seq 0 (Z.to_nat (n - 1))).

Lemma zrange_In n x : In x (zrange n) <-> 1 <= x < n.
Proof.
  unfold zrange; rewrite in_map_iff; split.
  - intros [i [<- Hi]]; apply in_seq in Hi; lia.
  - intros H; exists (Z.to_nat (x - 1)); split; [lia|]; apply in_seq; lia.
Qed.

Lemma NoDup_map_inj {A B} (f : A -> B) l :
  (forall x y, In x l -> In y l -> f x = f y -> x = y) -> NoDup l -> NoDup (map f l).
Proof.
  induction l as [|a l IH]; intros Hinj Hnd; cbn [map]; [constructor|].
  inversion Hnd as [|? ? Ha Hl]; subst; constructor.
  - rewrite in_map_iff; intros [y [Hy Hin]]; apply Ha.
    rewrite <- (Hinj y a); [assumption|right; assumption|left; reflexivity|assumption].
  - apply IH; [|assumption]; intros x y Hx Hy; apply Hinj; right; assumption.
Qed.

Lemma zrange_NoDup n : NoDup (zrange n).
Proof. apply NoDup_map_inj; [intros; lia|apply seq_NoDup]. Qed.

Definition zprod (l : list Z) : Z := fold_right Z.mul 1 l.

Lemma zprod_perm l l' : Permutation l l' -> zprod l = zprod l'.
Proof. induction 1; cbn [zprod fold_right] in *; unfold zprod in *; lia. Qed.

Lemma zprod_map_mod a p l : 0 < p ->
  zprod (map (fun x => (a * x) mod p) l) mod p = (a ^ Z.of_nat (length l) * zprod l) mod p.
Proof.
  intros Hp; induction l as [|x l IH]; [reflexivity|].
  change (zprod (map (fun x => (a * x) mod p) (x :: l)))
    with ((a * x) mod p * zprod (map (fun x => (a * x) mod p) l)).
  change (zprod (x :: l)) with (x * zprod l).
  rewrite Z.mul_mod, IH, <- Z.mul_mod by lia.
  rewrite Z.mul_mod, Z.mod_mod, <- Z.mul_mod by lia.
  change (length (x :: l)) with (S (length l)).
  rewrite Nat2Z.inj_succ, Z.pow_succ_r by lia. f_equal; ring.
Qed.

Lemma prime_not_div_mul p a b : prime p -> ~ (p | a) -> ~ (p | b) -> ~ (p | a * b).
Proof. intros Hp Ha Hb H; apply prime_mult in H; tauto. Qed.

Lemma zprod_not_div p l : prime p -> (forall x, In x l -> ~ (p | x)) -> ~ (p | zprod l).
Proof.
  intros Hp; induction l as [|x l IH]; intros H.
  - cbn; intros Hd; apply Z.divide_1_r in Hd; destruct Hp; lia.
  - change (zprod (x :: l)) with (x * zprod l); apply prime_not_div_mul; auto.
    + apply H; left; reflexivity.
    + apply IH; intros y Hy; apply H; right; assumption.
Qed.

Lemma cancel_mod p a b c : prime p -> ~ (p | c) -> (a * c) mod p = (b * c) mod p -> a mod p = b mod p.
Proof.
  intros Hp Hc H. assert (0 < p) by (destruct Hp; lia).
  assert (Hd : (p | (a - b) * c)).
  { apply Z.mod_divide; [lia|]. rewrite Z.mul_sub_distr_r, Zminus_mod, H, Z.sub_diag; apply Z.mod_0_l; lia. }
  apply prime_mult in Hd; [|assumption]. destruct Hd as [Hd|Hd]; [|tauto].
  destruct Hd as [k Hk]. assert (Hab : a = b + k * p) by lia. rewrite Hab. apply Z_mod_plus_full.
Qed.

Theorem fermat p a : prime p -> ~ (p | a) -> a ^ (p - 1) mod p = 1.
Proof.
  intros Hp Ha. assert (Hp1 : 1 < p) by (destruct Hp; lia).
  set (L := zrange p). set (f := fun x => (a * x) mod p).
  assert (Hnd : forall x, In x L -> ~ (p | x)).
  { intros x Hx Hd; apply zrange_In in Hx; apply Z.divide_pos_le in Hd; lia. }
  assert (HP : Permutation (map f L) L).
  { apply NoDup_Permutation_bis.
    - apply NoDup_map_inj; [|apply zrange_NoDup]. intros x y Hx Hy Hxy.
      apply zrange_In in Hx; apply zrange_In in Hy.
      unfold f in Hxy. rewrite (Z.mul_comm a x), (Z.mul_comm a y) in Hxy.
      apply cancel_mod in Hxy; auto. rewrite !Z.mod_small in Hxy by lia; assumption.
    - rewrite map_length; lia.
    - intros y Hy. apply in_map_iff in Hy; destruct Hy as [x [<- Hx]].
      apply zrange_In. unfold f. pose proof (Z.mod_pos_bound (a * x) p ltac:(lia)).
      assert ((a * x) mod p <> 0); [|lia]. intros H0. apply Z.mod_divide in H0; [|lia].
      revert H0; apply prime_not_div_mul; auto. }
  pose proof (zprod_map_mod a p L ltac:(lia)) as HM. fold f in HM.
  rewrite (zprod_perm _ _ HP) in HM.
  assert (HL : Z.of_nat (length L) = p - 1).
  { unfold L, zrange; rewrite map_length, seq_length; lia. }
  rewrite HL in HM.
  assert (HC : 1 mod p = a ^ (p - 1) mod p).
  { apply (cancel_mod p 1 (a ^ (p-1)) (zprod L)); auto.
    - apply zprod_not_div; auto.
    - rewrite Z.mul_1_l; assumption. }
  rewrite <- HC; apply Z.mod_small; lia.
Qed.

(** Modular exponentiation by squaring (used for the computational certificates and as the
    model of [mpz_powm], see EccModel.v). *)
Fixpoint powmod_pos (a : Z) (e : positive) (m : Z) : Z :=
  match e with
  | xH => a mod m
  | xO e' => let r := powmod_pos a e' m in (r * r) mod m
  | xI e' => let r := powmod_pos a e' m in (a * ((r * r) mod m)) mod m
  end.

Definition powmod (a e m : Z) : Z :=
  match e with
  | Z0 => 1 mod m
  | Zpos e' => powmod_pos a e' m
  | Zneg _ => 0
  end.

Lemma powmod_pos_spec a e m : m <> 0 -> powmod_pos a e m = a ^ Zpos e mod m.
Proof.
  intros Hm; induction e as [e IH|e IH|]; cbn [powmod_pos].
  - rewrite IH, <- Z.mul_mod, Z.mul_mod_idemp_r by assumption.
    f_equal. rewrite Pos2Z.inj_xI, Z.pow_add_r, Z.pow_twice_r by lia. ring.
  - rewrite IH, <- Z.mul_mod by assumption. f_equal.
    rewrite Pos2Z.inj_xO, Z.pow_twice_r; ring.
  - f_equal; ring.
Qed.

Lemma powmod_spec a e m : m <> 0 -> 0 <= e -> powmod a e m = a ^ e mod m.
Proof.
  intros Hm He; destruct e; cbn [powmod]; [reflexivity|apply powmod_pos_spec; assumption|lia].
Qed.
