(** Proofs about FieldModel.v *)
From Coq Require Import ZArith Znumtheory Bool List Lia.
From Verif Require Import Outcome FieldModel ZpField CurveParams Primes SpecField.
Import ListNotations.
Open Scope Z_scope.

(** ** Extended Euclid *)
Definition cong (m x y : Z) : Prop := (m | x - y).

Lemma egcd_spec m a k : forall fuel r0 u0 r1 u1,
  (2 * k + 1 <= fuel)%nat -> 0 <= r1 < r0 -> r1 < 2 ^ Z.of_nat k ->
  cong m r0 (u0 * a) -> cong m r1 (u1 * a) ->
  fst (egcd fuel r0 u0 r1 u1) = Z.gcd r0 r1 /\
  cong m (fst (egcd fuel r0 u0 r1 u1)) (snd (egcd fuel r0 u0 r1 u1) * a).
Proof.
  induction k as [|k IH]; intros fuel r0 u0 r1 u1 Hf Hr Hk H0 H1.
  - change (2 ^ Z.of_nat 0) with 1 in Hk. assert (r1 = 0) as -> by lia.
    destruct fuel as [|f]; [lia|]. cbn [egcd]. rewrite Z.eqb_refl. cbn [fst snd].
    split; [|assumption]. rewrite Z.gcd_0_r. lia.
  - destruct fuel as [|f]; [lia|]. cbn [egcd]. destruct (Z.eqb_spec r1 0) as [->|N1].
    { cbn [fst snd]. split; [|assumption]. rewrite Z.gcd_0_r. lia. }
    pose proof (Z.mod_pos_bound r0 r1 ltac:(lia)) as B2.
    assert (G2 : Z.gcd r1 (r0 mod r1) = Z.gcd r0 r1).
    { rewrite Z.gcd_comm, Z.gcd_mod, Z.gcd_comm by lia. reflexivity. }
    set (u2 := u0 - r0 / r1 * u1). set (r2 := r0 mod r1) in *.
    assert (H2 : cong m r2 (u2 * a)).
    { destruct H0 as [i Hi], H1 as [j Hj]. exists (i - r0 / r1 * j). unfold u2, r2.
      rewrite Z.mod_eq by lia.
      replace (r0 - r1 * (r0 / r1) - (u0 - r0 / r1 * u1) * a)
        with ((r0 - u0 * a) - r0 / r1 * (r1 - u1 * a)) by ring.
      rewrite Hi, Hj. ring. }
    destruct f as [|f]; [lia|]. cbn [egcd]. destruct (Z.eqb_spec r2 0) as [Z2|N2].
    { cbn [fst snd]. split; [|assumption]. rewrite Z2, Z.gcd_0_r in G2. lia. }
    pose proof (Z.mod_pos_bound r1 r2 ltac:(lia)) as B3.
    assert (G3 : Z.gcd r2 (r1 mod r2) = Z.gcd r0 r1).
    { rewrite Z.gcd_comm, Z.gcd_mod, Z.gcd_comm, G2 by lia. reflexivity. }
    rewrite <- G3. apply IH; [lia|lia| |assumption|].
    + rewrite Nat2Z.inj_succ, Z.pow_succ_r in Hk by lia.
      pose proof (Z.div_mod r1 r2 ltac:(lia)) as D.
      assert (1 <= r1 / r2) by (apply Z.div_le_lower_bound; lia). nia.
    + destruct H1 as [i Hi], H2 as [j Hj]. exists (i - r1 / r2 * j).
      rewrite Z.mod_eq by lia.
      replace (r1 - r2 * (r1 / r2) - (u1 - r1 / r2 * u2) * a)
        with ((r1 - u1 * a) - r1 / r2 * (r2 - u2 * a)) by ring.
      rewrite Hi, Hj. ring.
Qed.

Lemma mpz_invert_cases a m : 0 < m ->
  (Z.gcd a m = 1 /\ exists r, mpz_invert a m = Ok r /\ 0 <= r < m /\ (a * r) mod m = 1 mod m) \/
  (Z.gcd a m <> 1 /\ mpz_invert a m = Err NoInverse).
Proof.
  intros Hm. unfold mpz_invert. destruct (Z.eqb_spec m 0) as [|_]; [lia|].
  rewrite Z.abs_eq by lia.
  pose proof (Z.mod_pos_bound a m Hm) as B.
  assert (HL : a mod m < 2 ^ Z.of_nat (S (Z.to_nat (Z.log2 m)))).
  { rewrite Nat2Z.inj_succ, Z2Nat.id by apply Z.log2_nonneg.
    pose proof (Z.log2_spec m Hm). lia. }
  destruct (egcd_spec m a (S (Z.to_nat (Z.log2 m))) (2 * Z.to_nat (Z.log2 m) + 4) m 0 (a mod m) 1) as [E1 E2].
  - lia.
  - assumption.
  - assumption.
  - exists 1. lia.
  - exists (- (a / m)). rewrite Z.mod_eq by lia. ring.
  - destruct (egcd (2 * Z.to_nat (Z.log2 m) + 4) m 0 (a mod m) 1) as [g u]. cbn [fst snd] in *.
    rewrite (Z.gcd_comm m), Z.gcd_mod, Z.gcd_comm in E1 by lia. subst g.
    destruct (Z.eqb_spec (Z.gcd a m) 1) as [G|G]; [left|right].
    + split; [assumption|]. exists (u mod m). split; [reflexivity|].
      split; [apply Z.mod_pos_bound; lia|].
      rewrite Z.mul_mod_idemp_r by lia. rewrite G in E2. destruct E2 as [k Hk].
      replace (a * u) with (1 + (- k) * m) by lia. apply Z_mod_plus_full.
    + split; [assumption|reflexivity].
Qed.

Lemma mpz_mod_pos n d : 0 < d -> mpz_mod n d = Ok (n mod d).
Proof. intros H. unfold mpz_mod. destruct (Z.eqb_spec d 0); [lia|]. rewrite Z.abs_eq by lia. reflexivity. Qed.

(** ** Canonical elements of the class with modulus q *)
Lemma canon_new q v : 0 < q -> canon q (fe_new q v).
Proof. intros H; split; [reflexivity|apply Z.mod_pos_bound; assumption]. Qed.

Lemma canon_default q : 0 < q -> canon q (fe_default q).
Proof. intros H; split; cbn; [reflexivity|lia]. Qed.

Lemma canon_eq q x y : canon q x -> canon q y -> fval x = fval y -> x = y.
Proof. destruct x, y; unfold canon; cbn. intros [-> _] [-> _] ->. reflexivity. Qed.

Lemma canon_new_val q x : canon q x -> fe_new q (fval x) = x.
Proof. destruct x as [v m]; intros [E R]; cbn in *; subst. unfold fe_new; cbn. rewrite Z.mod_small by assumption. reflexivity. Qed.

Lemma fe_new_eq q v w : v mod q = w mod q -> fe_new q v = fe_new q w.
Proof. unfold fe_new. intros ->. reflexivity. Qed.

Lemma fe_new_mod q v : fe_new q (v mod q) = fe_new q v.
Proof. apply fe_new_eq, Zmod_mod. Qed.

Lemma fe_eq_spec q x y : canon q x -> canon q y -> fe_eq x y = true <-> x = y.
Proof.
  intros Hx Hy. unfold fe_eq. rewrite andb_true_iff, !Z.eqb_eq. split.
  - intros [E _]. apply (canon_eq q); assumption.
  - intros ->; split; reflexivity.
Qed.

Lemma fe_eq_refl x : fe_eq x x = true.
Proof. unfold fe_eq. rewrite !Z.eqb_refl. reflexivity. Qed.

Section Ops.
  Variables (dbg : bool) (q : Z).
  Hypothesis Hq : 0 < q.

  Lemma assert_same x y : canon q x -> canon q y -> assert_ dbg (fmod x =? fmod y) = Ok tt.
  Proof. intros [-> _] [-> _]. rewrite Z.eqb_refl. destruct dbg; reflexivity. Qed.

  Local Ltac op := intros; unfold fe_add, fe_add_eq, fe_sub, fe_sub_eq, fe_mul, fe_mul_eq, fe_mulz, fe_mulz_eq, fe_neg, fe_square;
    try (rewrite assert_same by assumption; cbn [bind]);
    match goal with Hx : canon q ?x |- context[mpz_mod _ (fmod ?x)] =>
      replace (fmod x) with q by (symmetry; apply Hx) end;
    rewrite mpz_mod_pos by assumption; cbn [bind]; rewrite ?fe_new_mod; reflexivity.

  Lemma fe_add_ok x y : canon q x -> canon q y -> fe_add dbg q x y = Ok (fe_new q (fval x + fval y)).
  Proof. op. Qed.
  Lemma fe_sub_ok x y : canon q x -> canon q y -> fe_sub dbg q x y = Ok (fe_new q (fval x - fval y)).
  Proof. op. Qed.
  Lemma fe_mul_ok x y : canon q x -> canon q y -> fe_mul dbg q x y = Ok (fe_new q (fval x * fval y)).
  Proof. op. Qed.
  Lemma fe_mulz_ok x a : canon q x -> fe_mulz q x a = Ok (fe_new q (fval x * a)).
  Proof. op. Qed.
  Lemma fe_neg_ok x : canon q x -> fe_neg q x = Ok (fe_new q (- fval x)).
  Proof. op. Qed.
  Lemma fe_square_ok x : canon q x -> fe_square q x = Ok (fe_new q (fval x * fval x)).
  Proof. op. Qed.
  Lemma fe_add_eq_ok x y : canon q x -> canon q y -> fe_add_eq dbg x y = Ok (fe_new q (fval x + fval y)).
  Proof. op. Qed.
  Lemma fe_sub_eq_ok x y : canon q x -> canon q y -> fe_sub_eq dbg x y = Ok (fe_new q (fval x - fval y)).
  Proof. op. Qed.
  Lemma fe_mul_eq_ok x y : canon q x -> canon q y -> fe_mul_eq dbg x y = Ok (fe_new q (fval x * fval y)).
  Proof. op. Qed.
  Lemma fe_mulz_eq_ok x a : canon q x -> fe_mulz_eq x a = Ok (fe_new q (fval x * a)).
  Proof. op. Qed.

  Hypothesis Hprime : prime q.

  Lemma canon_gcd x : canon q x -> fval x <> 0 -> Z.gcd (fval x) q = 1.
  Proof.
    intros [_ R] N. apply Zgcd_1_rel_prime, rel_prime_sym, prime_rel_prime; [assumption|].
    intros D. apply Z.divide_pos_le in D; lia.
  Qed.

  Lemma fe_invert_ok x : canon q x -> fval x <> 0 ->
    exists i, fe_invert q x = Ok i /\ canon q i /\ (fval x * fval i) mod q = 1.
  Proof.
    intros Hx N. pose proof (canon_gcd x Hx N) as G. destruct Hprime as [H1 _].
    destruct (mpz_invert_cases (fval x) q Hq) as [[_ [r [E [R M]]]]|[B _]]; [|contradiction].
    exists (fe_new q r). unfold fe_invert. destruct Hx as [-> Rx]. rewrite E. cbn [bind].
    repeat split; try apply Z.mod_pos_bound; try lia.
    cbn. rewrite Z.mul_mod_idemp_r, M, Z.mod_small by lia. reflexivity.
  Qed.

  Lemma fe_invert_zero x : canon q x -> fval x = 0 -> fe_invert q x = Err NoInverse.
  Proof.
    intros [E _] Z0. unfold fe_invert. rewrite E, Z0. destruct Hprime as [H1 _].
    destruct (mpz_invert_cases 0 q Hq) as [[G _]|[_ ->]]; [|reflexivity].
    rewrite Z.gcd_0_l in G. lia.
  Qed.

  (** division *)
  Lemma fe_div_ok x y : canon q x -> canon q y -> fval y <> 0 ->
    exists r, fe_div dbg q x y = Ok r /\ canon q r /\ (fval r * fval y) mod q = fval x.
  Proof.
    intros Hx Hy N. destruct (fe_invert_ok y Hy N) as [i [Ei [Hi Mi]]].
    unfold fe_div. rewrite assert_same by assumption. cbn [bind]. rewrite Ei. cbn [bind].
    rewrite fe_mul_ok by assumption. eexists; split; [reflexivity|].
    split; [apply canon_new; assumption|]. cbn.
    rewrite Z.mul_mod_idemp_l by lia.
    replace (fval x * fval i * fval y) with (fval x * (fval y * fval i)) by ring.
    rewrite <- Z.mul_mod_idemp_r, Mi, Z.mul_1_r by lia. apply Z.mod_small, Hx.
  Qed.

  Lemma fe_div_eq_same x y : canon q x -> canon q y -> fe_div_eq dbg q x y = fe_div dbg q x y.
  Proof.
    intros Hx Hy. unfold fe_div_eq, fe_div. rewrite assert_same by assumption. cbn [bind].
    destruct (Z.eq_dec (fval y) 0) as [E|N].
    - rewrite fe_invert_zero by assumption. reflexivity.
    - destruct (fe_invert_ok y Hy N) as [i [-> [Hi _]]]. cbn [bind].
      rewrite fe_mul_ok, fe_mul_eq_ok by assumption. reflexivity.
  Qed.

  Lemma fe_div_zero x y : canon q x -> canon q y -> fval y = 0 -> fe_div dbg q x y = Err NoInverse.
  Proof.
    intros Hx Hy E. unfold fe_div. rewrite assert_same by assumption. cbn [bind].
    rewrite fe_invert_zero by assumption. reflexivity.
  Qed.
End Ops.

(** ** Refinement of operation histories to the residue field *)
Section History.
  Variables (dbg : bool) (q : Z).
  Hypothesis Hprime : prime q.

  Lemma q_pos : 0 < q.
  Proof. destruct Hprime; lia. Qed.

  Notation reps := (reps q).
  Notation rset := (rset q).
  Notation rexec := (rexec q).
  Notation rexec_all := (rexec_all q).

  Lemma reps_mk s e k : reps s e -> mk q (fval (s k)) = e k.
  Proof. intros H. destruct (H k) as [_ ->]. apply mk_val. Qed.

  Lemma reduce_write s i v (Hs : forall k, canon q (s k)) :
    exists s', reduce (write_val s i v) i = Ok s' /\ forall k, s' k = if Nat.eqb k i then fe_new q v else s k.
  Proof.
    unfold reduce, write_val. cbn. unfold write at 1 2. rewrite !Nat.eqb_refl. cbn.
    destruct (Hs i) as [E _]. rewrite E, mpz_mod_pos by apply q_pos. cbn [bind].
    eexists; split; [reflexivity|]. intros k. unfold write. destruct (Nat.eqb k i) eqn:Ek; [|reflexivity].
    rewrite Nat.eqb_refl. cbn. unfold fe_new. reflexivity.
  Qed.

  Lemma reps_write s s' e i v w : reps s e ->
    (forall k, s' k = if Nat.eqb k i then fe_new q v else s k) ->
    mk q v = w -> reps s' (rset e i w).
  Proof.
    intros H Hs <- k. rewrite Hs. unfold rset. destruct (Nat.eqb k i); [|apply H].
    split; [apply canon_new, q_pos|reflexivity].
  Qed.

  Lemma fe_invert_rep x : canon q x -> fval x <> 0 ->
    exists i, fe_invert q x = Ok i /\ canon q i /\ mk q (fval i) = finv q (mk q (fval x)).
  Proof.
    intros Hx N. destruct (fe_invert_ok q q_pos Hprime x Hx N) as [i [E [Hi M]]].
    exists i; repeat split; try apply Hi; [assumption|].
    assert (Hx0 : mk q (fval x) <> f0 q).
    { intros F. apply mk_0_iff in F; [|assumption]. destruct Hx as [_ R]. apply Z.divide_pos_le in F; lia. }
    assert (E1 : fmul q (mk q (fval x)) (mk q (fval i)) = f1 q).
    { rewrite mk_mul. apply mk_eq. rewrite M. destruct Hprime. rewrite Z.mod_small by lia. reflexivity. }
    pose proof (finv_l q Hprime _ Hx0) as E2.
    pose proof (ring_Fp q) as R.
    rewrite <- (Rmul_1_l R (mk q (fval i))), <- E2, <- (Rmul_assoc R), E1, (Rmul_comm R), (Rmul_1_l R). reflexivity.
  Qed.

  Lemma exec_refines s e c : reps s e ->
    match rexec e c with
    | Some e' => exists s', exec dbg q s c = Ok s' /\ reps s' e'
    | None => exec dbg q s c = Err NoInverse
    end.
  Proof.
    intros H. assert (Hc : forall k, canon q (s k)) by (intros k; apply H).
    destruct c as [i j|i j|i j|i a|i j|i j]; cbn [rexec exec];
      rewrite ?(assert_same dbg q (s i) (s j) (Hc i) (Hc j)); cbn [bind].
    - destruct (reduce_write s i (fval (s i) + fval (s j)) Hc) as [s' [E W]].
      exists s'; split; [assumption|]. apply (reps_write _ _ _ _ _ _ H W).
      rewrite <- mk_add, !(reps_mk s e) by assumption. reflexivity.
    - destruct (reduce_write s i (fval (s i) - fval (s j)) Hc) as [s' [E W]].
      exists s'; split; [assumption|]. apply (reps_write _ _ _ _ _ _ H W).
      rewrite <- mk_sub, !(reps_mk s e) by assumption. reflexivity.
    - destruct (reduce_write s i (fval (s i) * fval (s j)) Hc) as [s' [E W]].
      exists s'; split; [assumption|]. apply (reps_write _ _ _ _ _ _ H W).
      rewrite <- mk_mul, !(reps_mk s e) by assumption. reflexivity.
    - destruct (reduce_write s i (fval (s i) * a) Hc) as [s' [E W]].
      exists s'; split; [assumption|]. apply (reps_write _ _ _ _ _ _ H W).
      rewrite <- mk_mul, !(reps_mk s e) by assumption. reflexivity.
    - destruct (eqFp q (e j) (f0 q)) as [E0|N0].
      + rewrite (fe_invert_zero q q_pos Hprime); [reflexivity|apply Hc|].
        destruct (H j) as [_ ->]. rewrite E0. apply Z.mod_0_l. pose proof q_pos; lia.
      + assert (Nj : fval (s j) <> 0).
        { intros F. apply N0. rewrite <- (reps_mk s e j H), F. reflexivity. }
        destruct (fe_invert_rep (s j) (Hc j) Nj) as [t [-> [Ht Mt]]]. cbn [bind].
        rewrite (assert_same dbg q (s i) t (Hc i) Ht). cbn [bind].
        destruct (reduce_write s i (fval (s i) * fval t) Hc) as [s' [E W]].
        exists s'; split; [assumption|]. apply (reps_write _ _ _ _ _ _ H W).
        rewrite <- mk_mul, Mt, !(reps_mk s e) by assumption. reflexivity.
    - exists (write s i (s j)); split; [reflexivity|]. intros k. unfold write, rset.
      destruct (Nat.eqb k i); apply H.
  Qed.

  Lemma exec_all_refines l : forall s e, reps s e ->
    match rexec_all e l with
    | Some e' => exists s', exec_all dbg q s l = Ok s' /\ reps s' e'
    | None => exec_all dbg q s l = Err NoInverse
    end.
  Proof.
    induction l as [|c l IH]; intros s e H; cbn [rexec_all].
    - exists s; split; [reflexivity|assumption].
    - pose proof (exec_refines s e c H) as Hc. unfold exec_all. cbn [foldM].
      destruct (rexec e c) as [e'|].
      + destruct Hc as [s' [-> H']]. cbn [bind]. exact (IH s' e' H').
      + rewrite Hc. reflexivity.
  Qed.

  (** the in-place forms store exactly what the binary operators return, operand aliasing included *)
  Lemma exec_binary s i j (Hs : forall k, canon q (s k)) :
    (exists s', exec dbg q s (IAdd i j) = Ok s' /\ fe_add dbg q (s i) (s j) = Ok (s' i) /\ forall k, k <> i -> s' k = s k) /\
    (exists s', exec dbg q s (ISub i j) = Ok s' /\ fe_sub dbg q (s i) (s j) = Ok (s' i) /\ forall k, k <> i -> s' k = s k) /\
    (exists s', exec dbg q s (IMul i j) = Ok s' /\ fe_mul dbg q (s i) (s j) = Ok (s' i) /\ forall k, k <> i -> s' k = s k) /\
    (fval (s j) <> 0 ->
     exists s', exec dbg q s (IDiv i j) = Ok s' /\ fe_div dbg q (s i) (s j) = Ok (s' i) /\ forall k, k <> i -> s' k = s k).
  Proof.
    pose proof q_pos as Q.
    assert (G : forall v x s', x = Ok (fe_new q v) ->
        reduce (write_val s i v) i = Ok s' -> (forall k, s' k = if Nat.eqb k i then fe_new q v else s k) ->
        exists s', reduce (write_val s i v) i = Ok s' /\ x = Ok (s' i) /\ forall k, k <> i -> s' k = s k).
    { intros v x s' -> E W. exists s'; split; [assumption|split].
      - rewrite W, Nat.eqb_refl. reflexivity.
      - intros k N. rewrite W. apply Nat.eqb_neq in N. rewrite N. reflexivity. }
    cbn [exec]. rewrite (assert_same dbg q (s i) (s j) (Hs i) (Hs j)). cbn [bind].
    split; [|split; [|split]].
    - destruct (reduce_write s i (fval (s i) + fval (s j)) Hs) as [s' [E W]].
      apply (G _ _ s'); [apply fe_add_ok; auto|assumption|assumption].
    - destruct (reduce_write s i (fval (s i) - fval (s j)) Hs) as [s' [E W]].
      apply (G _ _ s'); [apply fe_sub_ok; auto|assumption|assumption].
    - destruct (reduce_write s i (fval (s i) * fval (s j)) Hs) as [s' [E W]].
      apply (G _ _ s'); [apply fe_mul_ok; auto|assumption|assumption].
    - intros N. destruct (fe_invert_rep (s j) (Hs j) N) as [t [Et [Ht _]]].
      unfold fe_div. rewrite (assert_same dbg q (s i) (s j) (Hs i) (Hs j)), Et. cbn [bind].
      rewrite (assert_same dbg q (s i) t (Hs i) Ht). cbn [bind].
      destruct (reduce_write s i (fval (s i) * fval t) Hs) as [s' [E W]].
      apply (G _ _ s'); [apply fe_mul_ok; auto|assumption|assumption].
  Qed.
End History.

(** ** The four classes *)
Lemma modulus_prime c : prime (modulus c).
Proof.
  destruct c; [apply prime_secp256r1_p|apply prime_secp256r1_n|apply prime_bn254_p|apply prime_bn254_n].
Qed.

Lemma modulus_pos c : 0 < modulus c.
Proof. destruct (modulus_prime c); lia. Qed.

Lemma represents_new c v : represents c (fe_new (modulus c) v) v.
Proof.
  pose proof (modulus_pos c). split; [apply canon_new; assumption|]. cbn.
  exists (v / modulus c). rewrite Z.mod_eq by lia. ring.
Qed.

Lemma represents_unique c x y v w : represents c x v -> represents c y w -> (x = y <-> (modulus c | v - w)).
Proof.
  intros [Hx Dx] [Hy Dy]. split.
  - intros ->. replace (v - w) with ((v - fval y) - (w - fval y)) by ring. apply Z.divide_sub_r; assumption.
  - intros D. apply (canon_eq (modulus c)); [assumption|assumption|].
    destruct Hx as [_ Rx], Hy as [_ Ry].
    assert (D2 : (modulus c | fval x - fval y)).
    { replace (fval x - fval y) with ((v - w) - (v - fval x) + (w - fval y)) by ring.
      apply Z.divide_add_r; [apply Z.divide_sub_r|]; assumption. }
    destruct D2 as [k Hk]. assert (k = 0) as -> by nia. lia.
Qed.

Lemma returns_new c r v : r = Ok (fe_new (modulus c) v) -> returns c r v.
Proof. intros ->. eexists; split; [reflexivity|apply represents_new]. Qed.

Lemma L_C01_construct c v : represents c (fe_new (modulus c) v) v.
Proof. apply represents_new. Qed.

Lemma L_C01_unique c v r : 0 <= r < modulus c -> (modulus c | v - r) -> fe_new (modulus c) v = mkfe r (modulus c).
Proof.
  intros R D. apply (represents_unique c _ _ v v (represents_new c v)).
  - split; [split; cbn; [reflexivity|assumption]|assumption].
  - rewrite Z.sub_diag. apply Z.divide_0_r.
Qed.

Lemma L_C01_eq c v w : fe_eq (fe_new (modulus c) v) (fe_new (modulus c) w) = true <-> (modulus c | v - w).
Proof.
  rewrite (fe_eq_spec (modulus c)) by apply canon_new, modulus_pos.
  apply represents_unique; apply represents_new.
Qed.

Lemma L_C02_ops c dbg x y a : elem c x -> elem c y ->
  returns c (fe_add dbg (modulus c) x y) (fval x + fval y) /\
  returns c (fe_sub dbg (modulus c) x y) (fval x - fval y) /\
  returns c (fe_mul dbg (modulus c) x y) (fval x * fval y) /\
  returns c (fe_neg (modulus c) x) (- fval x) /\
  returns c (fe_mulz (modulus c) x a) (fval x * a) /\
  returns c (fe_square (modulus c) x) (fval x * fval x).
Proof.
  intros Hx Hy. pose proof (modulus_pos c).
  repeat split; apply returns_new;
    [apply fe_add_ok|apply fe_sub_ok|apply fe_mul_ok|apply fe_neg_ok|apply fe_mulz_ok|apply fe_square_ok]; assumption.
Qed.

Lemma L_C02_inplace c dbg s i j : (forall k, elem c (s k)) ->
  (exists s', exec dbg (modulus c) s (IAdd i j) = Ok s' /\ fe_add dbg (modulus c) (s i) (s j) = Ok (s' i) /\ forall k, k <> i -> s' k = s k) /\
  (exists s', exec dbg (modulus c) s (ISub i j) = Ok s' /\ fe_sub dbg (modulus c) (s i) (s j) = Ok (s' i) /\ forall k, k <> i -> s' k = s k) /\
  (exists s', exec dbg (modulus c) s (IMul i j) = Ok s' /\ fe_mul dbg (modulus c) (s i) (s j) = Ok (s' i) /\ forall k, k <> i -> s' k = s k) /\
  (fval (s j) <> 0 ->
   exists s', exec dbg (modulus c) s (IDiv i j) = Ok s' /\ fe_div dbg (modulus c) (s i) (s j) = Ok (s' i) /\ forall k, k <> i -> s' k = s k).
Proof. intros H. apply exec_binary; [apply modulus_prime|exact H]. Qed.

Lemma L_C02_inplacez c dbg s i a : (forall k, elem c (s k)) ->
  exists s', exec dbg (modulus c) s (IMulz i a) = Ok s' /\ fe_mulz (modulus c) (s i) a = Ok (s' i) /\ forall k, k <> i -> s' k = s k.
Proof.
  intros H. cbn [exec]. destruct (reduce_write (modulus c) (modulus_prime c) s i (fval (s i) * a) H) as [s' [E W]].
  exists s'. split; [assumption|split].
  - rewrite W, Nat.eqb_refl. apply fe_mulz_ok; [apply modulus_pos|apply H].
  - intros k N. rewrite W. apply Nat.eqb_neq in N. rewrite N. reflexivity.
Qed.

Lemma L_C02_compound c dbg x y a : elem c x -> elem c y ->
  fe_add_eq dbg x y = fe_add dbg (modulus c) x y /\
  fe_sub_eq dbg x y = fe_sub dbg (modulus c) x y /\
  fe_mul_eq dbg x y = fe_mul dbg (modulus c) x y /\
  fe_mulz_eq x a = fe_mulz (modulus c) x a /\
  fe_div_eq dbg (modulus c) x y = fe_div dbg (modulus c) x y.
Proof.
  intros Hx Hy. pose proof (modulus_pos c) as Q. pose proof (modulus_prime c) as P.
  rewrite (fe_add_ok dbg _ Q), (fe_sub_ok dbg _ Q), (fe_mul_ok dbg _ Q), (fe_mulz_ok _ Q),
    (fe_add_eq_ok dbg _ Q), (fe_sub_eq_ok dbg _ Q), (fe_mul_eq_ok dbg _ Q), (fe_mulz_eq_ok _ Q), (fe_div_eq_same dbg _ Q P) by assumption.
  repeat split.
Qed.

Lemma L_C03 c dbg x y : elem c x -> elem c y -> fval y <> 0 ->
  (exists i, fe_invert (modulus c) y = Ok i /\ elem c i /\ fe_mul dbg (modulus c) y i = Ok (fe_new (modulus c) 1)) /\
  (exists d, fe_div dbg (modulus c) x y = Ok d /\ elem c d /\ fe_mul dbg (modulus c) d y = Ok x).
Proof.
  intros Hx Hy N. pose proof (modulus_pos c) as Q. pose proof (modulus_prime c) as P. split.
  - destruct (fe_invert_ok (modulus c) Q P y Hy N) as [i [E [Hi M]]]. exists i; repeat split; try assumption; try apply Hi.
    rewrite fe_mul_ok by assumption. f_equal. apply fe_new_eq. rewrite M. symmetry; apply Z.mod_small. destruct P; lia.
  - destruct (fe_div_ok dbg (modulus c) Q P x y Hx Hy N) as [d [E [Hd M]]]. exists d; repeat split; try assumption; try apply Hd.
    rewrite fe_mul_ok by assumption. f_equal. rewrite <- (canon_new_val (modulus c) x Hx). apply fe_new_eq.
    rewrite M. symmetry; apply Z.mod_small. apply Hx.
Qed.

Lemma L_C03_zero c dbg x y : elem c x -> elem c y -> fval y = 0 ->
  fe_invert (modulus c) y = Err NoInverse /\ fe_div dbg (modulus c) x y = Err NoInverse /\ fe_div_eq dbg (modulus c) x y = Err NoInverse.
Proof.
  intros Hx Hy Z0. pose proof (modulus_pos c) as Q. pose proof (modulus_prime c) as P.
  rewrite fe_div_eq_same by assumption. repeat split; [apply fe_invert_zero|apply fe_div_zero|apply fe_div_zero]; assumption.
Qed.

Lemma L_C04_nodiv c dbg x y : elem c x -> elem c y -> fval x <> 0 -> fval y <> 0 ->
  exists r, fe_mul dbg (modulus c) x y = Ok r /\ fval r <> 0.
Proof.
  intros Hx Hy Nx Ny. pose proof (modulus_pos c) as Q. pose proof (modulus_prime c) as P.
  rewrite fe_mul_ok by assumption. eexists; split; [reflexivity|]. cbn. intros E.
  apply Z.mod_divide in E; [|lia]. destruct Hx as [_ Rx], Hy as [_ Ry].
  apply prime_mult in E; [|assumption]. destruct E as [D|D]; apply Z.divide_pos_le in D; lia.
Qed.

Lemma L_C05 c dbg l s e : reps (modulus c) s e ->
  match rexec_all (modulus c) e l with
  | Some e' => exists s', exec_all dbg (modulus c) s l = Ok s' /\ reps (modulus c) s' e'
  | None => exec_all dbg (modulus c) s l = Err NoInverse
  end.
Proof. apply exec_all_refines, modulus_prime. Qed.

(** ** setField *)
Lemma L_C06_class dbg q x y r :
  fe_add dbg q x y = Ok r \/ fe_sub dbg q x y = Ok r \/ fe_mul dbg q x y = Ok r \/ fe_div dbg q x y = Ok r -> fmod r = q.
Proof.
  unfold fe_add, fe_sub, fe_div, fe_mul.
  intros [H|[H|[H|H]]];
    repeat match goal with H : bind _ _ = Ok _ |- _ => apply bind_Ok in H; destruct H as [? [? H]] end;
    injection H as <-; reflexivity.
Qed.

Lemma L_C06_debug q x y : fmod x <> fmod y ->
  fe_add true q x y = Err AssertFail /\ fe_sub true q x y = Err AssertFail /\ fe_mul true q x y = Err AssertFail /\
  fe_div true q x y = Err AssertFail /\ fe_add_eq true x y = Err AssertFail /\ fe_sub_eq true x y = Err AssertFail /\
  fe_mul_eq true x y = Err AssertFail /\ fe_div_eq true q x y = Err AssertFail.
Proof.
  intros N. apply Z.eqb_neq in N.
  unfold fe_add, fe_sub, fe_mul, fe_div, fe_add_eq, fe_sub_eq, fe_mul_eq, fe_div_eq. rewrite N. cbn. repeat split.
Qed.

Lemma L_C06_ndebug q x y : 0 < fmod x ->
  fe_add false q x y = Ok (mkfe (((fval x + fval y) mod fmod x) mod q) q) /\
  fe_sub false q x y = Ok (mkfe (((fval x - fval y) mod fmod x) mod q) q) /\
  fe_mul false q x y = Ok (mkfe (((fval x * fval y) mod fmod x) mod q) q).
Proof.
  intros H. unfold fe_add, fe_sub, fe_mul. cbn. rewrite !mpz_mod_pos by assumption. repeat split.
Qed.

Lemma L_C06_value x m : fval (setField x m) = fval x /\ fmod (setField x m) = m.
Proof. split; reflexivity. Qed.

(** ** The constructors of the base class *)
Lemma L_C01_base v q : (0 < q -> pf_two v q = Ok (fe_new q v)) /\ (q < 0 -> pf_two v q = Ok (mkfe (v mod (- q)) q)) /\
  pf_two v 0 = Err DivByZero /\ pf_one v = Err DivByZero.
Proof.
  unfold pf_two, pf_one, mpz_mod. split; [|split; [|split; reflexivity]].
  - intros H. destruct (Z.eqb_spec q 0); [lia|]. cbn [bind]. rewrite Z.abs_eq by lia. reflexivity.
  - intros H. destruct (Z.eqb_spec q 0); [lia|]. cbn [bind]. rewrite Z.abs_neq by lia. reflexivity.
Qed.
