(** Pocklington's primality criterion and a certificate checker.  Mathematics only; models no code. *)
From Coq Require Import ZArith Znumtheory List Lia Bool Zwf Zpow_facts.
From Verif Require Import Fermat FastMod.
Import ListNotations.
Open Scope Z_scope.

(** ** Trial division for small primes *)
Fixpoint no_divisor (n d : Z) (fuel : nat) : bool :=
  match fuel with
  | O => n <? d * d
  | S f => if n <? d * d then true else if n mod d =? 0 then false else no_divisor n (d + 1) f
  end.

Definition small_prime (n : Z) (fuel : nat) : bool := (1 <? n) && no_divisor n 2 fuel.

Lemma exists_prime_divisor n : 1 < n -> exists r, prime r /\ (r | n).
Proof.
  intros Hn. revert Hn. pattern n. apply (well_founded_induction (Zwf_well_founded 0)).
  clear n; intros n IH Hn. destruct (prime_dec n) as [Hp|Hp].
  - exists n; split; [assumption|apply Z.divide_refl].
  - apply not_prime_divide in Hp; [|assumption]. destruct Hp as [m [[H1 H2] H3]].
    destruct (IH m) as [r [Hr Hd]]; [unfold Zwf; lia|lia|].
    exists r; split; [assumption|]. eapply Z.divide_trans; eassumption.
Qed.

Lemma no_divisor_spec n fuel : forall d, 1 < d -> no_divisor n d fuel = true ->
  forall k, d <= k -> k * k <= n -> ~ (k | n).
Proof.
  induction fuel as [|f IH]; intros d Hd H k Hk Hkn; cbn [no_divisor] in H.
  - apply Z.ltb_lt in H; nia.
  - destruct (Z.ltb_spec n (d * d)); [nia|].
    destruct (Z.eqb_spec (n mod d) 0) as [|Hm]; [discriminate|].
    destruct (Z.eq_dec k d) as [->|Hne].
    + intros Hdv; apply Hm. apply Z.mod_divide; [lia|assumption].
    + apply (IH (d + 1)); lia || assumption.
Qed.

Lemma small_prime_spec n fuel : small_prime n fuel = true -> prime n.
Proof.
  unfold small_prime; rewrite andb_true_iff, Z.ltb_lt; intros [Hn H].
  destruct (prime_dec n) as [Hp|Hp]; [assumption|exfalso].
  apply not_prime_divide in Hp; [|assumption]. destruct Hp as [m [[H1 H2] H3]].
  pose proof H3 as H3'. destruct H3 as [k Hk].
  destruct (Z.le_gt_cases (m * m) n) as [Hle|Hgt].
  - exact (no_divisor_spec n fuel 2 ltac:(lia) H m ltac:(lia) Hle H3').
  - apply (no_divisor_spec n fuel 2 ltac:(lia) H k); [nia|nia|exists m; lia].
Qed.

(** ** Exponents with a^e = 1 *)
Lemma pow_mod_1 r a m k : 0 <= m -> 0 <= k -> 1 < r -> a ^ m mod r = 1 -> a ^ (m * k) mod r = 1.
Proof.
  intros Hm Hk Hr H. rewrite Z.pow_mul_r by assumption.
  rewrite Zpow_facts.Zpower_mod by lia. rewrite H, Z.pow_1_l by assumption. apply Z.mod_small; lia.
Qed.

Lemma pow_gcd_1 r a m n : 0 < m -> 0 < n -> 1 < r ->
  a ^ m mod r = 1 -> a ^ n mod r = 1 -> a ^ (Z.gcd m n) mod r = 1.
Proof.
  intros Hm Hn Hr Ha Hb. destruct (Z.gcd_bezout m n _ eq_refl) as [u [v Huv]].
  set (g := Z.gcd m n) in *. assert (Hg : 0 <= g) by apply Z.gcd_nonneg.
  set (k := Z.abs u + Z.abs v).
  assert (Hu : 0 <= u + k * n) by nia. assert (Hv : 0 <= k * m - v) by nia.
  assert (HE : m * (u + k * n) = n * (k * m - v) + g) by lia.
  pose proof (pow_mod_1 r a m _ ltac:(lia) Hu Hr Ha) as H1.
  pose proof (pow_mod_1 r a n _ ltac:(lia) Hv Hr Hb) as H2.
  rewrite HE, Z.pow_add_r in H1 by nia.
  rewrite Z.mul_mod, H2, Z.mul_1_l, Z.mod_mod in H1 by lia. assumption.
Qed.

(** ** One prime power of the factored part *)
Lemma pock_step N r q e a :
  1 < N -> prime r -> (r | N) -> prime q -> 0 <= e -> (q ^ e | N - 1) -> (q | N - 1) ->
  a ^ (N - 1) mod N = 1 -> Z.gcd (a ^ ((N - 1) / q) - 1) N = 1 -> (q ^ e | r - 1).
Proof.
  intros HN Hr HrN Hq He HqN Hq1 Ha Hg.
  assert (Hr1 : 1 < r) by (destruct Hr; lia). assert (Hq2 : 1 < q) by (destruct Hq; lia).
  assert (HaR : a ^ (N - 1) mod r = 1).
  { destruct HrN as [k Hk]. pose proof (Z.div_mod (a ^ (N-1)) N ltac:(lia)) as HD.
    rewrite Ha in HD. rewrite HD. rewrite Hk at 1.
    replace (k * r * (a ^ (N - 1) / N) + 1) with (1 + (k * (a ^ (N - 1) / N)) * r) by ring.
    rewrite Z_mod_plus_full. apply Z.mod_small; lia. }
  assert (Hnd : ~ (r | a)).
  { intros Hd. assert ((r | a ^ (N - 1))).
    { replace (N - 1) with (Z.succ (N - 2)) by lia. rewrite Z.pow_succ_r by lia.
      apply Z.divide_mul_l; assumption. }
    apply Z.mod_divide in H; lia. }
  pose proof (fermat r a Hr Hnd) as HF.
  set (g := Z.gcd (N - 1) (r - 1)).
  assert (H1 : a ^ g mod r = 1) by (apply pow_gcd_1; lia || assumption).
  assert (Hgd : (g | N - 1)) by apply Z.gcd_divide_l.
  assert (Hgr : (g | r - 1)) by apply Z.gcd_divide_r.
  assert (Hgpos : 0 < g).
  { pose proof (Z.gcd_nonneg (N-1) (r-1)). assert (g <> 0); [|lia].
    unfold g; intros H0; apply Z.gcd_eq_0_l in H0; lia. }
  destruct Hgd as [k Hk].
  assert (Hkp : 0 < k) by nia.
  destruct (Znumtheory.Zdivide_dec q k) as [Hqk|Hqk].
  - exfalso. destruct Hqk as [j Hj].
    assert (HNq : (N - 1) / q = g * j).
    { rewrite Hk, Hj. replace (j * q * g) with (g * j * q) by ring. apply Z.div_mul; lia. }
    rewrite HNq in Hg.
    pose proof (pow_mod_1 r a g j ltac:(lia) ltac:(nia) Hr1 H1) as H2.
    assert (Hd : (r | a ^ (g * j) - 1)).
    { apply Z.mod_divide; [lia|]. rewrite Zminus_mod, H2, (Z.mod_small 1), Z.sub_diag by lia. apply Z.mod_0_l; lia. }
    pose proof (Z.gcd_greatest _ _ _ Hd HrN) as HG. rewrite Hg in HG. apply Z.divide_1_r in HG. lia.
  - apply Z.divide_trans with g; [|assumption].
    apply Gauss with k; [rewrite <- Hk; assumption|].
    apply rel_prime_sym. apply Zpow_facts.rel_prime_Zpower_r; [assumption|].
    apply rel_prime_sym, prime_rel_prime; assumption.
Qed.

(** ** Certificates: a base [a] and a list of prime powers (q, e) *)
Definition pock_prod (l : list (Z * Z)) : Z :=
  fold_right (fun t acc => let '(q, e) := t in q ^ e * acc) 1 l.

Fixpoint pock_entries (N a : Z) (l : list (Z * Z)) : bool :=
  match l with
  | [] => true
  | (q, e) :: l' =>
      (0 <? e) && (1 <? q) && (q <? N) && ((N - 1) mod (q ^ e) =? 0) &&
      (Z.gcd (zpowm a ((N - 1) / q) N - 1) N =? 1) &&
      (Z.gcd (q ^ e) (pock_prod l') =? 1) && pock_entries N a l'
  end.

Definition pock_check (N a : Z) (l : list (Z * Z)) : bool :=
  (1 <? N) && Z.odd N && (0 <? a) && (zpowm a (N - 1) N =? 1) &&
  pock_entries N a l && (N <=? pock_prod l * pock_prod l) && (1 <? pock_prod l).

Lemma gcd_sub_mod x N : 0 < N -> Z.gcd (x mod N - 1) N = Z.gcd (x - 1) N.
Proof.
  intros HN. rewrite (Z.gcd_comm _ N), (Z.gcd_comm (x - 1) N), <- (Z.gcd_mod (x mod N - 1) N), <- (Z.gcd_mod (x - 1) N) by lia.
  f_equal. apply Zminus_mod_idemp_l.
Qed.

Lemma pock_entries_div N a r l : 1 < N -> Z.odd N = true -> 0 < a -> a ^ (N - 1) mod N = 1 ->
  prime r -> (r | N) ->
  (forall q e, In (q, e) l -> prime q) -> pock_entries N a l = true -> (pock_prod l | r - 1).
Proof.
  intros HN Ho Hap Ha Hr HrN. induction l as [|[q e] l IH]; intros Hq H.
  - apply Z.divide_1_l.
  - cbn [pock_entries] in H. rewrite !andb_true_iff in H.
    destruct H as [[[[[[He Hq1] HqN'] Hdv] Hg] Hc] Hrest].
    apply Z.ltb_lt in He; apply Z.ltb_lt in Hq1; apply Z.ltb_lt in HqN'.
    apply Z.eqb_eq in Hdv; apply Z.eqb_eq in Hg; apply Z.eqb_eq in Hc.
    assert (Hqp : prime q) by (eapply Hq; left; reflexivity).
    assert (Hqe : 0 < q ^ e) by (apply Z.pow_pos_nonneg; lia).
    apply Z.mod_divide in Hdv; [|lia].
    assert (HqN : (q | N - 1)).
    { apply Z.divide_trans with (q ^ e); [|assumption].
      replace e with (Z.succ (e - 1)) by lia. rewrite Z.pow_succ_r by lia. apply Z.divide_factor_l. }
    assert (0 < (N - 1) / q) by (apply Z.div_str_pos; lia).
    rewrite zpowm_spec in Hg by (assumption || lia).
    rewrite gcd_sub_mod in Hg by lia.
    pose proof (pock_step N r q e a HN Hr HrN Hqp ltac:(lia) Hdv HqN Ha Hg) as H1.
    pose proof (IH (fun q' e' Hin => Hq q' e' (or_intror Hin)) Hrest) as H2.
    change (pock_prod ((q, e) :: l)) with (q ^ e * pock_prod l).
    destruct H1 as [k Hk]. rewrite Hk in H2. rewrite Hk.
    rewrite (Z.mul_comm k). apply Z.mul_divide_mono_l.
    apply Gauss with (q ^ e); [rewrite Z.mul_comm; assumption|].
    apply Zgcd_1_rel_prime. rewrite Z.gcd_comm; assumption.
Qed.

Theorem pocklington N a l : pock_check N a l = true ->
  (forall q e, In (q, e) l -> prime q) -> prime N.
Proof.
  unfold pock_check; rewrite !andb_true_iff; intros [[[[[[HN Ho] Hap] Ha] He] HF] HF1] Hq.
  apply Z.ltb_lt in HN; apply Z.leb_le in HF; apply Z.ltb_lt in HF1; apply Z.ltb_lt in Hap.
  apply Z.eqb_eq in Ha. rewrite zpowm_spec in Ha by (assumption || lia).
  destruct (prime_dec N) as [Hp|Hp]; [assumption|exfalso].
  apply not_prime_divide in Hp; [|assumption]. destruct Hp as [m [[H1 H2] H3]].
  destruct H3 as [k Hk]. assert (Hk1 : 1 < k) by nia.
  destruct (exists_prime_divisor m H1) as [r1 [Hr1 Hd1]].
  destruct (exists_prime_divisor k Hk1) as [r2 [Hr2 Hd2]].
  assert (HB : forall r x, prime r -> (r | x) -> (x | N) -> 1 < x -> pock_prod l < x).
  { intros r x Hr Hrx HxN Hx.
    pose proof (pock_entries_div N a r l HN Ho Hap Ha Hr (Z.divide_trans _ _ _ Hrx HxN) Hq He) as HD.
    assert (1 < r) by (destruct Hr; lia).
    apply Z.divide_pos_le in HD; [|lia]. apply Z.divide_pos_le in Hrx; lia. }
  pose proof (HB r1 m Hr1 Hd1 ltac:(exists k; assumption) H1).
  pose proof (HB r2 k Hr2 Hd2 ltac:(exists m; lia) Hk1). nia.
Qed.
