(** Proofs about error detection and the polynomial behind the register. *)
From Coq Require Import ZArith Znumtheory List Bool Lia.
From Verif Require Import Pocklington Outcome CrcTables CrcModel SpecCrc CrcProofs CrcProofs2 CrcProofs3.
Import ListNotations.
Open Scope Z_scope.
Opaque shifts.

(** ** Padding to a fixed number of bytes *)

Fixpoint pad (k : nat) (n : Z) : list Z :=
  match k with O => [] | S k' => Z.land (Z.shiftr n (8 * Z.of_nat k')) 255 :: pad k' n end.

Lemma pad_length k n : length (pad k n) = k.
Proof. induction k as [|k IH]; cbn; [reflexivity|]. f_equal. exact IH. Qed.
Lemma pad_bytes k n : Forall byte (pad k n).
Proof. induction k as [|k IH]; cbn; constructor; [apply land_byte|exact IH]. Qed.

Lemma land_mod x : Z.land x 255 = x mod 256.
Proof. change 255 with (Z.ones 8). rewrite Z.land_ones by lia. reflexivity. Qed.

Lemma pad_be k n : big_endian (pad k n) = n mod 256 ^ Z.of_nat k.
Proof.
  induction k as [|k IH]; [cbn; rewrite Z.mod_1_r; reflexivity|].
  cbn [pad big_endian]. rewrite pad_length, IH, land_mod, Z.shiftr_div_pow2 by lia. rewrite <- pow256 by lia.
  rewrite Nat2Z.inj_succ, Z.pow_succ_r, (Z.mul_comm 256) by lia.
  rewrite Z.rem_mul_r by (try apply Z.pow_nonzero; lia). ring.
Qed.

Lemma crc_zeros k l : crc 0 (repeat 0 k ++ l) = crc 0 l.
Proof.
  induction k as [|k IH]; [reflexivity|]. cbn [repeat app]. unfold crc in *. cbn [fold_left].
  replace (crc_byte 0 0) with 0; [exact IH|]. symmetry. apply (shifts_0 8).
Qed.

Lemma be_zeros k l : big_endian (repeat 0 k ++ l) = big_endian l.
Proof. induction k as [|k IH]; [reflexivity|]. cbn [repeat app big_endian]. rewrite IH. ring. Qed.

Lemma pad_raw k n : 0 <= n < 256 ^ Z.of_nat k -> crc 0 (pad k n) = crc 0 (getRawMpz n).
Proof.
  intros N. destruct (L_reexport (pad k n) (pad_bytes k n)) as [j E]. rewrite E, crc_zeros.
  rewrite setRaw_be, pad_be, Z.mod_small by exact N. reflexivity.
Qed.

Fixpoint xors (a b : list Z) : list Z :=
  match a, b with x :: a', y :: b' => Z.lxor x y :: xors a' b' | _, _ => [] end.

Lemma pad_lxor k a b : pad k (Z.lxor a b) = xors (pad k a) (pad k b).
Proof.
  induction k as [|k IH]; [reflexivity|]. cbn [pad xors]. f_equal; [|exact IH].
  rewrite Z.shiftr_lxor. apply Z.bits_inj'. intros i I. rewrite !Z.lxor_spec, !Z.land_spec, Z.lxor_spec.
  destruct (Z.testbit 255 i); [rewrite !andb_true_r|rewrite !andb_false_r]; reflexivity.
Qed.

Lemma crc_xors a : forall b c d, length a = length b -> crc (Z.lxor c d) (xors a b) = Z.lxor (crc c a) (crc d b).
Proof.
  induction a as [|x a IH]; intros [|y b] c d L; try discriminate L; [reflexivity|].
  injection L as L. unfold crc in *. cbn [xors fold_left]. rewrite <- IH by exact L. f_equal.
  unfold crc_byte. rewrite <- shifts_lxor. f_equal. apply lxor_swap.
Qed.

Lemma crc_pad_lxor k a b : crc 0 (pad k (Z.lxor a b)) = Z.lxor (crc 0 (pad k a)) (crc 0 (pad k b)).
Proof.
  rewrite pad_lxor. change 0 with (Z.lxor 0 0) at 1. apply crc_xors. rewrite !pad_length. reflexivity.
Qed.

(** a large enough width *)
Lemma width_bound n k : 0 <= n -> nbytes n <= Z.of_nat k -> 0 <= n < 256 ^ Z.of_nat k.
Proof.
  intros N B. split; [exact N|]. destruct (Z.eq_dec n 0) as [->|NZ].
  - apply Z.pow_pos_nonneg; lia.
  - unfold nbytes in B. rewrite (proj2 (Z.eqb_neq n 0) NZ) in B. rewrite Z.abs_eq in B by lia. rewrite pow256 by lia.
    apply Z.log2_lt_pow2; [lia|]. pose proof (Z.mul_succ_div_gt (Z.log2 n) 8). lia.
Qed.

(** the difference of two accepted values has remainder 0 *)
Lemma difference be be' addr addr' n n' k : 0 <= n -> 0 <= n' -> nbytes n < 2 ^ 32 -> nbytes n' < 2 ^ 32 ->
  nbytes n <= Z.of_nat k -> nbytes n' <= Z.of_nat k ->
  validateCRC be addr n = Ok true -> validateCRC be' addr' n' = Ok true -> crc 0 (pad k (Z.lxor n n')) = 0.
Proof.
  intros P P' B B' K K' V V'. apply validate_residue in V; [|exact B]. apply validate_residue in V'; [|exact B'].
  rewrite crc_pad_lxor, !pad_raw by (apply width_bound; assumption).
  destruct V as [_ ->], V' as [_ ->]. reflexivity.
Qed.

(** ** Bursts *)

Lemma le_word_l t : Forall byte t -> length t = 4%nat -> word (little_endian t).
Proof.
  intros F T. destruct t as [|c0 [|c1 [|c2 [|c3 [|? ?]]]]]; try discriminate T.
  inversion F as [|? ? B0 F1]; subst. inversion F1 as [|? ? B1 F2]; subst. inversion F2 as [|? ? B2 F3]; subst. inversion F3 as [|? ? B3 F4]; subst.
  exact (le_word c0 c1 c2 c3 B0 B1 B2 B3).
Qed.

Lemma crc_burst k j e : 0 < e < 2 ^ 32 -> (4 + j <= k)%nat -> crc 0 (pad k (e * 256 ^ Z.of_nat j)) <> 0.
Proof.
  intros E K.
  assert (Q : pad k (e * 256 ^ Z.of_nat j) = repeat 0 (k - (4 + j)) ++ pad 4 e ++ repeat 0 j).
  { apply be_inj.
    - rewrite !app_length, !repeat_length, !pad_length. lia.
    - apply pad_bytes.
    - apply Forall_app. split; [|apply Forall_app; split; [apply pad_bytes|]];
        apply Forall_forall; intros x I; apply repeat_spec in I; subst x; unfold byte; lia.
    - rewrite pad_be, be_zeros, be_app, repeat_length, pad_be.
      replace (big_endian (repeat 0 j)) with 0; [|symmetry; rewrite <- (app_nil_r (repeat 0 j)); rewrite be_zeros; reflexivity].
      change (256 ^ Z.of_nat 4) with (2 ^ 32). rewrite (Z.mod_small e) by lia. rewrite Z.add_0_r. apply Z.mod_small.
      pose proof (Z.pow_pos_nonneg 256 (Z.of_nat j) ltac:(lia) ltac:(lia)).
      replace (Z.of_nat k) with (4 + Z.of_nat j + Z.of_nat (k - (4 + j))) by lia. rewrite !Z.pow_add_r by lia.
      pose proof (Z.pow_pos_nonneg 256 (Z.of_nat (k - (4 + j))) ltac:(lia) ltac:(lia)). change (256 ^ 4) with (2 ^ 32). split; [nia|].
      apply Z.lt_le_trans with (2 ^ 32 * 256 ^ Z.of_nat j); [nia|]. nia. }
  rewrite Q, crc_zeros, crc_app.
  assert (Z0 : Forall byte (repeat 0 j)) by (apply Forall_forall; intros x I; apply repeat_spec in I; subst x; unfold byte; lia).
  rewrite (crc_closed _ Z0).
  replace (little_endian (repeat 0 j)) with 0 by (clear; induction j as [|j IH]; cbn [repeat little_endian]; lia).
  rewrite Z.lxor_0_r. intros F. apply shifts_nonzero in F; [|apply crc_word; [apply pad_bytes|unfold word; lia]].
  rewrite (crc_closed _ (pad_bytes 4 e)), Z.lxor_0_l, pad_length in F.
  pose proof (pad_bytes 4 e) as B4. 
  pose proof (le_word_l _ B4 (pad_length 4 e)) as W.
  apply shifts_nonzero in F; [|exact W]. apply (le_zero _ B4) in F.
  assert (Z4 : big_endian (pad 4 e) = 0).
  { clear -F. induction F as [|b l -> _ IH]; cbn [big_endian]; [reflexivity|]. rewrite IH. ring. }
  rewrite pad_be in Z4. change (256 ^ Z.of_nat 4) with (2 ^ 32) in Z4. rewrite Z.mod_small in Z4 by lia. lia.
Qed.

Lemma L_C44_burst be addr addr' n n' j e : 0 <= n -> 0 <= n' -> nbytes n < 2 ^ 32 -> nbytes n' < 2 ^ 32 ->
  validateCRC be addr n = Ok true -> 0 <= j -> 0 < e < 2 ^ 32 -> Z.lxor n n' = e * 256 ^ j ->
  validateCRC be addr' n' <> Ok true.
Proof.
  intros P P' B B' V J E X V'.
  pose proof (nbytes_nonneg n). pose proof (nbytes_nonneg n').
  set (k := Z.to_nat (nbytes n + nbytes n' + 4 + j)).
  pose proof (difference be be addr addr' n n' k P P' B B' ltac:(lia) ltac:(lia) V V') as D. rewrite X in D.
  rewrite <- (Z2Nat.id j J) in D. apply crc_burst in D; [exact D|exact E|lia].
Qed.

(** ** Parity *)

Lemma parity_double p : parity (2 * p) = parity p.
Proof. destruct p; reflexivity. Qed.
Lemma parity_odd p : 0 <= p -> parity (2 * p + 1) = negb (parity p).
Proof. destruct p; intros; [reflexivity|reflexivity|lia]. Qed.

Lemma parity_Npos_double n : parity (Z.of_N (Pos.Ndouble n)) = parity (Z.of_N n).
Proof. destruct n; reflexivity. Qed.
Lemma parity_Npos_succ n : parity (Z.of_N (Pos.Nsucc_double n)) = negb (parity (Z.of_N n)).
Proof. destruct n; reflexivity. Qed.

Lemma parity_lxor_pos : forall a b, parity (Z.of_N (Pos.lxor a b)) = xorb (parity_pos a) (parity_pos b).
Proof.
  induction a as [a IH|a IH|]; intros [b|b|]; cbn [Pos.lxor parity_pos].
  - rewrite parity_Npos_double, IH. destruct (parity_pos a), (parity_pos b); reflexivity.
  - rewrite parity_Npos_succ, IH. destruct (parity_pos a), (parity_pos b); reflexivity.
  - cbn. destruct (parity_pos a); reflexivity.
  - rewrite parity_Npos_succ, IH. destruct (parity_pos a), (parity_pos b); reflexivity.
  - rewrite parity_Npos_double, IH. reflexivity.
  - cbn. destruct (parity_pos a); reflexivity.
  - cbn. destruct (parity_pos b); reflexivity.
  - cbn. destruct (parity_pos b); reflexivity.
  - reflexivity.
Qed.

Lemma parity_lxor a b : 0 <= a -> 0 <= b -> parity (Z.lxor a b) = xorb (parity a) (parity b).
Proof.
  destruct a as [|a|a], b as [|b|b]; intros A B; try lia.
  - reflexivity.
  - cbn. destruct (parity_pos b); reflexivity.
  - cbn. destruct (parity_pos a); reflexivity.
  - apply parity_lxor_pos.
Qed.

Lemma parity_shift1 c : 0 <= c -> parity (shift1 c) = parity c.
Proof.
  intros C. unfold shift1. rewrite Z.shiftr_div_pow2 by lia. change (2 ^ 1) with 2.
  pose proof (Z.div_mod c 2 ltac:(lia)) as D. rewrite Zmod_odd in D. pose proof (Z.div_pos c 2 C ltac:(lia)) as Q.
  destruct (Z.odd c).
  - rewrite parity_lxor by lia. rewrite D at 2. rewrite parity_odd by exact Q. change (parity 0x82F63B78) with true.
    destruct (parity (c / 2)); reflexivity.
  - rewrite Z.add_0_r in D. rewrite D at 2. rewrite parity_double. reflexivity.
Qed.

Transparent shifts.
Lemma parity_shifts k : forall c, 0 <= c -> parity (shifts k c) = parity c.
Proof.
  induction k as [|k IH]; intros c C; [reflexivity|]. cbn [shifts]. rewrite IH.
  - apply parity_shift1, C.
  - unfold shift1. pose proof (Z.shiftr_nonneg c 1) as [_ N]. specialize (N C).
    destruct (Z.odd c); [|exact N]. apply Z.lxor_nonneg. lia.
Qed.
Opaque shifts.

Lemma parity_shiftl a k : parity (a * 2 ^ Z.of_nat k) = parity a.
Proof.
  induction k as [|k IH]; [rewrite Z.mul_1_r; reflexivity|].
  rewrite Nat2Z.inj_succ, Z.pow_succ_r by lia. replace (a * (2 * 2 ^ Z.of_nat k)) with (2 * (a * 2 ^ Z.of_nat k)) by ring.
  rewrite parity_double. exact IH.
Qed.

Lemma lxor_split a b k : 0 <= a < 2 ^ Z.of_nat k -> 0 <= b -> a + b * 2 ^ Z.of_nat k = Z.lxor a (b * 2 ^ Z.of_nat k).
Proof.
  intros A B. apply Z.add_nocarry_lxor. apply Z.bits_inj'. intros i I. rewrite Z.land_spec, Z.bits_0.
  destruct (Z_lt_dec i (Z.of_nat k)).
  - rewrite Z.mul_pow2_bits_low by lia. apply andb_false_r.
  - destruct (Z.eq_dec a 0) as [->|]; [rewrite Z.bits_0; reflexivity|].
    rewrite (Z.bits_above_log2 a i); [reflexivity|lia|]. assert (Z.log2 a < Z.of_nat k) by (apply Z.log2_lt_pow2; lia). lia.
Qed.

Lemma parity_cat a b k : 0 <= a < 2 ^ Z.of_nat k -> 0 <= b -> parity (a + b * 2 ^ Z.of_nat k) = xorb (parity a) (parity b).
Proof.
  intros A B. rewrite lxor_split by assumption. rewrite parity_lxor by (try apply Z.mul_nonneg_nonneg; lia).
  rewrite parity_shiftl. reflexivity.
Qed.

Lemma le_nonneg l : Forall byte l -> 0 <= little_endian l.
Proof. induction 1 as [|b l B _ IH]; cbn [little_endian]; [lia|]. unfold byte in B. lia. Qed.

Lemma parity_le_be l : Forall byte l -> parity (little_endian l) = parity (big_endian l).
Proof.
  induction 1 as [|b l B F IH]; [reflexivity|]. cbn [little_endian big_endian].
  replace (b + 256 * little_endian l) with (b + little_endian l * 2 ^ Z.of_nat 8) by (change (2 ^ Z.of_nat 8) with 256; ring).
  rewrite parity_cat by (try apply le_nonneg; assumption).
  rewrite Z.add_comm, pow256 by lia. replace (8 * Z.of_nat (length l)) with (Z.of_nat (8 * length l)) by lia.
  rewrite parity_cat.
  - rewrite IH. apply xorb_comm.
  - pose proof (be_range l F) as R. rewrite pow256 in R by lia. replace (Z.of_nat (8 * length l)) with (8 * Z.of_nat (length l)) by lia. exact R.
  - apply B.
Qed.

Lemma parity_crc l : Forall byte l -> parity (crc 0 l) = parity (big_endian l).
Proof. intros F. rewrite (crc_closed l F), Z.lxor_0_l, parity_shifts by (apply le_nonneg, F). apply parity_le_be, F. Qed.

Lemma L_C44_parity be addr addr' n n' : 0 <= n -> 0 <= n' -> nbytes n < 2 ^ 32 -> nbytes n' < 2 ^ 32 ->
  validateCRC be addr n = Ok true -> parity (Z.lxor n n') = true -> validateCRC be addr' n' <> Ok true.
Proof.
  intros P P' B B' V X V'. apply validate_residue in V; [|exact B]. apply validate_residue in V'; [|exact B'].
  rewrite parity_lxor in X by assumption.
  pose proof (parity_crc _ (raw_bytes n)) as Q. pose proof (parity_crc _ (raw_bytes n')) as Q'.
  destruct V as [_ V], V' as [_ V']. rewrite V in Q. rewrite V' in Q'.
  destruct (L_getRaw n) as [_ [E _]], (L_getRaw n') as [_ [E' _]]. rewrite E, Z.abs_eq in Q by lia. rewrite E', Z.abs_eq in Q' by lia.
  rewrite <- Q, <- Q' in X. discriminate X.
Qed.

(** ** Two bits *)

(** the register shift as a linear map: images of the 32 unit words *)
Definition apply_map (cols : list Z) (c : Z) : Z :=
  fold_right (fun ic a => if Z.testbit c (Z.of_nat (fst ic)) then Z.lxor (snd ic) a else a) 0 (combine (seq 0 32) cols).
Definition square (cols : list Z) : list Z := map (apply_map cols) cols.
Definition unit_cols (f : Z -> Z) : list Z := map (fun i => f (2 ^ Z.of_nat i)) (seq 0 32).

Definition linear (f : Z -> Z) : Prop := forall a b, f (Z.lxor a b) = Z.lxor (f a) (f b).

Lemma linear_0 f : linear f -> f 0 = 0.
Proof. intros L. pose proof (L 0 0) as H. cbn in H. rewrite Z.lxor_nilpotent in H. exact H. Qed.

Lemma testbit_pow2 i j : 0 <= i -> 0 <= j -> Z.testbit (2 ^ i) j = (i =? j).
Proof. intros I J. destruct (Z.eqb_spec i j) as [->|N]; [apply Z.pow2_bits_true; lia|apply Z.pow2_bits_false; lia]. Qed.

Lemma apply_gen f (L : linear f) : forall k s c, (forall i, 0 <= i -> Z.testbit c i = true -> Z.of_nat s <= i < Z.of_nat (s + k)) -> 0 <= c ->
  fold_right (fun ic a => if Z.testbit c (Z.of_nat (fst ic)) then Z.lxor (snd ic) a else a) 0
    (combine (seq s k) (map (fun i => f (2 ^ Z.of_nat i)) (seq s k))) = f c.
Proof.
  induction k as [|k IH]; intros s c H C.
  - cbn. rewrite <- (linear_0 f L). f_equal. symmetry. apply Z.bits_inj'. intros i I. rewrite Z.bits_0.
    destruct (Z.testbit c i) eqn:E; [|reflexivity]. specialize (H i I E). lia.
  - cbn [seq map combine fold_right fst snd].
    assert (G : forall c', 0 <= c' -> (forall i, Z.of_nat (S s) <= i -> Z.testbit c' i = Z.testbit c i) ->
      (forall i, 0 <= i -> Z.testbit c' i = true -> Z.of_nat (S s) <= i < Z.of_nat (S s + k)) ->
      fold_right (fun ic a => if Z.testbit c (Z.of_nat (fst ic)) then Z.lxor (snd ic) a else a) 0
        (combine (seq (S s) k) (map (fun i => f (2 ^ Z.of_nat i)) (seq (S s) k))) = f c').
    { intros c' C' E' H'. rewrite <- (IH (S s) c' H' C'). clear -E'.
      assert (Q : forall l l', Forall (fun i => Z.of_nat (S s) <= Z.of_nat i) l ->
        fold_right (fun ic a => if Z.testbit c (Z.of_nat (fst ic)) then Z.lxor (snd ic) a else a) 0 (combine l l') =
        fold_right (fun ic a => if Z.testbit c' (Z.of_nat (fst ic)) then Z.lxor (snd ic) a else a) 0 (combine l l')).
      { induction l as [|x l IHl]; intros l' Fl; [reflexivity|]. destruct l' as [|y l']; [reflexivity|].
        inversion Fl as [|? ? X Fl']; subst. cbn [combine fold_right fst snd]. rewrite (E' (Z.of_nat x)) by exact X. rewrite IHl by exact Fl'. reflexivity. }
      apply Q. apply Forall_forall. intros i I. apply in_seq in I. lia. }
    destruct (Z.testbit c (Z.of_nat s)) eqn:E.
    + rewrite (G (Z.lxor c (2 ^ Z.of_nat s))).
      * rewrite <- L. f_equal. rewrite Z.lxor_comm, Z.lxor_assoc, Z.lxor_nilpotent, Z.lxor_0_r. reflexivity.
      * apply Z.lxor_nonneg. pose proof (Z.pow_pos_nonneg 2 (Z.of_nat s)). lia.
      * intros i I. rewrite Z.lxor_spec, testbit_pow2 by lia. rewrite (proj2 (Z.eqb_neq _ _)) by lia. apply xorb_false_r.
      * intros i I. rewrite Z.lxor_spec, testbit_pow2 by lia. destruct (Z.eqb_spec (Z.of_nat s) i) as [<-|N].
        -- rewrite E. discriminate.
        -- rewrite xorb_false_r. intros T. specialize (H i I T). lia.
    + apply G; [exact C|reflexivity|]. intros i I T. specialize (H i I T). destruct (Z.eq_dec i (Z.of_nat s)) as [->|]; [congruence|lia].
Qed.

Lemma word_bits c : word c -> forall i, 0 <= i -> Z.testbit c i = true -> Z.of_nat 0 <= i < Z.of_nat (0 + 32).
Proof.
  intros W i I T. cbn. destruct (Z_lt_dec i 32) as [|N]; [lia|]. exfalso.
  rewrite (Z.testbit_eqb c i I) in T. unfold word in W. rewrite Z.div_small in T; [discriminate T|].
  split; [lia|]. eapply Z.lt_le_trans; [apply W|]. apply Z.pow_le_mono_r; lia.
Qed.

Lemma apply_spec f c : linear f -> word c -> apply_map (unit_cols f) c = f c.
Proof. intros L W. apply (apply_gen f L 32 0 c (word_bits c W)). apply W. Qed.

Lemma square_spec f : linear f -> (forall c, word c -> word (f c)) -> square (unit_cols f) = unit_cols (fun c => f (f c)).
Proof.
  intros L W. unfold square. unfold unit_cols at 2 3. rewrite map_map. apply map_ext_in. intros i I. apply in_seq in I. apply apply_spec; [exact L|].
  apply W. unfold word. split; [apply Z.pow_nonneg; lia|]. apply Z.pow_lt_mono_r; lia.
Qed.

(** columns of the (2^k)-fold shift *)
Fixpoint power_cols (k : nat) : list Z := match k with O => unit_cols shift1 | S k' => square (power_cols k') end.

Lemma power_cols_spec k : power_cols k = unit_cols (shifts (Nat.pow 2 k)).
Proof.
  induction k as [|k IH].
  - cbn [power_cols]. unfold unit_cols. apply map_ext. intros i. reflexivity.
  - cbn [power_cols]. rewrite IH, square_spec.
    + unfold unit_cols. apply map_ext. intros i. rewrite <- shifts_add. f_equal. rewrite Nat.pow_succ_r'. lia.
    + intros a b. apply shifts_lxor.
    + intros c. apply shifts_word.
Qed.

Definition fsize : Z := 2 ^ 31 - 1.

Lemma prime_151 : prime 151. Proof. apply (small_prime_spec 151 16). vm_compute. reflexivity. Qed.
Lemma prime_331 : prime 331. Proof. apply (small_prime_spec 331 20). vm_compute. reflexivity. Qed.
Lemma prime_fsize : prime fsize.
Proof.
  apply (pocklington 2147483647 7 [(151, 1); (331, 1)]); [vm_compute; reflexivity|].
  intros q e Hin; cbn [In] in Hin.
  destruct Hin as [Heq|Hin]; [injection Heq as <- <-; exact prime_151|].
  destruct Hin as [Heq|Hin]; [injection Heq as <- <-; exact prime_331|].
  contradiction.
Qed.

Lemma shifts_inj k a b : word a -> word b -> shifts k a = shifts k b -> a = b.
Proof.
  intros A B E. apply Z.lxor_eq. apply (shifts_nonzero k); [apply lxor_range; [lia|exact A|exact B]|].
  rewrite shifts_lxor, E. apply Z.lxor_nilpotent.
Qed.

Lemma word_1 : word 1. Proof. unfold word. lia. Qed.

(** shifting by 2^31 is shifting once, on the word 1 *)
Lemma cycle : apply_map (power_cols 31) 1 = shift1 1.
Proof. vm_compute. reflexivity. Qed.

Lemma of_nat_pow2 k : Z.of_nat (Nat.pow 2 k) = 2 ^ Z.of_nat k.
Proof. induction k as [|k IH]; [reflexivity|]. rewrite Nat.pow_succ_r', Nat2Z.inj_mul, IH, (Nat2Z.inj_succ k), Z.pow_succ_r by lia. reflexivity. Qed.

Lemma shifts_cycle : shifts (Z.to_nat fsize) 1 = 1.
Proof.
  pose proof cycle as C. rewrite power_cols_spec, apply_spec in C; [|intros a b; apply shifts_lxor|exact word_1].
  change (shift1 1) with (shifts 1 1) in C.
  assert (E : Nat.pow 2 31 = (Z.to_nat fsize + 1)%nat).
  { apply Nat2Z.inj. rewrite of_nat_pow2, Nat2Z.inj_add, Z2Nat.id by (unfold fsize; lia). reflexivity. }
  rewrite E, shifts_add in C. apply (shifts_inj 1) in C; [exact C|apply shifts_word, word_1|exact word_1].
Qed.

Lemma shifts_mult d : shifts d 1 = 1 -> forall u, shifts (u * d) 1 = 1.
Proof. intros E u. induction u as [|u IH]; [reflexivity|]. cbn [Nat.mul]. rewrite shifts_add, E. exact IH. Qed.

Lemma no_short_cycle d : 0 < d < fsize -> shifts (Z.to_nat d) 1 <> 1.
Proof.
  intros D E. assert (G : rel_prime d fsize).
  { apply rel_prime_sym, prime_rel_prime; [exact prime_fsize|]. intros V. apply Z.divide_pos_le in V; lia. }
  assert (X : exists u, 0 <= u /\ (u * d) mod fsize = 1).
  { apply rel_prime_bezout in G. destruct G as [u v H]. exists (u mod fsize). unfold fsize in *. split; [apply Z.mod_pos_bound; lia|].
    rewrite Z.mul_mod_idemp_l by lia. replace (u * d) with (1 + (- v) * (2 ^ 31 - 1)) by lia. rewrite Z.mod_add by lia. reflexivity. }
  destruct X as [u [U M]]. pose proof (Z.div_mod (u * d) fsize ltac:(unfold fsize; lia)) as DM. rewrite M in DM.
  assert (Q : 0 <= u * d / fsize) by (apply Z.div_pos; unfold fsize; nia).
  assert (S1 : shifts (Z.to_nat u * Z.to_nat d) 1 = 1) by (apply shifts_mult, E).
  replace (Z.to_nat u * Z.to_nat d)%nat with (Z.to_nat (u * d / fsize) * Z.to_nat fsize + 1)%nat in S1.
  - rewrite shifts_add, (shifts_mult _ shifts_cycle) in S1. revert S1. vm_compute. discriminate.
  - assert (FP : 0 <= fsize) by (unfold fsize; lia). apply Nat2Z.inj. rewrite Nat2Z.inj_add, !Nat2Z.inj_mul, !Z2Nat.id by lia.
    change (Z.of_nat 1) with 1. lia.
Qed.

Lemma shifts_differ a b : 0 <= a -> 0 <= b -> 0 < Z.abs (a - b) < fsize -> shifts (Z.to_nat a) 1 <> shifts (Z.to_nat b) 1.
Proof.
  assert (H : forall a b, 0 <= a -> 0 < b - a < fsize -> shifts (Z.to_nat a) 1 <> shifts (Z.to_nat b) 1).
  { intros x y X D E. replace (Z.to_nat y) with (Z.to_nat (y - x) + Z.to_nat x)%nat in E by lia. rewrite shifts_add in E.
    apply shifts_inj in E; [|exact word_1|apply shifts_word, word_1]. symmetry in E. revert E. apply no_short_cycle, D. }
  intros A B D E. destruct (Z_lt_dec a b).
  - revert E. apply H; lia.
  - symmetry in E. revert E. apply H; lia.
Qed.

(** what a single bit does to the register *)
Definition place (i : Z) : Z := 8 * (i / 8) + 8 - i mod 8.

Lemma crc_bit k i : 0 <= i < 8 * Z.of_nat k -> crc 0 (pad k (2 ^ i)) = shifts (Z.to_nat (place i)) 1.
Proof.
  intros I. pose proof (Z.div_mod i 8 ltac:(lia)) as D. pose proof (Z.mod_pos_bound i 8 ltac:(lia)) as M.
  pose proof (Z.div_pos i 8 ltac:(lia) ltac:(lia)) as Q.
  set (a := Z.to_nat (i / 8)). set (r := i mod 8) in *.
  assert (B : byte (2 ^ r)).
  { unfold byte. split; [apply Z.pow_nonneg; lia|]. change 256 with (2 ^ 8). apply Z.pow_lt_mono_r; lia. }
  assert (E : pad k (2 ^ i) = repeat 0 (k - S a) ++ [2 ^ r] ++ repeat 0 a).
  { apply be_inj.
    - rewrite !app_length, !repeat_length, pad_length. cbn [length]. lia.
    - apply pad_bytes.
    - apply Forall_app. split; [|apply Forall_app; split; [constructor; [exact B|constructor]|]];
        apply Forall_forall; intros x J; apply repeat_spec in J; subst x; unfold byte; lia.
    - rewrite pad_be, be_zeros, be_app, repeat_length. cbn [big_endian length].
      replace (big_endian (repeat 0 a)) with 0; [|symmetry; rewrite <- (app_nil_r (repeat 0 a)); rewrite be_zeros; reflexivity].
      rewrite !pow256 by lia. change (2 ^ (8 * Z.of_nat 0)) with 1. rewrite Z.mul_1_r, !Z.add_0_r.
      rewrite <- Z.pow_add_r by lia. rewrite Z.mod_small.
      + f_equal. subst a. lia.
      + split; [apply Z.pow_nonneg; lia|]. apply Z.pow_lt_mono_r; lia. }
  rewrite E, crc_zeros, crc_app.
  assert (Z0 : Forall byte (repeat 0 a)) by (apply Forall_forall; intros x J; apply repeat_spec in J; subst x; unfold byte; lia).
  rewrite (crc_closed _ Z0). replace (little_endian (repeat 0 a)) with 0 by (clear; induction a as [|j IH]; cbn [repeat little_endian]; lia).
  rewrite Z.lxor_0_r, repeat_length. unfold crc. cbn [fold_left]. unfold crc_byte. rewrite Z.lxor_0_l.
  replace (place i) with (8 - r + 8 * Z.of_nat a) by (unfold place; fold r; subst a; lia).
  replace (Z.to_nat (8 - r + 8 * Z.of_nat a)) with (Z.to_nat (8 - r) + 8 * a)%nat by lia. rewrite shifts_add. f_equal.
  replace 8%nat with (Z.to_nat r + Z.to_nat (8 - r))%nat by lia. rewrite shifts_add. f_equal.
  rewrite <- (shifts_shiftl (Z.to_nat r) 1). f_equal. rewrite Z2Nat.id, Z.shiftl_mul_pow2, Z.mul_1_l by lia. reflexivity.
Qed.

Lemma L_C44_two be addr addr' n n' i j : 0 <= n -> 0 <= n' -> nbytes n < 2 ^ 32 -> nbytes n' < 2 ^ 32 ->
  validateCRC be addr n = Ok true -> 0 <= i < j -> j - i < 2 ^ 31 - 16 -> Z.lxor n n' = 2 ^ i + 2 ^ j ->
  validateCRC be addr' n' <> Ok true.
Proof.
  intros P P' B B' V I J X V'.
  pose proof (nbytes_nonneg n). pose proof (nbytes_nonneg n').
  set (k := Z.to_nat (nbytes n + nbytes n' + j + 1)).
  pose proof (difference be be addr addr' n n' k P P' B B' ltac:(lia) ltac:(lia) V V') as D. rewrite X in D.
  assert (S : 2 ^ i + 2 ^ j = Z.lxor (2 ^ i) (2 ^ j)).
  { apply Z.add_nocarry_lxor. apply Z.bits_inj'. intros b Hb. rewrite Z.land_spec, !testbit_pow2, Z.bits_0 by lia.
    destruct (Z.eqb_spec i b), (Z.eqb_spec j b); try reflexivity; lia. }
  rewrite S, crc_pad_lxor, !crc_bit in D by lia. apply Z.lxor_eq in D. revert D.
  unfold place. pose proof (Z.div_mod i 8 ltac:(lia)). pose proof (Z.mod_pos_bound i 8 ltac:(lia)).
  pose proof (Z.div_mod j 8 ltac:(lia)). pose proof (Z.mod_pos_bound j 8 ltac:(lia)).
  pose proof (Z.div_pos i 8 ltac:(lia) ltac:(lia)). pose proof (Z.div_pos j 8 ltac:(lia) ltac:(lia)).
  apply shifts_differ; unfold fsize; lia.
Qed.

(** ** The polynomial *)

Fixpoint bits_le (l : list bool) : Z := match l with [] => 0 | b :: r => Z.b2z b + 2 * bits_le r end.
Definition bit_in (c : Z) (b : bool) : Z := shift1 (Z.lxor c (Z.b2z b)).

Transparent shifts.
Lemma bit_in_closed l : forall c, fold_left bit_in l c = shifts (length l) (Z.lxor c (bits_le l)).
Proof.
  induction l as [|b l IH]; intros c; cbn [fold_left length shifts bits_le]; [rewrite Z.lxor_0_r; reflexivity|].
  rewrite IH. f_equal. unfold bit_in.
  replace (Z.b2z b + 2 * bits_le l) with (Z.lxor (Z.b2z b) (2 * bits_le l)).
  - rewrite <- Z.lxor_assoc, (shift1_lxor (Z.lxor c (Z.b2z b))), shift1_double. reflexivity.
  - symmetry. apply Z.add_nocarry_lxor. apply Z.bits_inj'. intros i I. rewrite Z.land_spec, Z.bits_0.
    destruct (Z.eq_dec i 0) as [->|N].
    + rewrite Z.testbit_even_0. apply andb_false_r.
    + destruct b; cbn [Z.b2z]; [|rewrite Z.bits_0; reflexivity]. change 1 with (2 ^ 0). rewrite Z.pow2_bits_false by lia. reflexivity.
Qed.
Opaque shifts.

Lemma bits_of_le b : byte b -> bits_le (bits_of b) = b.
Proof.
  intros B. unfold bits_of. cbn [seq map bits_le]. rewrite Z.mul_0_r, Z.add_0_r.
  assert (D : forall x, Z.b2z (Z.testbit x 0) + 2 * (x / 2) = x).
  { intros x. rewrite Z.bit0_odd. pose proof (Z.div_mod x 2 ltac:(lia)) as D. rewrite Zmod_odd in D. destruct (Z.odd x); cbn [Z.b2z]; lia. }
  assert (T : forall i, 0 <= i -> Z.testbit b i = Z.testbit (b / 2 ^ i) 0).
  { intros i I. rewrite Z.div_pow2_bits by lia. f_equal. }
  change (Z.of_nat 0) with 0. change (Z.of_nat 1) with 1. change (Z.of_nat 2) with 2. change (Z.of_nat 3) with 3.
  change (Z.of_nat 4) with 4. change (Z.of_nat 5) with 5. change (Z.of_nat 6) with 6. change (Z.of_nat 7) with 7.
  rewrite (T 1), (T 2), (T 3), (T 4), (T 5), (T 6), (T 7) by lia.
  assert (H : forall i, 0 <= i -> b / 2 ^ (i + 1) = b / 2 ^ i / 2) by (intros i I; rewrite Z.pow_add_r, Z.div_div by lia; reflexivity).
  pose proof (D (b / 2 ^ 7)) as D7. pose proof (D (b / 2 ^ 6)) as D6. pose proof (D (b / 2 ^ 5)) as D5. pose proof (D (b / 2 ^ 4)) as D4.
  pose proof (D (b / 2 ^ 3)) as D3. pose proof (D (b / 2 ^ 2)) as D2. pose proof (D (b / 2 ^ 1)) as D1. pose proof (D b) as D0.
  rewrite <- (H 7) in D7 by lia. rewrite <- (H 6) in D6 by lia. rewrite <- (H 5) in D5 by lia. rewrite <- (H 4) in D4 by lia.
  rewrite <- (H 3) in D3 by lia. rewrite <- (H 2) in D2 by lia. rewrite <- (H 1) in D1 by lia.
  change (b / 2) with (b / 2 ^ 1) in D0. cbn [Z.add Pos.add Pos.succ Pos.add_carry] in *.
  assert (b / 2 ^ 8 = 0) by (apply Z.div_small; exact B). lia.
Qed.

Lemma crc_bits l : Forall byte l -> forall c, crc c l = fold_left bit_in (flat_map bits_of l) c.
Proof.
  induction 1 as [|b l B _ IH]; intros c; [reflexivity|]. cbn [flat_map]. rewrite fold_left_app, <- IH.
  unfold crc. cbn [fold_left]. f_equal. rewrite bit_in_closed, bits_of_le by exact B. reflexivity.
Qed.

Lemma poly_of_bits l : forall a j, 0 <= j -> Z.testbit (poly_of l a) j =
  if j <? Z.of_nat (length l) then nth (Z.to_nat (Z.of_nat (length l) - 1 - j)) l false else Z.testbit a (j - Z.of_nat (length l)).
Proof.
  induction l as [|b l IH]; intros a j J; cbn [poly_of length].
  - rewrite (proj2 (Z.ltb_ge _ _)) by (cbn; lia). f_equal. cbn. lia.
  - rewrite IH by exact J. rewrite Nat2Z.inj_succ. destruct (Z.ltb_spec j (Z.of_nat (length l))) as [H|H].
    + rewrite (proj2 (Z.ltb_lt _ _)) by lia. 
      replace (Z.to_nat (Z.succ (Z.of_nat (length l)) - 1 - j)) with (S (Z.to_nat (Z.of_nat (length l) - 1 - j))) by lia. reflexivity.
    + destruct (Z.ltb_spec j (Z.succ (Z.of_nat (length l)))) as [H'|H'].
      * replace (Z.to_nat (Z.succ (Z.of_nat (length l)) - 1 - j)) with O by lia. replace (j - Z.of_nat (length l)) with 0 by lia.
        cbn [nth]. rewrite Z.add_b2z_double_bit0 || (rewrite Z.add_comm, Z.add_b2z_double_bit0). reflexivity.
      * replace (j - Z.of_nat (length l)) with (Z.succ (j - Z.succ (Z.of_nat (length l)))) by lia.
        rewrite Z.testbit_succ_r by lia. reflexivity.
Qed.

Lemma poly_of_nonneg l : forall a, 0 <= a -> 0 <= poly_of l a.
Proof. induction l as [|b l IH]; intros a A; cbn [poly_of]; [exact A|]. apply IH. destruct b; cbn [Z.b2z]; lia. Qed.

Lemma reflect_bits c j : 0 <= j -> Z.testbit (reflect32 c) j = (j <? 32) && Z.testbit c (31 - j).
Proof.
  intros J. unfold reflect32. rewrite poly_of_bits by exact J. rewrite map_length, seq_length. change (Z.of_nat 32) with 32.
  destruct (Z.ltb_spec j 32) as [H|H]; [|rewrite Z.bits_0; reflexivity]. cbn [andb].
  rewrite (nth_indep _ false (Z.testbit c (Z.of_nat 0))) by (rewrite map_length, seq_length; lia).
  rewrite (map_nth (fun i => Z.testbit c (Z.of_nat i)) (seq 0 32) 0%nat), seq_nth by lia. f_equal. lia.
Qed.

Lemma reflect_range c : 0 <= reflect32 c < 2 ^ 32.
Proof.
  assert (N : 0 <= reflect32 c) by (apply poly_of_nonneg; lia). split; [exact N|].
  destruct (Z.eq_dec (reflect32 c) 0) as [->|NZ]; [lia|]. apply Z.log2_lt_pow2; [lia|].
  destruct (Z_lt_dec (Z.log2 (reflect32 c)) 32) as [|H]; [assumption|].
  pose proof (Z.bit_log2 (reflect32 c) ltac:(lia)) as T. rewrite reflect_bits in T by apply Z.log2_nonneg.
  rewrite (proj2 (Z.ltb_ge _ _)) in T by lia. discriminate T.
Qed.

Lemma reflect_lxor a b : reflect32 (Z.lxor a b) = Z.lxor (reflect32 a) (reflect32 b).
Proof.
  apply Z.bits_inj'. intros j J. rewrite Z.lxor_spec, !reflect_bits by exact J. rewrite Z.lxor_spec.
  destruct (j <? 32); reflexivity.
Qed.

Lemma reflect_shiftr d : word d -> Z.lxor (reflect32 (Z.shiftr d 1)) (Z.b2z (Z.testbit d 0) * 2 ^ 32) = 2 * reflect32 d.
Proof.
  intros W. apply Z.bits_inj'. intros j J. rewrite Z.lxor_spec, reflect_bits by exact J.
  assert (P : Z.testbit (Z.b2z (Z.testbit d 0) * 2 ^ 32) j = (j =? 32) && Z.testbit d 0).
  { destruct (Z.eqb_spec j 32) as [->|N].
    - rewrite Z.mul_pow2_bits by lia. cbn [Z.sub]. rewrite Z.sub_diag. destruct (Z.testbit d 0); reflexivity.
    - destruct (Z.testbit d 0); cbn [Z.b2z]; [|rewrite Z.mul_0_l, Z.bits_0; reflexivity].
      rewrite Z.mul_1_l, Z.pow2_bits_false by lia. reflexivity. }
  rewrite P. destruct (Z.eq_dec j 0) as [->|NZ].
  - rewrite Z.testbit_even_0. cbn [Z.ltb Z.compare andb Z.eqb Z.sub].
    rewrite Z.shiftr_spec by lia. rewrite xorb_false_r. change (31 - 0 + 1) with 32.
    destruct (Z.testbit d 32) eqn:T; [|reflexivity]. apply (word_bits d W 32) in T; [cbn in T; lia|lia].
  - assert (T2 : Z.testbit (2 * reflect32 d) j = Z.testbit (reflect32 d) (j - 1))
      by (replace j with (Z.succ (j - 1)) at 1 by lia; apply Z.double_bits_succ).
    rewrite T2, reflect_bits by lia.
    destruct (Z.ltb_spec j 32).
    + rewrite (proj2 (Z.eqb_neq j 32)) by lia. rewrite (proj2 (Z.ltb_lt (j - 1) 32)) by lia. cbn [andb].
      rewrite Z.shiftr_spec by lia. rewrite xorb_false_r. f_equal. lia.
    + cbn [andb]. rewrite xorb_false_l. destruct (Z.eqb_spec j 32) as [->|N].
      * reflexivity.
      * rewrite (proj2 (Z.ltb_ge (j - 1) 32)) by lia. reflexivity.
Qed.

Lemma word_bit_in c b : word c -> word (bit_in c b).
Proof. intros W. apply (shifts_word 1), lxor_range; [lia|exact W|]. destruct b; cbn [Z.b2z]; lia. Qed.

Lemma reflect_bit_in c b : word c -> exists t : bool,
  reflect32 (bit_in c b) = Z.lxor (Z.lxor (2 * reflect32 c) (Z.b2z b * 2 ^ 32)) (Z.b2z t * poly).
Proof.
  intros W. set (d := Z.lxor c (Z.b2z b)).
  assert (D : word d) by (apply lxor_range; [lia|exact W|]; destruct b; cbn [Z.b2z]; lia).
  exists (Z.testbit d 0).
  assert (R : 2 * reflect32 d = Z.lxor (2 * reflect32 c) (Z.b2z b * 2 ^ 32)).
  { subst d. rewrite reflect_lxor. replace (reflect32 (Z.b2z b)) with (Z.b2z b * 2 ^ 31) by (destruct b; reflexivity).
    rewrite !(Z.mul_comm 2). rewrite <- !(Z.shiftl_mul_pow2 _ 1) by lia. rewrite Z.shiftl_lxor. f_equal.
    destruct b; reflexivity. }
  rewrite <- R, <- (reflect_shiftr d D). unfold bit_in. fold d. unfold shift1. rewrite <- Z.bit0_odd.
  destruct (Z.testbit d 0); cbn [Z.b2z].
  - rewrite reflect_lxor. rewrite !Z.mul_1_l, Z.lxor_assoc. reflexivity.
  - rewrite !Z.mul_0_l, !Z.lxor_0_r. reflexivity.
Qed.

Lemma clmul_double q (t : bool) p : 0 <= q -> clmul (2 * q + Z.b2z t) p = Z.lxor (2 * clmul q p) (Z.b2z t * p).
Proof.
  intros Q. destruct q as [|q|q]; [|destruct t; cbn [Z.b2z]|lia].
  - destruct t; cbn; [destruct p; reflexivity|reflexivity].
  - change (2 * Z.pos q + 1) with (Z.pos q~1). cbn [clmul clmul_pos]. rewrite Z.mul_1_l. apply Z.lxor_comm.
  - rewrite Z.add_0_r, Z.mul_0_l, Z.lxor_0_r. change (2 * Z.pos q) with (Z.pos q~0). reflexivity.
Qed.

Lemma poly_step l : forall c a q, word c -> 0 <= q -> 0 <= a ->
  Z.lxor (a * 2 ^ 32) (reflect32 c) = clmul q poly ->
  exists q', 0 <= q' /\ Z.lxor (poly_of l a * 2 ^ 32) (reflect32 (fold_left bit_in l c)) = clmul q' poly.
Proof.
  induction l as [|b l IH]; intros c a q W Q A E; cbn [poly_of fold_left]; [exists q; split; assumption|].
  destruct (reflect_bit_in c b W) as [t R].
  apply (IH _ _ (2 * q + Z.b2z t)).
  - apply word_bit_in, W.
  - destruct t; cbn [Z.b2z]; lia.
  - destruct b; cbn [Z.b2z]; lia.
  - rewrite R, clmul_double by exact Q. rewrite <- E.
    replace ((2 * a + Z.b2z b) * 2 ^ 32) with (Z.lxor (2 * (a * 2 ^ 32)) (Z.b2z b * 2 ^ 32)).
    + rewrite !(Z.mul_comm 2). rewrite <- !(Z.shiftl_mul_pow2 _ 1) by lia. rewrite Z.shiftl_lxor. rewrite !Z.lxor_assoc. f_equal.
      rewrite <- !Z.lxor_assoc. f_equal. rewrite (Z.lxor_comm (Z.b2z b * 2 ^ 32)), Z.lxor_assoc, Z.lxor_nilpotent, Z.lxor_0_r. reflexivity.
    + replace ((2 * a + Z.b2z b) * 2 ^ 32) with (Z.b2z b * 2 ^ 32 + a * 2 ^ Z.of_nat 33) by (change (2 ^ Z.of_nat 33) with (2 * 2 ^ 32); ring).
      rewrite lxor_split by (try (destruct b; cbn [Z.b2z]; change (2 ^ Z.of_nat 33) with (2 * 2 ^ 32)); lia).
      rewrite Z.lxor_comm. f_equal. change (2 ^ Z.of_nat 33) with (2 * 2 ^ 32). ring.
Qed.

Lemma L_C41_polynomial bs : Forall byte bs ->
  0 <= reflect32 (crc 0 bs) < 2 ^ 32 /\
  exists q, Z.lxor (message_poly bs * 2 ^ 32) (reflect32 (crc 0 bs)) = clmul q poly.
Proof.
  intros F. split; [apply reflect_range|]. rewrite (crc_bits bs F). destruct (poly_step (flat_map bits_of bs) 0 0 0) as [q [_ E]].
  - unfold word; lia.
  - lia.
  - lia.
  - reflexivity.
  - exists q. exact E.
Qed.
