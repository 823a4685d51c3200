(** Proofs about the CRC and the byte conversions, continued: whole buffers and integers. *)
From Coq Require Import ZArith List Bool Lia.
From Verif Require Import Outcome CrcTables CrcModel SpecCrc CrcProofs.
Import ListNotations.
Open Scope Z_scope.
Opaque shifts.

Lemma skipn_add {A} : forall q a (l : list A), skipn (q + a) l = skipn a (skipn q l).
Proof. induction q as [|q IH]; intros a l; [reflexivity|]. destruct l; [cbn; rewrite skipn_nil; reflexivity|]. apply IH. Qed.

Lemma slice_add l p a b : 0 <= p -> slice l p (a + b) = slice l p a ++ slice l (p + Z.of_nat a) b.
Proof.
  intros P. unfold slice. rewrite Z2Nat.inj_add, Nat2Z.id by lia. generalize (Z.to_nat p) as q. clear P. intros q.
  rewrite skipn_add.
  generalize (skipn q l) as r. clear. revert b. induction a as [|a IH]; intros b r; [reflexivity|].
  destruct r as [|x r]; cbn; [rewrite firstn_nil; reflexivity|]. f_equal. apply IH.
Qed.

Lemma slice_bytes l p n : Forall byte l -> Forall byte (slice l p n).
Proof.
  intros F. unfold slice. rewrite Forall_forall in *. intros x I. apply F.
  rewrite <- (firstn_skipn (Z.to_nat p) l). apply in_or_app. right.
  rewrite <- (firstn_skipn n (skipn (Z.to_nat p) l)). apply in_or_app. left. exact I.
Qed.

Lemma words_spec be m n : Forall byte (bytes m) -> forall c p, word c ->
  0 <= p -> p + 8 * Z.of_nat n <= Z.of_nat (length (bytes m)) -> (be = false -> (base m + p) mod 4 = 0) ->
  timesM n (sb8_step be m) (c, p) = Ok (crc c (slice (bytes m) p (8 * n)), p + 8 * Z.of_nat n).
Proof.
  intros F. induction n as [|n IH]; intros c p C P L A; cbn [timesM].
  - rewrite Z.mul_0_r, Z.add_0_r. reflexivity.
  - rewrite (sb8_spec be m c p F C P) by (lia || exact A). cbn [bind].
    rewrite IH.
    + rewrite Nat.mul_succ_r, (Nat.add_comm (8 * n)), (slice_add (bytes m) p 8 (8 * n) P), crc_app.
      do 2 f_equal. lia.
    + apply crc_word; [apply slice_bytes; exact F|exact C].
    + lia.
    + lia.
    + intros E. rewrite Z.add_assoc. change 8 with (2 * 4). rewrite Z.mod_add by lia. apply A, E.
Qed.

Lemma slice_0 l n : slice l 0 n = firstn n l.
Proof. reflexivity. Qed.

Lemma L_single m c size : Forall byte (bytes m) -> 0 <= size <= Z.of_nat (length (bytes m)) ->
  singletable_crc32c m c size = Ok (crc c (firstn (Z.to_nat size) (bytes m))).
Proof.
  intros F S. unfold singletable_crc32c. rewrite (bytes_spec _ _ _ ok_single F) by lia. reflexivity.
Qed.

Lemma u32_small z : 0 <= z < 2 ^ 32 -> u32 z = z.
Proof. apply Z.mod_small. Qed.

Lemma L_multi be m c len : Forall byte (bytes m) -> word c -> 4 <= len < 2 ^ 32 -> len <= Z.of_nat (length (bytes m)) ->
  multitable_crc32c be m c len = Ok (crc c (firstn (Z.to_nat len) (bytes m))).
Proof.
  intros F C L B. unfold multitable_crc32c. rewrite (proj2 (Z.eqb_neq len 0)) by lia.
  change 3 with (Z.ones 2). rewrite Z.land_ones by lia. change (2 ^ 2) with 4.
  pose proof (Z.mod_pos_bound (base m) 4 ltac:(lia)) as M.
  set (i := 4 - base m mod 4). assert (I : 1 <= i <= 4) by (subst i; lia).
  assert (A : (base m + i) mod 4 = 0).
  { subst i. rewrite (Z.div_mod (base m) 4) at 1 by lia.
    replace (4 * (base m / 4) + base m mod 4 + (4 - base m mod 4)) with ((base m / 4 + 1) * 4) by ring. apply Z.mod_mul; lia. }
  unfold crc32c_sb8_64_bit. rewrite (u32_small (len - i)) by lia.
  pose proof (Z.mul_div_le (len - i) 8 ltac:(lia)) as D1. pose proof (Z.mul_succ_div_gt (len - i) 8 ltac:(lia)) as D2.
  pose proof (Z.div_pos (len - i) 8 ltac:(lia) ltac:(lia)) as D0.
  set (q := (len - i) / 8) in *. rewrite (u32_small (q * 8)) by lia. rewrite (u32_small (len - i - q * 8)) by lia.
  rewrite (bytes_spec _ m (Z.to_nat i) ok_o32 F) by lia. cbn [bind]. rewrite Z.add_0_l, Z2Nat.id by lia.
  rewrite Z.div_mul by lia.
  rewrite (words_spec be m (Z.to_nat q) F); [|apply crc_word; [apply slice_bytes; exact F|exact C]|lia|lia|intros _; exact A].
  cbn [bind]. rewrite (bytes_spec _ m _ ok_o32 F) by lia. cbn [bind fst].
  replace (Z.to_nat len) with (Z.to_nat i + (8 * Z.to_nat q + Z.to_nat (len - i - q * 8)))%nat by lia.
  rewrite <- (slice_0 (bytes m)). rewrite (slice_add (bytes m) 0 (Z.to_nat i)), (slice_add _ _ (8 * Z.to_nat q)) by lia.
  rewrite !crc_app. replace (0 + Z.of_nat (Z.to_nat i)) with i by lia.
  replace (i + Z.of_nat (8 * Z.to_nat q)) with (i + 8 * Z.of_nat (Z.to_nat q)) by lia. reflexivity.
Qed.

Lemma L_calculate be m c len : Forall byte (bytes m) -> word c -> u32 len <= Z.of_nat (length (bytes m)) ->
  calculate_crc32c be m c len = Ok (crc c (firstn (Z.to_nat (u32 len)) (bytes m))).
Proof.
  intros F C L. unfold calculate_crc32c. pose proof (Z.mod_pos_bound len (2 ^ 32) ltac:(lia)) as U. fold (u32 len) in U.
  destruct (u32 len <? 4) eqn:E.
  - apply L_single; [exact F|lia].
  - apply Z.ltb_ge in E. apply L_multi; [exact F|exact C|lia|lia].
Qed.

(** ** Bytes of an integer *)

Lemma digits_spec : forall k n acc, 0 <= n < 256 ^ Z.of_nat k -> Forall byte acc ->
  (n = 0 -> forall b r, acc = b :: r -> b <> 0) ->
  exists bs, digits k n acc = bs ++ acc /\ Forall byte bs /\ big_endian bs = n /\
    (forall b r, bs ++ acc = b :: r -> b <> 0).
Proof.
  induction k as [|k IH]; intros n acc N F H.
  - exists []. cbn in N. assert (n = 0) by lia. subst. repeat split; [constructor|]. intros b r E. apply (H eq_refl b r E).
  - cbn [digits]. destruct (Z.eqb_spec n 0) as [->|NZ].
    + exists []. repeat split; [constructor|]. intros b r E. apply (H eq_refl b r E).
    + pose proof (Z.mod_pos_bound n 256 ltac:(lia)) as M. pose proof (Z.div_mod n 256 ltac:(lia)) as D.
      rewrite Nat2Z.inj_succ, Z.pow_succ_r in N by lia.
      destruct (IH (n / 256) (n mod 256 :: acc)) as [bs [E [B [V L]]]].
      * split; [apply Z.div_pos; lia|apply Z.div_lt_upper_bound; lia].
      * constructor; assumption.
      * intros Q b r E. injection E as <- <-. lia.
      * exists (bs ++ [n mod 256]). rewrite <- app_assoc. cbn [app]. split; [exact E|]. split; [|split; [|exact L]].
        -- apply Forall_app. split; [exact B|]. constructor; [exact M|constructor].
        -- clear -V D. rewrite <- V in D. revert D. generalize (n mod 256) as x. intros x D. rewrite D. clear D V.
           induction bs as [|b bs IH]; cbn [app big_endian length]; [cbn; ring|].
           rewrite IH, app_length, Nat2Z.inj_add, Z.pow_add_r by lia. cbn [length]. change (256 ^ Z.of_nat 1) with 256. ring.
Qed.

Lemma pow256 k : 0 <= k -> 256 ^ k = 2 ^ (8 * k).
Proof. intros K. rewrite Z.pow_mul_r by lia. reflexivity. Qed.

Lemma L_getRaw n : shortest (getRawMpz n) (Z.abs n).
Proof.
  unfold getRawMpz, shortest. set (a := Z.abs n).
  destruct (digits_spec (Z.to_nat (Z.log2 a + 1)) a []) as [bs [E [B [V L]]]].
  - split; [subst a; lia|]. pose proof (Z.log2_nonneg a). rewrite Z2Nat.id by lia. rewrite pow256 by lia.
    destruct (Z.eq_dec a 0) as [->|NZ]; [reflexivity|].
    eapply Z.lt_le_trans; [apply (Z.log2_spec a); subst a; lia|]. apply Z.pow_le_mono_r; lia.
  - constructor.
  - intros _ b r Q. discriminate.
  - rewrite app_nil_r in *. rewrite E. auto.
Qed.

Lemma be_range bs : Forall byte bs -> 0 <= big_endian bs < 256 ^ Z.of_nat (length bs).
Proof.
  induction 1 as [|b bs B _ IH]; cbn [big_endian length]; [cbn; lia|].
  rewrite Nat2Z.inj_succ, Z.pow_succ_r by lia. unfold byte in B. nia.
Qed.

Lemma be_app l l' : big_endian (l ++ l') = big_endian l * 256 ^ Z.of_nat (length l') + big_endian l'.
Proof.
  induction l as [|b l IH]; cbn [app big_endian length]; [ring|].
  rewrite IH, app_length, Nat2Z.inj_add, Z.pow_add_r by lia. ring.
Qed.

Lemma setRaw_be bs : setRawMpz bs = big_endian bs.
Proof.
  unfold setRawMpz. cut (forall a, fold_left (fun a b => a * 256 + b) bs a = a * 256 ^ Z.of_nat (length bs) + big_endian bs).
  { intros H. rewrite H. ring. }
  induction bs as [|b bs IH]; intros a; cbn [fold_left big_endian length]; [cbn; ring|].
  rewrite IH, Nat2Z.inj_succ, Z.pow_succ_r by lia. ring.
Qed.

(** the shortest form is unique *)
Lemma be_inj : forall l l', length l = length l' -> Forall byte l -> Forall byte l' -> big_endian l = big_endian l' -> l = l'.
Proof.
  induction l as [|b l IH]; intros [|b' l'] L F F' E; cbn in L; try discriminate; [reflexivity|].
  injection L as L. inversion F as [|? ? B F1]; inversion F' as [|? ? B' F1']; subst. cbn [big_endian] in E. rewrite <- L in E.
  pose proof (be_range l F1) as R. pose proof (be_range l' F1') as R'. rewrite <- L in R'.
  assert (b = b') by nia. subst b'. f_equal. apply IH; auto. lia.
Qed.

Lemma shortest_bound b l n : shortest (b :: l) n -> 256 ^ Z.of_nat (length l) <= n < 256 ^ Z.of_nat (S (length l)).
Proof.
  intros [F [V L]]. specialize (L b l eq_refl). pose proof (be_range _ F) as R. cbn [length] in R. rewrite V in R.
  inversion F as [|? ? B F1]; subst. pose proof (be_range _ F1) as R1. split; [|lia]. cbn [big_endian]. unfold byte in B. nia.
Qed.

Lemma shortest_unique l l' n : shortest l n -> shortest l' n -> l = l'.
Proof.
  intros H0 H1. assert (Len : length l = length l').
  { destruct l as [|b l], l' as [|b' l']; [reflexivity| | |].
    - destruct H0 as [_ [V _]]. pose proof (shortest_bound _ _ _ H1). cbn in V. subst n.
      pose proof (Z.pow_pos_nonneg 256 (Z.of_nat (length l'))). lia.
    - destruct H1 as [_ [V _]]. pose proof (shortest_bound _ _ _ H0). cbn in V. subst n.
      pose proof (Z.pow_pos_nonneg 256 (Z.of_nat (length l))). lia.
    - pose proof (shortest_bound _ _ _ H0) as B. pose proof (shortest_bound _ _ _ H1) as B'. cbn [length]. f_equal.
      destruct (Nat.lt_trichotomy (length l) (length l')) as [H|[H|H]]; [|exact H|].
      + assert (256 ^ Z.of_nat (S (length l)) <= 256 ^ Z.of_nat (length l')) by (apply Z.pow_le_mono_r; lia). lia.
      + assert (256 ^ Z.of_nat (S (length l')) <= 256 ^ Z.of_nat (length l)) by (apply Z.pow_le_mono_r; lia). lia. }
  destruct H0 as [F [V _]], H1 as [F' [V' _]]. apply be_inj; auto. congruence.
Qed.

Lemma getRaw_unique bs n : shortest bs n -> getRawMpz n = bs.
Proof.
  intros S. apply (shortest_unique _ _ n); [|exact S]. pose proof (L_getRaw n) as G.
  assert (0 <= n) by (destruct S as [F [<- _]]; apply be_range; exact F). rewrite Z.abs_eq in G by lia. exact G.
Qed.

Lemma getRaw_abs n : getRawMpz (Z.abs n) = getRawMpz n.
Proof. unfold getRawMpz. replace (Z.abs (Z.abs n)) with (Z.abs n) by lia. reflexivity. Qed.

Lemma getRaw_length n : Z.of_nat (length (getRawMpz n)) = nbytes n.
Proof.
  unfold nbytes. pose proof (L_getRaw n) as G. destruct (Z.eqb_spec n 0) as [->|NZ]; [reflexivity|].
  destruct (getRawMpz n) as [|b l] eqn:E.
  - destruct G as [_ [V _]]. cbn in V. lia.
  - apply shortest_bound in G. cbn [length]. rewrite Nat2Z.inj_succ. rewrite !pow256 in G by lia.
    destruct G as [G1 G2]. apply Z.log2_le_pow2 in G1; [|lia]. apply Z.log2_lt_pow2 in G2; [|lia].
    rewrite Nat2Z.inj_succ in G2.
    assert (Z.log2 (Z.abs n) / 8 = Z.of_nat (length l)); [|lia].
    symmetry. apply (Z.div_unique_pos (Z.log2 (Z.abs n)) 8 _ (Z.log2 (Z.abs n) - 8 * Z.of_nat (length l))); lia.
Qed.

Lemma getRaw_nil n : getRawMpz n = [] <-> n = 0.
Proof.
  split; [|intros ->; reflexivity]. intros E. pose proof (L_getRaw n) as [_ [V _]]. rewrite E in V. cbn in V. lia.
Qed.

Lemma L_roundtrip n : setRawMpz (getRawMpz n) = Z.abs n.
Proof. rewrite setRaw_be. apply (L_getRaw n). Qed.

Lemma L_import_zeros k bs : setRawMpz (repeat 0 k ++ bs) = setRawMpz bs.
Proof. rewrite !setRaw_be. induction k as [|k IH]; [reflexivity|]. cbn [repeat app big_endian]. rewrite IH. ring. Qed.

Lemma L_reexport bs : Forall byte bs -> exists k, bs = repeat 0 k ++ getRawMpz (setRawMpz bs).
Proof.
  intros F. rewrite setRaw_be. induction F as [|b bs B F IH]; [exists O; reflexivity|].
  destruct (Z.eq_dec b 0) as [->|NZ].
  - destruct IH as [k IH]. exists (S k). cbn [repeat app big_endian]. rewrite Z.mul_0_l, Z.add_0_l. f_equal. exact IH.
  - exists O. symmetry. apply getRaw_unique. split; [constructor; assumption|]. split; [reflexivity|].
    intros b' r E. injection E as <- <-. exact NZ.
Qed.

Lemma L_C41_calculate be m c len : Forall byte (bytes m) -> word c -> 0 <= len < 2 ^ 32 ->
  len <= Z.of_nat (length (bytes m)) ->
  calculate_crc32c be m c len = Ok (crc c (firstn (Z.to_nat len) (bytes m))).
Proof.
  intros F C L B. rewrite L_calculate by (try rewrite u32_small; assumption). rewrite u32_small by exact L. reflexivity.
Qed.
