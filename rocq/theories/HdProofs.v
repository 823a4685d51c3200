(** The distance between numbers the CRC accepts. *)
From Coq Require Import ZArith List Bool Lia.
From Verif Require Import Outcome CrcModel SpecCrc CrcProofs CrcProofs2 CrcProofs3 CrcProofs4 AesModel SpecAes AesProofs AesProofs2 SpecHd HdMath.
Import ListNotations.
Open Scope Z_scope.
#[local] Opaque shifts.

(** ** The bits of a number *)
Lemma lowest p : exists i m, 0 <= i /\ 0 <= m /\ Zpos p = Z.lxor (2 ^ i) m /\ ones_pos p = 1 + ones m /\ forall j, 0 <= j <= i -> Z.testbit m j = false.
Proof.
  induction p as [p IH|p (i & m & I & M & E & O & B)|].
  - exists 0, (2 * Zpos p). split; [lia|]. split; [lia|]. split; [|split; [reflexivity|]].
    + change (2 ^ 0) with 1. rewrite Z.lxor_comm. rewrite <- Z.add_nocarry_lxor; [reflexivity|]. reflexivity.
    + intros j J. replace j with 0 by lia. apply Z.testbit_even_0.
  - exists (i + 1), (2 * m). split; [lia|]. split; [lia|]. split; [|split].
    + change (Zpos p~0) with (2 * Zpos p). rewrite E. rewrite !(Z.mul_comm 2), <- !Z.shiftl_mul_pow2 with (n := 1) by lia.
      rewrite Z.shiftl_lxor. f_equal. rewrite Z.shiftl_mul_pow2 by lia. rewrite Z.pow_add_r by lia. reflexivity.
    + cbn [ones_pos]. rewrite O. destruct m; reflexivity.
    + intros j J. destruct (Z.eq_dec j 0) as [->|]; [apply Z.testbit_even_0|].
      replace j with (Z.succ (j - 1)) by lia. rewrite Z.testbit_even_succ by lia. apply B. lia.
  - exists 0, 0. repeat split; try lia. intros. apply Z.bits_0.
Qed.
Lemma ones_nonneg n : 0 <= ones n.
Proof.
  assert (H : forall p, 1 <= ones_pos p) by (induction p; cbn [ones_pos]; lia).
  destruct n; cbn [ones]; [lia| |]; specialize (H p); lia.
Qed.
Lemma ones_zero n : ones n = 0 -> n = 0.
Proof.
  assert (H : forall p, 1 <= ones_pos p) by (induction p; cbn [ones_pos]; lia).
  destruct n; cbn [ones]; [reflexivity| |]; specialize (H p); lia.
Qed.
(** the lowest bit, and what is left of a number below 2^k *)
Lemma take n k : 0 < n < 2 ^ k -> 0 <= k -> exists i m, 0 <= i < k /\ 0 <= m < 2 ^ k /\ n = Z.lxor (2 ^ i) m /\ ones n = 1 + ones m /\
  forall j, 0 <= j <= i -> Z.testbit m j = false.
Proof.
  intros [P L] K. destruct n as [|p|p]; try lia. destruct (lowest p) as (i & m & I & M & E & O & B).
  assert (T : forall j, 0 <= j -> Z.testbit (Zpos p) j = xorb (i =? j) (Z.testbit m j)).
  { intros j J. rewrite E, Z.lxor_spec, testbit_pow2 by lia. reflexivity. }
  assert (LOG : Z.log2 (Zpos p) < k) by (apply Z.log2_lt_pow2; lia).
  exists i, m. split.
  - split; [exact I|]. destruct (Z_lt_dec i k) as [|H]; [assumption|]. exfalso.
    pose proof (T i I) as Q. rewrite Z.eqb_refl, (B i ltac:(lia)), Z.bits_above_log2 in Q by lia. discriminate Q.
  - split; [|split; [exact E|split; [exact O|exact B]]]. split; [exact M|].
    destruct (Z.eq_dec m 0) as [->|NZ]; [apply Z.pow_pos_nonneg; lia|]. apply Z.log2_lt_pow2; [lia|].
    destruct (Z_lt_dec (Z.log2 m) k) as [|H]; [assumption|]. exfalso.
    pose proof (Z.bit_log2 m ltac:(lia)) as Q. pose proof (Z.log2_nonneg m). pose proof (T (Z.log2 m) ltac:(lia)) as Q'.
    rewrite Q, Z.bits_above_log2 in Q' by lia. destruct (Z.eqb_spec i (Z.log2 m)) as [Y|Y]; [|discriminate Q'].
    rewrite <- Y, B in Q by lia. discriminate Q.
Qed.
Lemma take_higher m i j m' : 0 <= i -> 0 <= j -> m = Z.lxor (2 ^ j) m' -> (forall l, 0 <= l <= i -> Z.testbit m l = false) ->
  (forall l, 0 <= l <= j -> Z.testbit m' l = false) -> i < j.
Proof.
  intros I J E B B'. destruct (Z_lt_dec i j) as [|H]; [assumption|]. exfalso. specialize (B j ltac:(lia)).
  rewrite E, Z.lxor_spec, testbit_pow2, Z.eqb_refl, B' in B by lia. discriminate B.
Qed.
Lemma ones_parity n : parity n = Z.odd (ones n).
Proof.
  assert (H : forall p, parity_pos p = Z.odd (ones_pos p)).
  { induction p as [p IH|p IH|]; cbn [parity_pos ones_pos]; [|exact IH|reflexivity].
    rewrite IH. rewrite Z.odd_add. destruct (Z.odd (ones_pos p)); reflexivity. }
  destruct n; cbn [parity ones]; [reflexivity|apply H|apply H].
Qed.

(** ** Four places in any order *)
Lemma four (P : Z -> Z -> Z -> Z -> Prop) :
  (forall a b c d, P b a c d -> P a b c d) -> (forall a b c d, P a c b d -> P a b c d) -> (forall a b c d, P a b d c -> P a b c d) ->
  (forall a b c d, a < b -> b < c -> c < d -> P a b c d) ->
  forall a b c d, a <> b -> a <> c -> a <> d -> b <> c -> b <> d -> c <> d -> P a b c d.
Proof.
  intros S1 S2 S3 H.
  assert (H3 : forall a b c d, a < b -> b < c -> d <> a -> d <> b -> d <> c -> P a b c d).
  { intros a b c d AB BC DA DB DC. destruct (Z_lt_dec c d); [apply H; lia|]. apply S3. destruct (Z_lt_dec b d); [apply H; lia|].
    apply S2. destruct (Z_lt_dec a d); [apply H; lia|]. apply S1. apply H; lia. }
  assert (H2 : forall a b c d, a < b -> c <> a -> c <> b -> d <> a -> d <> b -> d <> c -> P a b c d).
  { intros a b c d AB CA CB DA DB DC. destruct (Z_lt_dec b c); [apply H3; lia|]. apply S2. destruct (Z_lt_dec a c); [apply H3; lia|].
    apply S1. apply H3; lia. }
  intros a b c d AB AC AD BC BD CD. destruct (Z_lt_dec a b); [apply H2; lia|]. apply S1. apply H2; lia.
Qed.

Definition wd (a : Z) : Z := shifts (Z.to_nat a) 1.
Lemma wd_word a : word (wd a). Proof. apply shifts_word, word_1. Qed.
Lemma wd_add a b : 0 <= a -> 0 <= b -> wd (a + b) = shifts (Z.to_nat a) (wd b).
Proof. intros A B. unfold wd. rewrite <- shifts_add. f_equal. lia. Qed.
Lemma lxor_4 a b c d : Z.lxor a (Z.lxor b (Z.lxor c d)) = 0 -> Z.lxor b c = Z.lxor a d.
Proof.
  intros H. apply Z.lxor_eq in H. rewrite H, Z.lxor_assoc, (Z.lxor_assoc c d d), Z.lxor_nilpotent, Z.lxor_0_r. reflexivity.
Qed.
Lemma four_places a b c d : a <> b -> a <> c -> a <> d -> b <> c -> b <> d -> c <> d ->
  1 <= a < far + 1 -> 1 <= b < far + 1 -> 1 <= c < far + 1 -> 1 <= d < far + 1 ->
  Z.lxor (wd a) (Z.lxor (wd b) (Z.lxor (wd c) (wd d))) <> 0.
Proof.
  intros AB AC AD BC BD CD.
  apply (four (fun a b c d => 1 <= a < far + 1 -> 1 <= b < far + 1 -> 1 <= c < far + 1 -> 1 <= d < far + 1 ->
    Z.lxor (wd a) (Z.lxor (wd b) (Z.lxor (wd c) (wd d))) <> 0)); try assumption; clear.
  - intros a b c d H A B C D. rewrite <- Z.lxor_assoc, (Z.lxor_comm (wd a)), Z.lxor_assoc. apply H; assumption.
  - intros a b c d H A B C D. rewrite <- (Z.lxor_assoc (wd b)), (Z.lxor_comm (wd b)), Z.lxor_assoc. apply H; assumption.
  - intros a b c d H A B C D. rewrite (Z.lxor_comm (wd c)). apply H; assumption.
  - intros a b c d AB BC CD A B C D E. apply lxor_4 in E.
    replace b with (a + (b - a)) in E by lia. replace c with (a + (c - a)) in E by lia. replace d with (a + (d - a)) in E by lia.
    replace (wd a) with (wd (a + 0)) in E by (f_equal; lia). rewrite !wd_add, <- !shifts_lxor in E by lia.
    apply shifts_inj in E; try (apply lxor_range; [lia|apply wd_word|apply wd_word]).
    revert E. change (wd 0) with 1. apply L_far; lia.
Qed.

(** ** Two accepted numbers *)
Lemma L_C112_distance be be' addr addr' n n' : 0 <= n -> 0 <= n' -> nbytes n <= 659 -> nbytes n' <= 659 ->
  validateCRC be addr n = Ok true -> validateCRC be' addr' n' = Ok true -> n <> n' -> 6 <= ones (Z.lxor n n').
Proof.
  intros P P' B B' V V' NE. set (k := 659%nat).
  pose proof (difference be be' addr addr' n n' k P P' ltac:(lia) ltac:(lia) ltac:(lia) ltac:(lia) V V') as D.
  set (x := Z.lxor n n') in *.
  assert (X0 : 0 <= x) by (apply Z.lxor_nonneg; lia).
  assert (XN : x <> 0) by (intros Q; apply NE, Z.lxor_eq, Q).
  assert (R : forall n, 0 <= n -> nbytes n <= 659 -> n < 2 ^ 5272).
  { intros m M L. pose proof (width_bound m k M ltac:(lia)) as [_ H]. rewrite pow256 in H by lia. exact H. }
  assert (XB : x < 2 ^ 5272).
  { destruct (Z.eq_dec n 0) as [Z0|]; [unfold x; rewrite Z0, Z.lxor_0_l; apply R; assumption|].
    destruct (Z.eq_dec n' 0) as [Z0|]; [unfold x; rewrite Z0, Z.lxor_0_r; apply R; assumption|].
    apply Z.log2_lt_pow2; [lia|]. eapply Z.le_lt_trans; [apply Z.log2_lxor; assumption|].
    apply Z.max_lub_lt; apply Z.log2_lt_pow2; try lia; apply R; assumption. }
  assert (ODD : Z.odd (ones x) = false).
  { rewrite <- ones_parity. destruct (parity x) eqn:Q; [|reflexivity]. exfalso.
    exact (L_C44_parity be addr addr' n n' P P' ltac:(lia) ltac:(lia) V Q
      (proj2 (validate_residue be addr' n' ltac:(lia)) (proj1 (validate_residue be' addr' n' ltac:(lia)) V'))). }
  clearbody x. clear V V' NE n n' P P' B B' R be be' addr addr'.
  destruct (take x 5272 ltac:(lia) ltac:(lia)) as (i1 & m1 & I1 & M1 & E1 & O1 & T1).
  destruct (Z.eq_dec (ones m1) 0) as [Q1|Q1]; [rewrite O1, Q1 in ODD; discriminate ODD|].
  assert (m1 <> 0) by (intros ->; apply Q1; reflexivity).
  destruct (take m1 5272 ltac:(lia) ltac:(lia)) as (i2 & m2 & I2 & M2 & E2 & O2 & T2).
  pose proof (take_higher m1 i1 i2 m2 ltac:(lia) ltac:(lia) E2 T1 T2) as L12.
  assert (PL : forall i, 0 <= i < 5272 -> crc 0 (pad k (2 ^ i)) = wd (place i)).
  { intros i I. rewrite crc_bit by (change (Z.of_nat k) with 659; lia). reflexivity. }
  assert (PR : forall i, 0 <= i < 5272 -> 1 <= place i < far + 1).
  { intros i I. unfold place, far. pose proof (Z.div_mod i 8 ltac:(lia)). pose proof (Z.mod_pos_bound i 8 ltac:(lia)). lia. }
  assert (PD : forall i j, 0 <= i < j -> place i <> place j).
  { intros i j I. unfold place. pose proof (Z.div_mod i 8 ltac:(lia)). pose proof (Z.mod_pos_bound i 8 ltac:(lia)).
    pose proof (Z.div_mod j 8 ltac:(lia)). pose proof (Z.mod_pos_bound j 8 ltac:(lia)). lia. }
  rewrite E1, E2, !crc_pad_lxor, !PL in D by lia.
  destruct (Z.eq_dec (ones m2) 0) as [Q2|Q2].
  { exfalso. apply ones_zero in Q2. subst m2.
    assert (Z0 : crc 0 (pad k 0) = 0) by (vm_compute; reflexivity). rewrite Z0, Z.lxor_0_r in D. apply Z.lxor_eq in D. revert D.
    pose proof (PR i1 ltac:(lia)). pose proof (PR i2 ltac:(lia)). pose proof (PD i1 i2 ltac:(lia)). unfold far in *.
    apply shifts_differ; unfold fsize; lia. }
  assert (m2 <> 0) by (intros ->; apply Q2; reflexivity).
  destruct (take m2 5272 ltac:(lia) ltac:(lia)) as (i3 & m3 & I3 & M3 & E3 & O3 & T3).
  pose proof (take_higher m2 i2 i3 m3 ltac:(lia) ltac:(lia) E3 T2 T3) as L23.
  destruct (Z.eq_dec (ones m3) 0) as [Q3|Q3]; [rewrite O1, O2, O3, Q3 in ODD; discriminate ODD|].
  assert (m3 <> 0) by (intros ->; apply Q3; reflexivity).
  destruct (take m3 5272 ltac:(lia) ltac:(lia)) as (i4 & m4 & I4 & M4 & E4 & O4 & T4).
  pose proof (take_higher m3 i3 i4 m4 ltac:(lia) ltac:(lia) E4 T3 T4) as L34.
  rewrite E3, E4, !crc_pad_lxor, !PL in D by lia.
  destruct (Z.eq_dec (ones m4) 0) as [Q4|Q4].
  { exfalso. apply ones_zero in Q4. subst m4.
    assert (Z0 : crc 0 (pad k 0) = 0) by (vm_compute; reflexivity). rewrite Z0, Z.lxor_0_r in D. revert D.
    apply four_places; try (apply PD; lia); apply PR; lia. }
  pose proof (ones_nonneg m4). destruct (Z.eq_dec (ones m4) 1) as [Q|]; [|lia]. rewrite O1, O2, O3, O4, Q in ODD. discriminate ODD.
Qed.

Lemma L_C112_ciphertexts e iv key c c' m m' : block_cipher (block e) -> big_endian_host e = false -> 0 <= c -> 0 <= c' -> nbytes c = nbytes c' ->
  nbytes c <= 128 -> decryptCRC e iv key c = Ok m -> m <> 0 -> decryptCRC e iv key c' = Ok m' -> m' <> 0 -> c <> c' -> 6 <= ones (Z.lxor c c').
Proof.
  intros B H C C' L T D M D' M' NE.
  destruct (L_C49_sound e iv key c m H D M) as [p [Dp [Vp _]]]. destruct (L_C49_sound e iv key c' m' H D' M') as [p' [Dp' [Vp' _]]].
  destruct (crypt_range e iv c key p B Dp) as [P NP]. destruct (crypt_range e iv c' key p' B Dp') as [P' NP'].
  destruct (key_leading e iv c key p Dp) as [k K].
  assert (V : exists v, iv_block e iv = Ok v).
  { pose proof Dp as X. unfold decrypt, crypt in X. destruct (key_block key); [|discriminate X]. cbn [bind] in X.
    destruct (iv_block e iv) as [v|]; [exists v; reflexivity|discriminate X]. }
  destruct V as [v V].
  pose proof (L_C58 e iv v key k c c' p p' B V K C C' L T Dp Dp') as X. rewrite <- X.
  apply (L_C112_distance false false (heap e) (heap e)); try assumption; try lia.
  intros ->. rewrite Z.lxor_nilpotent in X. symmetry in X. apply Z.lxor_eq in X. contradiction.
Qed.
