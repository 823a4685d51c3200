(** Proofs about changing a ciphertext with a check without knowing the key. *)
From Coq Require Import ZArith List Bool Lia.
From Verif Require Import Outcome CrcModel SpecCrc CrcProofs CrcProofs2 CrcProofs3 CrcProofs4 AesModel SpecAes AesProofs.
Import ListNotations.
Open Scope Z_scope.
Opaque shifts.

(** what appendCRC returns when the block is large enough *)
Definition checked (be : bool) (n : Z) : Z := big_endian (getRawMpz n ++ obj32 be (crcl (getRawMpz n))).

Lemma crc_raw_lxor a b : 0 <= a -> 0 <= b ->
  crc 0 (getRawMpz (Z.lxor a b)) = Z.lxor (crc 0 (getRawMpz a)) (crc 0 (getRawMpz b)).
Proof.
  intros A B. set (k := Z.to_nat (Z.max (nbytes a) (nbytes b))).
  pose proof (nbytes_nonneg a). pose proof (nbytes_nonneg b).
  assert (KA : 0 <= a < 256 ^ Z.of_nat k) by (apply width_bound; subst k; lia).
  assert (KB : 0 <= b < 256 ^ Z.of_nat k) by (apply width_bound; subst k; lia).
  assert (KX : 0 <= Z.lxor a b < 256 ^ Z.of_nat k).
  { rewrite pow256 in * by lia. apply lxor_range; lia. }
  rewrite <- (pad_raw k a KA), <- (pad_raw k b KB), <- (pad_raw k _ KX). apply crc_pad_lxor.
Qed.

Lemma land_lxor255 a b : Z.land (Z.lxor a b) 255 = Z.lxor (Z.land a 255) (Z.land b 255).
Proof.
  apply Z.bits_inj'. intros i I. rewrite !Z.lxor_spec, !Z.land_spec, Z.lxor_spec.
  destruct (Z.testbit 255 i); [rewrite !andb_true_r|rewrite !andb_false_r]; reflexivity.
Qed.

Lemma obj32_lxor be a b : obj32 be (Z.lxor a b) = xor_bytes (obj32 be a) (obj32 be b).
Proof. unfold obj32. rewrite !Z.shiftr_lxor, !land_lxor255. destruct be; reflexivity. Qed.

Lemma obj_be_lxor be a b : big_endian (obj32 be (Z.lxor a b)) = Z.lxor (big_endian (obj32 be a)) (big_endian (obj32 be b)).
Proof.
  rewrite obj32_lxor. symmetry. apply be_xor; [rewrite !obj32_length; reflexivity|apply obj32_bytes|apply obj32_bytes].
Qed.

Lemma obj_be_range be a : 0 <= big_endian (obj32 be a) < 2 ^ Z.of_nat 32.
Proof. pose proof (be_range _ (obj32_bytes be a)) as H. rewrite obj32_length in H. exact H. Qed.

Lemma checked_eq be n : 0 <= n -> nbytes n < 2 ^ 32 ->
  checked be n = Z.lxor (big_endian (obj32 be (crc 0 (getRawMpz n)))) (n * 2 ^ Z.of_nat 32).
Proof.
  intros N S. unfold checked. rewrite be_app, obj32_length. rewrite crcl_small by (rewrite getRaw_length; exact S).
  pose proof (L_getRaw n) as [_ [V _]]. rewrite Z.abs_eq in V by exact N. rewrite V.
  rewrite <- lxor_split by (apply obj_be_range || exact N). change (256 ^ Z.of_nat 4) with (2 ^ Z.of_nat 32). ring.
Qed.

Lemma nbytes_lxor a b : 0 <= a -> 0 <= b -> nbytes (Z.lxor a b) <= Z.max (nbytes a) (nbytes b).
Proof.
  intros A B. set (k := Z.to_nat (Z.max (nbytes a) (nbytes b))).
  pose proof (nbytes_nonneg a). pose proof (nbytes_nonneg b).
  assert (KA : 0 <= a < 256 ^ Z.of_nat k) by (apply width_bound; subst k; lia).
  assert (KB : 0 <= b < 256 ^ Z.of_nat k) by (apply width_bound; subst k; lia).
  rewrite pow256 in * by lia. pose proof (lxor_range (8 * Z.of_nat k) a b ltac:(lia) KA KB) as R.
  assert (E : Z.max (nbytes a) (nbytes b) = Z.of_nat k) by (subst k; lia). rewrite E.
  unfold nbytes. destruct (Z.eqb_spec (Z.lxor a b) 0); [lia|]. rewrite Z.abs_eq by lia.
  assert (Z.log2 (Z.lxor a b) < 8 * Z.of_nat k) by (apply Z.log2_lt_pow2; lia).
  pose proof (Z.div_lt_upper_bound (Z.log2 (Z.lxor a b)) 8 (Z.of_nat k) ltac:(lia) ltac:(lia)). lia.
Qed.

Lemma checked_lxor be a b : 0 <= a -> 0 <= b -> nbytes a < 2 ^ 32 -> nbytes b < 2 ^ 32 ->
  checked be (Z.lxor a b) = Z.lxor (checked be a) (checked be b).
Proof.
  intros A B SA SB. pose proof (nbytes_lxor a b A B).
  rewrite !checked_eq by (try apply Z.lxor_nonneg; lia). rewrite crc_raw_lxor, obj_be_lxor by assumption.
  rewrite lxor_swap. f_equal. rewrite <- !Z.shiftl_mul_pow2 by lia. apply Z.shiftl_lxor.
Qed.

Lemma append_checked be room addr n r : 0 <= n -> appendCRC be room addr n = Ok r ->
  0 < n /\ r = checked be n /\ nbytes n + 4 <= room (nbytes n).
Proof.
  intros N E. destruct (Z.eq_dec n 0) as [->|NZ]; [rewrite append_0 in E; discriminate E|].
  rewrite append_eq in E by exact NZ. destruct (Z.ltb_spec (room (nbytes n)) (nbytes n + 4)); [discriminate E|].
  apply Ok_inj in E. split; [lia|]. split; [symmetry; exact E|lia].
Qed.

Lemma checked_append be room addr n : 0 < n -> nbytes n + 4 <= room (nbytes n) -> appendCRC be room addr n = Ok (checked be n).
Proof. intros N R. rewrite append_eq by lia. rewrite (proj2 (Z.ltb_ge _ _)) by lia. reflexivity. Qed.

Lemma L_C72_linear be room addr a b x y z : 0 <= a -> 0 <= b -> nbytes a < 2 ^ 32 -> nbytes b < 2 ^ 32 ->
  appendCRC be room addr a = Ok x -> appendCRC be room addr b = Ok y -> appendCRC be room addr (Z.lxor a b) = Ok z ->
  z = Z.lxor x y.
Proof.
  intros A B SA SB X Y Z0. apply append_checked in X; [|exact A]. apply append_checked in Y; [|exact B].
  apply append_checked in Z0; [|apply Z.lxor_nonneg; lia].
  destruct X as [_ [-> _]], Y as [_ [-> _]], Z0 as [_ [-> _]]. apply checked_lxor; assumption.
Qed.

Lemma checked_nonneg be n : 0 <= checked be n.
Proof. apply be_range, Forall_app. split; [apply raw_bytes|apply obj32_bytes]. Qed.

Lemma key_leading e iv text key c : encrypt e iv text key = Ok c -> exists k, leading16 (getRawMpz key) k.
Proof.
  intros E. exists (firstn 16 (getRawMpz key)). apply leading_key. destruct (Z_lt_dec (nbytes key) 16) as [H|H]; [|lia].
  unfold encrypt, crypt in E. rewrite key_bad in E by exact H. discriminate E.
Qed.

Lemma L_C72_forge e iv v room' addr' key m d c t : block_cipher (block e) -> iv_block e iv = Ok v ->
  0 < m -> 0 < d -> nbytes (Z.lxor m d) = nbytes m -> nbytes m <= 124 ->
  encryptCRC e iv key m = Ok c -> appendCRC (big_endian_host e) room' addr' d = Ok t ->
  encryptCRC e iv key (Z.lxor m d) = Ok (Z.lxor c t).
Proof.
  intros B V M D N T E A. set (x := Z.lxor m d) in *.
  assert (X0 : 0 <= x) by (apply Z.lxor_nonneg; lia).
  assert (MP : 0 < nbytes m).
  { rewrite <- getRaw_length. destruct (getRawMpz m) eqn:G; [apply getRaw_nil in G; lia|cbn [length]; lia]. }
  assert (X : 0 < x). { destruct (Z.eq_dec x 0) as [Q|]; [|lia]. rewrite Q in N. cbn in N. lia. }
  assert (DN : nbytes d <= 124).
  { assert (Q : d = Z.lxor x m) by (subst x; rewrite (Z.lxor_comm m d), Z.lxor_assoc, Z.lxor_nilpotent, Z.lxor_0_r; reflexivity).
    rewrite Q. pose proof (nbytes_lxor x m X0 ltac:(lia)). lia. }
  unfold encryptCRC in E. apply bind_Ok in E. destruct E as [am [Am Em]].
  apply append_checked in Am; [|lia]. destruct Am as [_ [-> R]].
  apply append_checked in A; [|lia]. destruct A as [_ [-> _]].
  unfold encryptCRC. rewrite checked_append by (rewrite ?N; assumption). cbn [bind].
  destruct (key_leading _ _ _ _ _ Em) as [k K].
  assert (L : forall n, 0 < n -> nbytes (checked (big_endian_host e) n) = nbytes n + 4) by (intros n H; apply nbytes_append, H).
  destruct (L_C46_ctr e iv v (checked (big_endian_host e) x) key k B V K) as [out [_ [_ [Ex _]]]]; [rewrite L by exact X; lia|].
  rewrite Ex. f_equal.
  pose proof (L_C58 e iv v key k _ _ _ _ B V K (checked_nonneg _ m) (checked_nonneg _ x)
    ltac:(rewrite !L by assumption; lia) ltac:(rewrite L by exact M; lia) Em Ex) as H.
  unfold x in H at 1. rewrite checked_lxor in H by lia. rewrite <- Z.lxor_assoc, Z.lxor_nilpotent, Z.lxor_0_l in H.
  rewrite <- H. rewrite <- Z.lxor_assoc, Z.lxor_nilpotent, Z.lxor_0_l. reflexivity.
Qed.

(** a shorter number does not change the leading byte *)
Lemma lxor_top m d : 0 < m -> 0 <= d -> nbytes d < nbytes m ->
  nbytes (Z.lxor m d) = nbytes m /\ Z.lxor m d / 256 ^ (nbytes m - 1) = m / 256 ^ (nbytes m - 1).
Proof.
  intros M D S. pose proof (nbytes_nonneg d).
  assert (Q : Z.lxor m d / 256 ^ (nbytes m - 1) = m / 256 ^ (nbytes m - 1)).
  { rewrite pow256 by lia. rewrite <- !Z.shiftr_div_pow2 by lia. rewrite Z.shiftr_lxor.
    rewrite (Z.shiftr_div_pow2 d) by lia. rewrite Z.div_small, Z.lxor_0_r; [reflexivity|].
    rewrite <- pow256 by lia. replace (nbytes m - 1) with (Z.of_nat (Z.to_nat (nbytes m - 1))) by lia.
    apply width_bound; lia. }
  split; [|exact Q]. pose proof (nbytes_lxor m d ltac:(lia) D) as U.
  destruct (top_byte m M) as [_ [_ NZ]]. rewrite <- Q in NZ.
  destruct (Z_lt_dec (nbytes (Z.lxor m d)) (nbytes m)) as [H1|H1]; [|lia]. exfalso. apply NZ.
  apply Z.div_small. replace (nbytes m - 1) with (Z.of_nat (Z.to_nat (nbytes m - 1))) by lia.
  apply width_bound; [apply Z.lxor_nonneg|]; lia.
Qed.

(** a number that passes the check and loses it to give [m] is the one appendCRC makes of [m] *)
Lemma validated_checked addr p m : 0 <= p -> nbytes p <= 128 -> 0 < m -> validateCRC false addr p = Ok true -> removeCRC p = Ok m ->
  p = checked false m.
Proof.
  intros P N M V R. pose proof (L_C44_exact (fun len => len + 4) addr addr p ltac:(intros; cbv beta; lia)) as X.
  destruct (proj1 X V) as [m' [M' A]]. rewrite Z.abs_eq in A by exact P.
  assert (N' : nbytes m' + 4 < 2 ^ 64).
  { pose proof A as A'. apply append_checked in A'; [|lia]. destruct A' as [_ [-> _]].
    unfold checked in N. rewrite nbytes_append in N by exact M'. lia. }
  destruct (L_C42 (fun len => len + 4) addr addr m' M' N' ltac:(cbv beta; lia)) as [r [A2 [_ R2]]].
  rewrite A in A2. apply Ok_inj in A2. subst r. rewrite R in R2. apply Ok_inj in R2. subst m'.
  apply append_checked in A; [|lia]. apply A.
Qed.

Lemma L_C72_accepted e iv v room' addr' key m d c t : block_cipher (block e) -> iv_block e iv = Ok v ->
  big_endian_host e = false -> 0 < m -> 0 < d -> nbytes d < nbytes m -> nbytes m <= 124 ->
  encryptCRC e iv key m = Ok c -> decryptCRC e iv key c = Ok m -> appendCRC (big_endian_host e) room' addr' d = Ok t ->
  decryptCRC e iv key (Z.lxor c t) = Ok (Z.lxor m d).
Proof.
  intros B V H M D S T E DC A. destruct (lxor_top m d M ltac:(lia) S) as [N TOP].
  pose proof (L_C72_forge e iv v room' addr' key m d c t B V M D N T E A) as EX.
  pose proof E as E0. unfold encryptCRC in E. apply bind_Ok in E. destruct E as [am [Am Em]].
  apply append_checked in Am; [|lia]. destruct Am as [_ [-> R]]. rewrite H in Em.
  destruct (key_leading _ _ _ _ _ Em) as [k K].
  assert (NA : nbytes (checked false m) = nbytes m + 4) by (apply nbytes_append, M).
  assert (CP : 0 < checked false m).
  { pose proof (checked_nonneg false m). pose proof (nbytes_nonneg m). destruct (Z.eq_dec (checked false m) 0) as [Q|]; [|lia].
    rewrite Q in NA. cbn in NA. lia. }
  destruct (L_C49_sound e iv key c m H DC ltac:(lia)) as [p [Dp [Vp Rp]]].
  destruct (crypt_range e iv c key p B Dp) as [P NP].
  pose proof (validated_checked _ p m P NP M Vp Rp) as Q. subst p.
  destruct (L_C46 e iv v (checked false m) key k B V K CP ltac:(lia)) as [c' [Ec' I]].
  rewrite Em in Ec'. apply Ok_inj in Ec'. subst c'. apply I in Dp.
  assert (TA : checked false m / 256 ^ (nbytes (checked false m) - 1) = m / 256 ^ (nbytes m - 1)) by (apply (top_append false m M)).
  assert (X : 0 < Z.lxor m d).
  { assert (0 <= Z.lxor m d) by (apply Z.lxor_nonneg; lia). destruct (Z.eq_dec (Z.lxor m d) 0) as [Q|]; [|lia].
    rewrite Q in N. pose proof (nbytes_nonneg d). cbn in N. lia. }
  destruct (L_C49 e iv v (Z.lxor m d) key k B V K H X ltac:(lia) ltac:(rewrite N; exact R)) as [c'' [E'' D'']].
  { unfold first_byte in *. rewrite N, TOP. rewrite TA in Dp. exact Dp. }
  rewrite EX in E''. apply Ok_inj in E''. rewrite E''. exact D''.
Qed.

(** The exact condition of the round trip with a check. *)
Lemma L_C49_exact e iv key m : block_cipher (block e) -> big_endian_host e = false -> 0 <= m -> nbytes m <= 124 ->
  (do c <- encryptCRC e iv key m; decryptCRC e iv key c) = Ok m <->
  0 < m /\ nbytes m + 4 <= room e (nbytes m) /\
  exists v k, iv_block e iv = Ok v /\ leading16 (getRawMpz key) k /\
    Z.lxor (m / 256 ^ (nbytes m - 1)) (stream_byte (block e) k v 0) <> 0.
Proof.
  intros B H M T. split.
  - intros E. apply bind_Ok in E. destruct E as [c [Ec Ed]].
    unfold encryptCRC in Ec. apply bind_Ok in Ec. destruct Ec as [am [Am Em]].
    assert (NZ : m <> 0) by (intros ->; vm_compute in Am; discriminate Am).
    assert (M' : 0 < m) by lia.
    apply append_checked in Am; [|lia]. destruct Am as [_ [-> R]]. rewrite H in Em.
    split; [exact M'|]. split; [exact R|].
    destruct (key_leading _ _ _ _ _ Em) as [k K].
    assert (V : exists v, iv_block e iv = Ok v).
    { unfold encrypt, crypt in Em. apply bind_Ok in Em. destruct Em as [kb [_ Em]]. apply bind_Ok in Em. destruct Em as [v [Ev _]]. exists v; exact Ev. }
    destruct V as [v V]. exists v, k. split; [exact V|]. split; [exact K|].
    assert (NA : nbytes (checked false m) = nbytes m + 4) by (apply nbytes_append, M').
    assert (CP : 0 < checked false m).
    { pose proof (checked_nonneg false m). pose proof (nbytes_nonneg m). destruct (Z.eq_dec (checked false m) 0) as [Q|]; [|lia].
      rewrite Q in NA. cbn in NA. lia. }
    destruct (L_C49_sound e iv key c m H Ed ltac:(lia)) as [p [Dp [Vp Rp]]].
    destruct (crypt_range e iv c key p B Dp) as [P NP].
    pose proof (validated_checked _ p m P NP M' Vp Rp) as Q. subst p.
    destruct (L_C46 e iv v (checked false m) key k B V K CP ltac:(lia)) as [c' [Ec' I]].
    rewrite Em in Ec'. apply Ok_inj in Ec'. subst c'. apply I in Dp.
    assert (TA : checked false m / 256 ^ (nbytes (checked false m) - 1) = m / 256 ^ (nbytes m - 1)) by (apply (top_append false m M')).
    unfold first_byte in Dp. rewrite TA in Dp. exact Dp.
  - intros [M' [R [v [k [V [K NZ]]]]]]. destruct (L_C49 e iv v m key k B V K H M' T R NZ) as [c [-> E]]. exact E.
Qed.
