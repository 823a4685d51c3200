(** Proofs about counter mode, AES::encrypt/decrypt and the CRC variants. *)
From Coq Require Import ZArith List Bool Lia.
From Verif Require Import Outcome CrcModel SpecCrc CrcProofs CrcProofs2 CrcProofs3 CrcProofs4 AesModel SpecAes.
Import ListNotations.
Open Scope Z_scope.
Opaque shifts.

Lemma flat_map_nth (g : nat -> list Z) : (forall i, length (g i) = 16%nat) ->
  forall n s i, (i < 16 * n)%nat -> nth i (flat_map g (seq s n)) 0 = nth (i mod 16) (g (s + i / 16)%nat) 0.
Proof.
  intros G n. induction n as [|n IH]; intros s i I; [lia|]. cbn [seq flat_map].
  destruct (Nat.lt_ge_cases i 16) as [H|H].
  - rewrite app_nth1 by (rewrite G; exact H). rewrite Nat.mod_small, Nat.div_small by exact H. rewrite Nat.add_0_r. reflexivity.
  - rewrite app_nth2 by (rewrite G; exact H). rewrite G, IH by lia.
    replace i with (i - 16 + 1 * 16)%nat at 3 4 by lia. rewrite Nat.mod_add, Nat.div_add by lia. f_equal. f_equal. lia.
Qed.

Lemma flat_map_length16 (g : nat -> list Z) : (forall i, length (g i) = 16%nat) ->
  forall n s, length (flat_map g (seq s n)) = (16 * n)%nat.
Proof. intros G n. induction n as [|n IH]; intros s; [reflexivity|]. cbn [seq flat_map]. rewrite app_length, G, IH. lia. Qed.

Lemma xor_nth : forall a b i, (i < length a)%nat -> (length a <= length b)%nat -> nth i (xor_bytes a b) 0 = Z.lxor (nth i a 0) (nth i b 0).
Proof.
  induction a as [|x a IH]; intros b i I L; cbn in I; [lia|]. destruct b as [|y b]; cbn in L; [lia|].
  destruct i as [|i]; [reflexivity|]. cbn. apply IH; lia.
Qed.
Lemma xor_length : forall a b, (length a <= length b)%nat -> length (xor_bytes a b) = length a.
Proof. induction a as [|x a IH]; intros [|y b] L; cbn in *; try lia. rewrite IH; lia. Qed.

Lemma enough (n : nat) : (n <= 16 * (n / 16 + 1))%nat.
Proof. pose proof (Nat.div_mod n 16 ltac:(lia)). pose proof (Nat.mod_upper_bound n 16 ltac:(lia)). lia. Qed.

Lemma ctr_spec e key iv inp : block_cipher (block e) -> ctr_of (block e) key iv inp (ctr e key iv inp).
Proof.
  intros B. set (g := fun i => block e key (block_of (setRawMpz iv + Z.of_nat i))).
  assert (G : forall i, length (g i) = 16%nat) by (intros; apply B).
  pose proof (enough (length inp)) as E.
  unfold ctr, stream. fold g. split.
  - apply xor_length. rewrite flat_map_length16 by exact G. exact E.
  - intros i I. rewrite xor_nth by (try rewrite flat_map_length16 by exact G; lia). f_equal.
    rewrite flat_map_nth by (exact G || lia). unfold stream_byte, g. rewrite setRaw_be. reflexivity.
Qed.

Lemma list_ext : forall a b : list Z, length a = length b -> (forall i, (i < length a)%nat -> nth i a 0 = nth i b 0) -> a = b.
Proof.
  induction a as [|x a IH]; intros [|y b] L H; try discriminate L; [reflexivity|]. f_equal.
  - apply (H 0%nat). cbn. lia.
  - apply IH; [injection L as L; exact L|]. intros i I. apply (H (S i)). cbn. lia.
Qed.

Lemma ctr_of_unique f key iv inp o o' : ctr_of f key iv inp o -> ctr_of f key iv inp o' -> o = o'.
Proof. intros [L H] [L' H']. apply list_ext; [congruence|]. intros i I. rewrite L in I. rewrite H, H' by exact I. reflexivity. Qed.

Lemma ctr_of_sym f key iv inp o : ctr_of f key iv inp o -> ctr_of f key iv o inp.
Proof.
  intros [L H]. split; [congruence|]. intros i I. rewrite L in I. rewrite H by exact I.
  rewrite Z.lxor_assoc, Z.lxor_nilpotent, Z.lxor_0_r. reflexivity.
Qed.

Lemma ctr_involutive e key iv inp : block_cipher (block e) -> ctr e key iv (ctr e key iv inp) = inp.
Proof.
  intros B. pose proof (ctr_spec e key iv inp B) as S. apply ctr_of_sym in S.
  apply (ctr_of_unique (block e) key iv (ctr e key iv inp)); [apply ctr_spec, B|exact S].
Qed.

Lemma stream_byte_byte f key iv i : block_cipher f -> byte (stream_byte f key iv i).
Proof. intros B. apply nth_byte, B. Qed.

Lemma byte_lxor a b : byte a -> byte b -> byte (Z.lxor a b).
Proof. apply (lxor_range 8). lia. Qed.

Lemma ctr_bytes e key iv inp : block_cipher (block e) -> Forall byte inp -> Forall byte (ctr e key iv inp).
Proof.
  intros B F. destruct (ctr_spec e key iv inp B) as [L H]. apply Forall_forall. intros x I.
  apply (In_nth _ _ 0) in I. destruct I as [i [I <-]]. rewrite L in I. rewrite H by exact I.
  apply byte_lxor; [apply nth_byte, F|apply stream_byte_byte, B].
Qed.

(** ** crypt *)

Lemma key_ok key : 16 <= nbytes key -> key_block key = Ok (firstn 16 (getRawMpz key)).
Proof.
  intros K. unfold key_block. rewrite getRaw_length. rewrite (proj2 (Z.eqb_neq _ _)), (proj2 (Z.ltb_ge _ _)) by lia. reflexivity.
Qed.

Lemma key_bad key : nbytes key < 16 -> key_block key = Err (if key =? 0 then NullDeref else OutOfBounds).
Proof.
  intros K. unfold key_block. rewrite getRaw_length. destruct (Z.eqb_spec key 0) as [->|N]; [reflexivity|].
  rewrite (proj2 (Z.eqb_neq (nbytes key) 0)); [rewrite (proj2 (Z.ltb_lt _ _)) by lia; reflexivity|].
  rewrite <- getRaw_length. intros E. apply N, getRaw_nil. destruct (getRawMpz key); [reflexivity|cbn in E; lia].
Qed.

Lemma nbytes_120 key : Z.abs key < 2 ^ 120 <-> nbytes key < 16.
Proof.
  unfold nbytes. destruct (Z.eqb_spec key 0) as [->|NZ]; [cbn; lia|].
  pose proof (Z.div_mod (Z.log2 (Z.abs key)) 8 ltac:(lia)). pose proof (Z.mod_pos_bound (Z.log2 (Z.abs key)) 8 ltac:(lia)).
  rewrite (Z.log2_lt_pow2 (Z.abs key) 120) by lia. lia.
Qed.

Lemma s32_small z : 0 <= z < 2 ^ 31 -> s32 z = z.
Proof. intros H. unfold s32. rewrite Z.mod_small by lia. rewrite (proj2 (Z.ltb_lt _ _)) by lia. reflexivity. Qed.

Lemma crypt_ok e iv v text key : iv_block e iv = Ok v -> 16 <= nbytes key -> nbytes text <= 128 ->
  crypt e iv text key = Ok (big_endian (ctr e (firstn 16 (getRawMpz key)) v (getRawMpz text))).
Proof.
  intros V K T. unfold crypt. rewrite key_ok by exact K. cbn [bind]. rewrite V. cbn [bind].
  rewrite getRaw_length. pose proof (nbytes_nonneg text). rewrite s32_small by lia.
  rewrite (proj2 (Z.ltb_ge (nbytes text) 0)), (proj2 (Z.ltb_ge 128 (nbytes text))) by lia.
  rewrite <- getRaw_length, Nat2Z.id, firstn_all, setRaw_be. reflexivity.
Qed.

Lemma leading_key key : 16 <= nbytes key -> leading16 (getRawMpz key) (firstn 16 (getRawMpz key)).
Proof.
  intros K. rewrite <- getRaw_length in K. split; [rewrite firstn_length; lia|].
  exists (skipn 16 (getRawMpz key)). symmetry. apply firstn_skipn.
Qed.

Lemma leading_unique l k k' : leading16 l k -> leading16 l k' -> k = k'.
Proof.
  intros [L [r E0]] [L' [r' E]]. rewrite E0 in E. clear E0 l.
  assert (H : firstn (length k) (k ++ r) = firstn (length k) (k' ++ r')) by (rewrite E; reflexivity).
  rewrite firstn_app, firstn_all, Nat.sub_diag in H. cbn [firstn] in H. rewrite app_nil_r in H. rewrite H, L, <- L'.
  rewrite firstn_app, firstn_all, Nat.sub_diag. cbn [firstn]. apply app_nil_r.
Qed.

(** C46: encryption is counter mode *)
Lemma L_C46_ctr e iv v text key k : block_cipher (block e) -> iv_block e iv = Ok v -> leading16 (getRawMpz key) k ->
  nbytes text <= 128 ->
  exists out, Forall byte out /\ ctr_of (block e) k v (getRawMpz text) out /\
    encrypt e iv text key = Ok (big_endian out) /\ decrypt e iv text key = Ok (big_endian out).
Proof.
  intros B V [L [r K]] T. exists (ctr e k v (getRawMpz text)).
  assert (E : firstn 16 (getRawMpz key) = k).
  { rewrite K, <- L, firstn_app, firstn_all, Nat.sub_diag. cbn [firstn]. apply app_nil_r. }
  split; [apply ctr_bytes; [exact B|apply raw_bytes]|]. split; [apply ctr_spec, B|].
  unfold encrypt, decrypt. rewrite (crypt_ok e iv v text key V), E.
  - split; reflexivity.
  - rewrite <- getRaw_length, K, app_length, L. lia.
  - exact T.
Qed.

(** the leading byte of a positive number *)
Lemma top_byte m : 0 < m -> exists r, getRawMpz m = m / 256 ^ (nbytes m - 1) :: r /\ m / 256 ^ (nbytes m - 1) <> 0.
Proof.
  intros M. pose proof (L_getRaw m) as [F [V L]]. rewrite <- getRaw_length.
  destruct (getRawMpz m) as [|b r] eqn:E; [apply getRaw_nil in E; lia|]. exists r.
  assert (H : m / 256 ^ (Z.of_nat (length (b :: r)) - 1) = b).
  { cbn [length]. rewrite Nat2Z.inj_succ. replace (Z.succ (Z.of_nat (length r)) - 1) with (Z.of_nat (length r)) by lia.
    rewrite Z.abs_eq in V by lia. rewrite <- V. cbn [big_endian]. inversion F as [|? ? B F1]; subst.
    rewrite Z.add_comm, Z.div_add, Z.div_small by (try apply be_range; try apply Z.pow_nonzero; (assumption || lia)). reflexivity. }
  rewrite H. split; [reflexivity|]. apply (L b r eq_refl).
Qed.

(** the first byte of the ciphertext of [m] *)
Definition first_byte (e : env) (k v : list Z) (m : Z) : Z := Z.lxor (m / 256 ^ (nbytes m - 1)) (stream_byte (block e) k v 0).

Lemma ctr_head e k v m : block_cipher (block e) -> 0 < m ->
  exists r, ctr e k v (getRawMpz m) = first_byte e k v m :: r.
Proof.
  intros B M. destruct (top_byte m M) as [t [E _]]. pose proof (ctr_spec e k v (getRawMpz m) B) as [L H].
  destruct (ctr e k v (getRawMpz m)) as [|b r] eqn:C; [rewrite E in L; discriminate L|]. exists r. f_equal.
  specialize (H 0%nat). cbn [nth] in H. rewrite H by (rewrite E; cbn; lia). rewrite E. reflexivity.
Qed.

Lemma be_lt_length l n : Forall byte l -> big_endian l = n -> nbytes n <= Z.of_nat (length l).
Proof.
  intros F E. destruct (L_reexport l F) as [k R]. rewrite setRaw_be, E in R. rewrite <- getRaw_length, R.
  rewrite app_length. lia.
Qed.

Lemma L_C46 e iv v m key k : block_cipher (block e) -> iv_block e iv = Ok v -> leading16 (getRawMpz key) k ->
  0 < m -> nbytes m <= 128 ->
  exists c, encrypt e iv m key = Ok c /\ (decrypt e iv c key = Ok m <-> first_byte e k v m <> 0).
Proof.
  intros B V K M T. destruct (L_C46_ctr e iv v m key k B V K T) as [out [F [C [E _]]]].
  exists (big_endian out). split; [exact E|].
  assert (CO : out = ctr e k v (getRawMpz m)) by (apply (ctr_of_unique (block e) k v (getRawMpz m)); [exact C|apply ctr_spec, B]).
  destruct (ctr_head e k v m B M) as [r R]. rewrite <- CO in R.
  assert (NB : nbytes (big_endian out) <= 128).
  { pose proof (be_lt_length out _ F eq_refl) as N. destruct C as [L _]. rewrite L, getRaw_length in N. lia. }
  destruct (L_C46_ctr e iv v (big_endian out) key k B V K NB) as [back [F' [C' [_ D]]]]. rewrite D. split.
  - intros Q. apply Ok_inj in Q. intros Z0.
    assert (S : nbytes (big_endian out) < nbytes m).
    { rewrite R, Z0. cbn [big_endian]. rewrite Z.mul_0_l, Z.add_0_l.
      rewrite R in F. inversion F as [|? ? _ F1]; subst x l. pose proof (be_lt_length r _ F1 eq_refl) as N.
      destruct C as [L _]. rewrite R in L. cbn [length] in L. rewrite <- (getRaw_length m). lia. }
    destruct C' as [L' _]. pose proof (be_lt_length back m F' Q) as N. rewrite L', getRaw_length in N. lia.
  - intros NZ.
    assert (S : getRawMpz (big_endian out) = out).
    { apply getRaw_unique. split; [exact F|]. split; [reflexivity|]. intros b t Q. rewrite R in Q. injection Q as <- _. exact NZ. }
    rewrite S in C'. apply ctr_of_sym in C. rewrite (ctr_of_unique _ _ _ _ _ _ C' C). f_equal.
    pose proof (L_getRaw m) as [_ [W _]]. lia.
Qed.

Lemma nbytes_small b : 0 < b < 256 -> nbytes b = 1.
Proof.
  intros H. unfold nbytes. rewrite (proj2 (Z.eqb_neq b 0)) by lia. rewrite Z.abs_eq by lia.
  assert (Z.log2 b < 8) by (apply Z.log2_lt_pow2; lia). rewrite Z.div_small by (split; [apply Z.log2_nonneg|assumption]). reflexivity.
Qed.

Lemma raw_small b : 0 < b < 256 -> getRawMpz b = [b].
Proof.
  intros H. apply getRaw_unique. split; [constructor; [unfold byte; lia|constructor]|]. split; [cbn; lia|].
  intros b' r E. injection E as <- _. lia.
Qed.

(** the one-byte message equal to the first byte of the key stream is lost *)
Lemma L_C46_refuted e iv v key k : block_cipher (block e) -> iv_block e iv = Ok v -> leading16 (getRawMpz key) k ->
  let b := stream_byte (block e) k v 0 in b <> 0 ->
  encrypt e iv b key = Ok 0 /\ decrypt e iv 0 key = Ok 0.
Proof.
  intros B V K b NZ. pose proof (stream_byte_byte (block e) k v 0 B) as R. fold b in R. unfold byte in R.
  destruct (L_C46_ctr e iv v b key k B V K) as [out [F [C [E _]]]]; [rewrite nbytes_small by lia; lia|].
  destruct (L_C46_ctr e iv v 0 key k B V K) as [out' [F' [C' [_ D]]]]; [cbn; lia|].
  rewrite E, D. rewrite raw_small in C by lia. destruct C as [L H], C' as [L' _]. cbn [length] in L.
  destruct out as [|x [|? ?]]; try discriminate L. destruct out'; [|discriminate L'].
  specialize (H 0%nat ltac:(cbn; lia)). cbn [nth] in H. fold b in H. rewrite Z.lxor_nilpotent in H. subst x.
  split; reflexivity.
Qed.

Lemma L_C46_when e iv v key k : block_cipher (block e) -> iv_block e iv = Ok v -> leading16 (getRawMpz key) k ->
  ((forall m, 0 < m -> nbytes m <= 128 -> exists c, encrypt e iv m key = Ok c /\ decrypt e iv c key = Ok m) <->
   stream_byte (block e) k v 0 = 0).
Proof.
  intros B V K. pose proof (stream_byte_byte (block e) k v 0 B) as R. unfold byte in R. split.
  - intros H. destruct (Z.eq_dec (stream_byte (block e) k v 0) 0) as [|NZ]; [assumption|]. exfalso.
    destruct (L_C46_refuted e iv v key k B V K NZ) as [E D].
    destruct (H (stream_byte (block e) k v 0)) as [c [E' D']]; [lia|rewrite nbytes_small by lia; lia|].
    rewrite E in E'. apply Ok_inj in E'. subst c. rewrite D in D'. apply Ok_inj in D'. lia.
  - intros Z0 m M T. destruct (L_C46 e iv v m key k B V K M T) as [c [E D]]. exists c. split; [exact E|].
    apply D. unfold first_byte. rewrite Z0, Z.lxor_0_r. destruct (top_byte m M) as [_ [_ N]]. exact N.
Qed.

(** C47 *)
Lemma L_C47_key e iv text key : Z.abs key < 2 ^ 120 ->
  encrypt e iv text key = Err (if key =? 0 then NullDeref else OutOfBounds) /\
  decrypt e iv text key = Err (if key =? 0 then NullDeref else OutOfBounds).
Proof. intros K. apply nbytes_120 in K. unfold encrypt, decrypt, crypt. rewrite key_bad by exact K. split; reflexivity. Qed.

Lemma L_C47_long e iv v text key : iv_block e iv = Ok v -> 2 ^ 120 <= Z.abs key -> 128 < nbytes text < 2 ^ 31 ->
  encrypt e iv text key = Err OutOfBounds /\ decrypt e iv text key = Err OutOfBounds.
Proof.
  intros V K T. assert (K' : 16 <= nbytes key) by (pose proof (nbytes_120 key); lia).
  unfold encrypt, decrypt, crypt. rewrite key_ok by exact K'. cbn [bind]. rewrite V. cbn [bind].
  rewrite getRaw_length, s32_small by lia. rewrite (proj2 (Z.ltb_ge _ 0)), (proj2 (Z.ltb_lt 128 _)) by lia. split; reflexivity.
Qed.

Lemma L_C47_safe e iv v text key : block_cipher (block e) -> iv_block e iv = Ok v -> nbytes text < 2 ^ 31 ->
  ((exists c, encrypt e iv text key = Ok c) <-> 2 ^ 120 <= Z.abs key /\ nbytes text <= 128).
Proof.
  intros B V T. split.
  - intros [c E]. destruct (Z_lt_dec (Z.abs key) (2 ^ 120)) as [H|H].
    + destruct (L_C47_key e iv text key H) as [E' _]. rewrite E' in E. discriminate E.
    + split; [lia|]. destruct (Z_lt_dec 128 (nbytes text)) as [H'|H']; [|lia].
      destruct (L_C47_long e iv v text key V ltac:(lia) ltac:(lia)) as [E' _]. rewrite E' in E. discriminate E.
  - intros [K T']. eexists. apply (crypt_ok e iv v text key V); [pose proof (nbytes_120 key); lia|exact T'].
Qed.

Lemma iv_ok e iv : (exists v, iv_block e iv = Ok v) <-> (15 <= length iv + length (after_iv e))%nat.
Proof.
  unfold iv_block. rewrite app_length. cbn [length]. destruct (Z.ltb_spec (Z.of_nat (length iv + S (length (after_iv e)))) 16) as [H|H].
  - split; [intros [v E]; discriminate E|lia].
  - split; [lia|]. intros _. eexists. reflexivity.
Qed.

Lemma iv_bad e iv : (length iv + length (after_iv e) < 15)%nat -> iv_block e iv = Err OutOfBounds.
Proof.
  intros H. unfold iv_block. rewrite app_length. cbn [length]. rewrite (proj2 (Z.ltb_lt _ _)) by lia. reflexivity.
Qed.

Lemma L_C47_iv e text key : (length (after_iv e) < 15)%nat ->
  exists f, encrypt e (init iv_start) text key = Err f /\ decrypt e (init iv_start) text key = Err f.
Proof.
  intros H. unfold encrypt, decrypt, crypt. destruct (key_block key); cbn [bind]; [|eexists; split; reflexivity].
  rewrite iv_bad by (cbn; lia). eexists; split; reflexivity.
Qed.

Lemma L_C47_read e iv : ((exists v, iv_block e iv = Ok v) <-> (15 <= length iv + length (after_iv e))%nat) /\
  forall v, iv_block e iv = Ok v <-> leading16 (iv ++ [0] ++ after_iv e) v.
Proof.
  split; [apply iv_ok|]. intros v. unfold iv_block, leading16. cbv zeta. change ([0] ++ after_iv e) with (0 :: after_iv e).
  set (l := iv ++ 0 :: after_iv e). destruct (Z.ltb_spec (Z.of_nat (length l)) 16) as [H|H]; split.
  - discriminate.
  - intros [L [r E]]. rewrite E, app_length, L in H. lia.
  - intros E. assert (E' : v = firstn 16 l) by congruence. rewrite E'. split; [rewrite firstn_length; lia|]. exists (skipn 16 l). symmetry. apply firstn_skipn.
  - intros [L [r E]]. rewrite E, <- L, firstn_app, Nat.sub_diag, firstn_O, app_nil_r, firstn_all. reflexivity.
Qed.

Lemma L_C47_iv_zero e : firstn 15 (after_iv e) = repeat 0 15 -> iv_block e (init iv_start) = Ok (repeat 0 16).
Proof.
  intros H. assert (L : (15 <= length (after_iv e))%nat).
  { rewrite <- (repeat_length 0 15), <- H. rewrite firstn_length. lia. }
  unfold iv_block, init, iv_start. cbn [app length]. rewrite (proj2 (Z.ltb_ge _ _)) by lia.
  change (firstn 16 (0 :: after_iv e)) with (0 :: firstn 15 (after_iv e)). rewrite H. reflexivity.
Qed.

Lemma L_C47_prefix e iv text key key' k : leading16 (getRawMpz key) k -> leading16 (getRawMpz key') k ->
  encrypt e iv text key = encrypt e iv text key' /\ decrypt e iv text key = decrypt e iv text key'.
Proof.
  intros K K'. assert (H : forall key, leading16 (getRawMpz key) k -> key_block key = Ok k).
  { clear. intros key [L [r E]]. assert (N : 16 <= nbytes key) by (rewrite <- getRaw_length, E, app_length, L; lia).
    rewrite key_ok by exact N. rewrite E, <- L, firstn_app, firstn_all, Nat.sub_diag. cbn [firstn]. rewrite app_nil_r. reflexivity. }
  unfold encrypt, decrypt, crypt. rewrite (H key K), (H key' K'). split; reflexivity.
Qed.

(** C48 *)
Lemma L_C48_declared e iv v key m k : block_cipher (block e) -> iv_block e iv = Ok v ->
  leading16 (getRawMpz m) k -> nbytes key <= 128 ->
  exists out, ctr_of (block e) k v (getRawMpz key) out /\
    encrypt_as_declared e iv key m = Ok (big_endian out) /\ decrypt_as_declared e iv key m = Ok (big_endian out).
Proof.
  intros B V K T. destruct (L_C46_ctr e iv v key m k B V K T) as [out [_ [C [E D]]]]. exists out. auto.
Qed.

Lemma L_C48_short e iv key m : Z.abs m < 2 ^ 120 -> exists f, encrypt_as_declared e iv key m = Err f.
Proof. intros H. destruct (L_C47_key e iv key m H) as [E _]. eexists. exact E. Qed.

(** C49 *)
Lemma nbytes_append be n : 0 < n -> nbytes (big_endian (getRawMpz n ++ obj32 be (crcl (getRawMpz n)))) = nbytes n + 4.
Proof.
  intros N. pose proof (append_shortest be n N) as S. cbv zeta in S. apply getRaw_unique in S.
  rewrite <- getRaw_length, S, app_length, obj32_length, Nat2Z.inj_add, getRaw_length. reflexivity.
Qed.

Lemma top_append be n : 0 < n -> 
  let a := big_endian (getRawMpz n ++ obj32 be (crcl (getRawMpz n))) in a / 256 ^ (nbytes a - 1) = n / 256 ^ (nbytes n - 1).
Proof.
  intros N a. pose proof (append_shortest be n N) as S. cbv zeta in S. fold a in S. 
  assert (P : 0 < a).
  { destruct (top_byte n N) as [r [E _]]. rewrite E in S. cbn [app] in S. apply shortest_bound in S.
    match type of S with ?x <= _ < _ => assert (0 < x) by (apply Z.pow_pos_nonneg; lia) end. lia. }
  apply getRaw_unique in S. destruct (top_byte a P) as [r [E _]]. destruct (top_byte n N) as [r' [E' _]].
  rewrite E, E' in S. cbn [app] in S. injection S as S _. exact S.
Qed.

Lemma L_C49 e iv v m key k : block_cipher (block e) -> iv_block e iv = Ok v -> leading16 (getRawMpz key) k ->
  big_endian_host e = false -> 0 < m -> nbytes m <= 124 -> nbytes m + 4 <= room e (nbytes m) -> first_byte e k v m <> 0 ->
  exists c, encryptCRC e iv key m = Ok c /\ decryptCRC e iv key c = Ok m.
Proof.
  intros B V K H M T R NZ. unfold encryptCRC, decryptCRC. rewrite H.
  destruct (L_C42 (room e) (heap e) (heap e) m M ltac:(lia) R) as [a [A [Va Ra]]]. rewrite A. cbn [bind].
  rewrite append_eq in A by lia. rewrite (proj2 (Z.ltb_ge _ _)) in A by lia. apply Ok_inj in A.
  pose proof (nbytes_append false m M) as NA. pose proof (top_append false m M) as TA. cbv zeta in TA. rewrite A in NA, TA.
  assert (P : 0 < a).
  { destruct (Z_lt_dec 0 a); [assumption|]. assert (0 <= a) by (rewrite <- A; apply be_range, Forall_app; split; [apply raw_bytes|apply obj32_bytes]).
    assert (a = 0) by lia. subst a. rewrite H1 in NA. cbn in NA. pose proof (nbytes_nonneg m). lia. }
  destruct (L_C46 e iv v a key k B V K P ltac:(lia)) as [c [E D]]. exists c. split; [exact E|].
  assert (FB : first_byte e k v a <> 0) by (unfold first_byte in *; rewrite TA; exact NZ).
  apply D in FB. rewrite FB. cbn [bind]. rewrite Va. cbn [bind]. exact Ra.
Qed.

Lemma L_C49_sound e iv key c r : big_endian_host e = false -> decryptCRC e iv key c = Ok r -> r <> 0 ->
  exists p, decrypt e iv c key = Ok p /\ validateCRC false (heap e) p = Ok true /\ removeCRC p = Ok r.
Proof.
  intros H E NZ. unfold decryptCRC in E. rewrite H in E. apply bind_Ok in E. destruct E as [p [D E]].
  apply bind_Ok in E. destruct E as [b [Vp E]]. exists p. split; [exact D|].
  destruct b; [split; assumption|]. apply Ok_inj in E. congruence.
Qed.

Lemma L_C49_mismatch e iv key c p : decrypt e iv c key = Ok p -> validateCRC (big_endian_host e) (heap e) p = Ok false ->
  decryptCRC e iv key c = Ok 0.
Proof. intros D V. unfold decryptCRC. rewrite D. cbn [bind]. rewrite V. reflexivity. Qed.

Lemma crypt_range e iv text key p : block_cipher (block e) -> crypt e iv text key = Ok p -> 0 <= p /\ nbytes p <= 128.
Proof.
  intros B E. unfold crypt in E. apply bind_Ok in E. destruct E as [k [_ E]]. apply bind_Ok in E. destruct E as [v [_ E]].
  destruct (Z.ltb_spec (s32 (Z.of_nat (length (getRawMpz text)))) 0) as [|H1]; [discriminate E|].
  destruct (Z.ltb_spec 128 (s32 (Z.of_nat (length (getRawMpz text))))) as [|H2]; [discriminate E|].
  apply Ok_inj in E. rewrite setRaw_be in E. set (inp := firstn _ _) in E.
  assert (F : Forall byte inp).
  { pose proof (raw_bytes text) as F. rewrite Forall_forall in *. intros x I. apply F. subst inp. 
    rewrite <- (firstn_skipn (Z.to_nat (s32 (Z.of_nat (length (getRawMpz text))))) (getRawMpz text)). apply in_or_app. left. exact I. }
  pose proof (ctr_bytes e k v inp B F) as F'. split; [rewrite <- E; apply be_range, F'|].
  pose proof (be_lt_length _ p F' E) as N. destruct (ctr_spec e k v inp B) as [L _]. rewrite L in N.
  unfold inp in N. rewrite firstn_length in N. lia.
Qed.

(** decryptCRC reads before its buffer whenever the plaintext it finds is below 2^24 *)
Lemma L_C49_fault e iv key c p : decrypt e iv c key = Ok p -> Z.abs p < 2 ^ 24 -> exists f, decryptCRC e iv key c = Err f.
Proof.
  intros D S. unfold decryptCRC. rewrite D. cbn [bind]. apply nbytes_24 in S.
  destruct (validate_short (big_endian_host e) (heap e) p S) as [f E]. rewrite E. cbn [bind]. eexists. reflexivity.
Qed.

Lemma L_C49_total e iv key c p : block_cipher (block e) -> decrypt e iv c key = Ok p -> 2 ^ 24 <= p -> exists r, decryptCRC e iv key c = Ok r.
Proof.
  intros B D S. unfold decryptCRC. rewrite D. cbn [bind].
  destruct (crypt_range e iv c key p B D) as [P N].
  pose proof (proj2 (L_C43_validate (big_endian_host e) (heap e) p)) as [b E]; [lia|]. rewrite E. cbn [bind].
  destruct b; [|eexists; reflexivity]. destruct (removeCRC p) eqn:R; [eexists; reflexivity|].
  exfalso. apply validate_inv in E. destruct E as [l [t [E [T _]]]]. rewrite (remove_eq p l t E T) in R by lia. discriminate R.
Qed.

(** C58: the key stream is the same for every message *)
Lemma be_xor : forall a b, length a = length b -> Forall byte a -> Forall byte b -> Z.lxor (big_endian a) (big_endian b) = big_endian (xor_bytes a b).
Proof.
  induction a as [|x a IH]; intros [|y b] L F G; try discriminate L; [reflexivity|]. injection L as L.
  inversion F as [|? ? X F1]; subst. inversion G as [|? ? Y G1]; subst. cbn [big_endian xor_bytes].
  rewrite <- IH by assumption. rewrite <- L. rewrite (xor_length a b) by lia.
  pose proof (be_range a F1) as RA. pose proof (be_range b G1) as RB. rewrite <- L in RB. rewrite pow256 in * by lia.
  replace (8 * Z.of_nat (length a)) with (Z.of_nat (8 * length a)) in * by lia. unfold byte in *.
  rewrite !(Z.add_comm (_ * 2 ^ _)).
  assert (N : 0 <= Z.lxor x y) by (apply Z.lxor_nonneg; split; intros; lia).
  rewrite (lxor_split (big_endian a) x), (lxor_split (big_endian b) y) by lia.
  rewrite (lxor_split (Z.lxor (big_endian a) (big_endian b)) (Z.lxor x y)) by (try apply lxor_range; lia).
  rewrite lxor_swap. f_equal. rewrite <- !Z.shiftl_mul_pow2 by lia. symmetry. apply Z.shiftl_lxor.
Qed.

Lemma L_C58 e iv v key k m m' c c' : block_cipher (block e) -> iv_block e iv = Ok v -> leading16 (getRawMpz key) k ->
  0 <= m -> 0 <= m' -> nbytes m = nbytes m' -> nbytes m <= 128 -> encrypt e iv m key = Ok c -> encrypt e iv m' key = Ok c' ->
  Z.lxor c c' = Z.lxor m m'.
Proof.
  intros B V K M M' L T E E'. 
  destruct (L_C46_ctr e iv v m key k B V K T) as [o [F [C [E1 _]]]].
  destruct (L_C46_ctr e iv v m' key k B V K ltac:(lia)) as [o' [F' [C' [E1' _]]]].
  rewrite E1 in E. rewrite E1' in E'. apply Ok_inj in E. apply Ok_inj in E'. subst c c'.
  pose proof (L_getRaw m) as [FM [VM _]]. pose proof (L_getRaw m') as [FM' [VM' _]].
  rewrite Z.abs_eq in VM by lia. rewrite Z.abs_eq in VM' by lia. rewrite <- VM at 1. rewrite <- VM' at 1.
  assert (LL : length (getRawMpz m) = length (getRawMpz m')) by (apply Nat2Z.inj; rewrite !getRaw_length; exact L).
  destruct C as [LC HC], C' as [LC' HC'].
  rewrite (be_xor o o'), (be_xor _ _ LL) by (try congruence; assumption). f_equal.
  apply list_ext; [rewrite !xor_length by lia; congruence|].
  intros i I. rewrite xor_length in I by lia. rewrite !xor_nth by lia. rewrite HC, HC' by lia.
  rewrite lxor_swap, Z.lxor_nilpotent, Z.lxor_0_r. reflexivity.
Qed.

Lemma block_of_pad z : block_of z = pad 16 z.
Proof.
  unfold block_of, pad. cbn [seq map Nat.sub]. rewrite !land_mod, !Z.shiftr_div_pow2 by lia. rewrite <- !pow256 by lia. reflexivity.
Qed.

Lemma L_C46_counter z b : counter_bytes z b <-> b = block_of z.
Proof.
  assert (H : counter_bytes z (block_of z)).
  { rewrite block_of_pad. split; [apply pad_length|]. split; [apply pad_bytes|]. rewrite pad_be. reflexivity. }
  split; [|intros ->; exact H]. intros [L [F E]]. destruct H as [L' [F' E']]. apply be_inj; congruence.
Qed.
