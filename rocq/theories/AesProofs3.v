(** Proofs about a block function to which bytes are added under some keys. *)
From Coq Require Import ZArith List Bool Lia.
From Verif Require Import Outcome CrcModel SpecCrc CrcProofs CrcProofs2 CrcProofs3 CrcProofs4 AesModel SpecAes AesProofs AesProofs2.
From Verif Require Import OpprfModel SpecOpprf SpecOpprf2 SpecOpprf5.
Import ListNotations.
Open Scope Z_scope.
Opaque shifts.

(** the bytes [delta k] laid over the key stream of [k] from the counter [v] on *)
Definition pad_block (v : list Z) (delta : list Z -> list Z) (k b : list Z) : list Z :=
  map (fun t => nth (16 * Z.to_nat ((big_endian b - big_endian v) mod 2 ^ 128) + t) (delta k) 0) (seq 0 16).

Section Pad.
  Variables (v : list Z) (delta : list Z -> list Z) (e : env) (iv : list Z).
  Hypothesis DB : forall k, Forall byte (delta k).
  Hypothesis BC : block_cipher (block e).
  Hypothesis IV : iv_block e iv = Ok v.
  Notation e' := (masked (pad_block v delta) e).

  Lemma pad_len k b : length (pad_block v delta k b) = 16%nat.
  Proof. unfold pad_block. rewrite map_length, seq_length. reflexivity. Qed.
  Lemma pad_byte k b : Forall byte (pad_block v delta k b).
  Proof. unfold pad_block. apply Forall_forall. intros x I. apply in_map_iff in I. destruct I as [t [<- _]]. apply nth_byte, DB. Qed.
  Lemma pad_none k b : delta k = [] -> pad_block v delta k b = repeat 0 16.
  Proof.
    intros E. unfold pad_block. rewrite E. generalize (16 * Z.to_nat ((big_endian b - big_endian v) mod 2 ^ 128))%nat. intros w.
    rewrite (map_ext _ (fun _ => 0)) by (intros t; destruct (w + t)%nat; reflexivity). reflexivity.
  Qed.

  Lemma masked_cipher : block_cipher (block e').
  Proof.
    intros k b. cbn [masked block]. destruct (BC k b) as [L F]. assert (LE : (length (block e k b) <= length (pad_block v delta k b))%nat) by (rewrite pad_len; lia).
    split; [rewrite xor_length by exact LE; exact L|]. apply Forall_forall. intros x I. apply (In_nth _ _ 0) in I. destruct I as [i [I <-]].
    rewrite xor_length in I by exact LE. rewrite xor_nth by assumption. apply byte_lxor; apply nth_byte; [exact F|apply pad_byte].
  Qed.
  Lemma masked_iv : iv_block e' iv = Ok v.
  Proof. exact IV. Qed.

  Lemma masked_stream k i : (i < 128)%nat -> stream_byte (block e') k v i = Z.lxor (stream_byte (block e) k v i) (nth i (delta k) 0).
  Proof.
    intros I. unfold stream_byte. set (b := block_of (big_endian v + Z.of_nat (i / 16))). cbn [masked block].
    destruct (BC k b) as [L _]. pose proof (Nat.mod_upper_bound i 16 ltac:(lia)) as M.
    rewrite xor_nth by (rewrite ?pad_len; lia). f_equal. unfold pad_block.
    destruct (proj2 (L_C46_counter (big_endian v + Z.of_nat (i / 16)) b) eq_refl) as [_ [_ EB]]. rewrite EB.
    rewrite Zminus_mod_idemp_l. replace (big_endian v + Z.of_nat (i / 16) - big_endian v) with (Z.of_nat (i / 16)) by lia.
    assert (Q : (i / 16 < 8)%nat) by (apply Nat.div_lt_upper_bound; lia).
    rewrite Z.mod_small by (split; [lia|]; apply Z.lt_trans with 8; [lia|reflexivity]). rewrite Nat2Z.id.
    rewrite (nth_indep _ 0 (nth (16 * (i / 16) + 0) (delta k) 0)) by (rewrite map_length, seq_length; exact M).
    rewrite (map_nth (fun t => nth (16 * (i / 16) + t) (delta k) 0)), seq_nth by exact M. f_equal.
    pose proof (Nat.div_mod i 16 ltac:(lia)). lia.
  Qed.

  Lemma masked_ctr k bs bs' : length bs' = length bs -> (length bs <= 128)%nat ->
    (forall i, (i < length bs)%nat -> nth i (delta k) 0 = Z.lxor (nth i bs 0) (nth i bs' 0)) -> ctr e' k v bs' = ctr e k v bs.
  Proof.
    intros L LE H. destruct (ctr_spec e' k v bs' masked_cipher) as [L1 H1]. destruct (ctr_spec e k v bs BC) as [L2 H2].
    apply list_ext; [congruence|]. intros i I. rewrite L1 in I. rewrite H1 by exact I. rewrite H2 by lia.
    rewrite masked_stream by lia. rewrite H by lia. rewrite (Z.lxor_comm (stream_byte (block e) k v i)), <- Z.lxor_assoc.
    f_equal. rewrite (Z.lxor_comm (nth i bs 0)), <- Z.lxor_assoc, Z.lxor_nilpotent, Z.lxor_0_l. reflexivity.
  Qed.

  Lemma masked_crypt key text text' : 2 ^ 120 <= key < 2 ^ 128 -> nbytes text' = nbytes text -> nbytes text <= 128 ->
    (forall i, (i < length (getRawMpz text))%nat -> nth i (delta (getRawMpz key)) 0 = Z.lxor (nth i (getRawMpz text) 0) (nth i (getRawMpz text') 0)) ->
    crypt e' iv text' key = crypt e iv text key.
  Proof.
    intros K N T H. assert (NK : ~ nbytes key < 16) by (rewrite <- nbytes_120; lia).
    rewrite (crypt_ok e' iv v text' key masked_iv) by lia. rewrite (crypt_ok e iv v text key IV) by lia.
    assert (LK : firstn 16 (getRawMpz key) = getRawMpz key).
    { apply firstn_all2. apply Nat2Z.inj_le. rewrite getRaw_length. unfold nbytes. rewrite (proj2 (Z.eqb_neq key 0)) by lia.
      assert (Z.log2 (Z.abs key) < 128) by (apply Z.log2_lt_pow2; lia). pose proof (Z.div_le_mono (Z.log2 (Z.abs key)) 127 8 ltac:(lia) ltac:(lia)). cbn in H1. lia. }
    rewrite LK. do 2 f_equal. apply masked_ctr; [| |exact H]; apply Nat2Z.inj || apply Nat2Z.inj_le; rewrite ?getRaw_length; [exact N|lia].
  Qed.

  (** a key to which nothing is added *)
  Lemma plain_crypt key text : delta (firstn 16 (getRawMpz key)) = [] -> crypt e' iv text key = crypt e iv text key.
  Proof.
    intros E. unfold crypt. unfold key_block. cbn [masked]. destruct (Z.of_nat (length (getRawMpz key)) =? 0); [reflexivity|].
    destruct (Z.of_nat (length (getRawMpz key)) <? 16); [reflexivity|]. cbn [bind].
    change (iv_block e' iv) with (iv_block e iv). rewrite IV. cbn [bind].
    destruct (Z.ltb_spec (s32 (Z.of_nat (length (getRawMpz text)))) 0); [reflexivity|].
    destruct (Z.ltb_spec 128 (s32 (Z.of_nat (length (getRawMpz text))))); [reflexivity|].
    do 2 f_equal. apply masked_ctr; [reflexivity|rewrite firstn_length; lia|]. intros i _. rewrite E, Z.lxor_nilpotent. destruct i; reflexivity.
  Qed.
  Lemma plain_encryptCRC key m : delta (firstn 16 (getRawMpz key)) = [] -> encryptCRC e' iv key m = encryptCRC e iv key m.
  Proof.
    intros E. unfold encryptCRC, encrypt. cbn [masked big_endian_host room heap]. destruct (appendCRC _ _ _ m) as [a|]; [|reflexivity]. cbn [bind]. apply plain_crypt, E.
  Qed.
  Lemma plain_decryptCRC key c : delta (firstn 16 (getRawMpz key)) = [] -> decryptCRC e' iv key c = decryptCRC e iv key c.
  Proof. intros E. unfold decryptCRC, decrypt. rewrite plain_crypt by exact E. reflexivity. Qed.

  (** the bytes that turn an encryption of [m] into one of [m'] *)
  Definition change (m m' : Z) : list Z := xor_bytes (getRawMpz (checked false m)) (getRawMpz (checked false m')).
  Lemma change_byte m m' : Forall byte (change m m').
  Proof.
    unfold change. pose proof (raw_bytes (checked false m)) as A. pose proof (raw_bytes (checked false m')) as B. revert A B.
    generalize (getRawMpz (checked false m)) (getRawMpz (checked false m')). intros l. induction l as [|x l IH]; intros [|y l'] A B; cbn [xor_bytes]; try constructor.
    - inversion A; inversion B; subst. apply byte_lxor; assumption.
    - inversion A; inversion B; subst. apply IH; assumption.
  Qed.

  Lemma masked_encryptCRC key m m' : big_endian_host e = false -> 2 ^ 120 <= key < 2 ^ 128 -> 0 < m -> 0 < m' -> nbytes m' = nbytes m -> nbytes m <= 124 ->
    delta (getRawMpz key) = change m m' -> encryptCRC e' iv key m' = encryptCRC e iv key m.
  Proof.
    intros BE K M M' N LE E. unfold encryptCRC, encrypt. cbn [masked big_endian_host room heap]. rewrite BE, !append_eq by lia. rewrite N.
    destruct (room e (nbytes m) <? nbytes m + 4); [reflexivity|]. cbn [bind].
    fold (checked false m) (checked false m').
    pose proof (nbytes_append false m M) as A. pose proof (nbytes_append false m' M') as A'. fold (checked false m) in A. fold (checked false m') in A'.
    apply masked_crypt; [exact K|lia|lia|]. intros i I. rewrite E. unfold change. apply xor_nth; [exact I|].
    apply Nat2Z.inj_le. rewrite !getRaw_length. lia.
  Qed.
End Pad.

Lemma xor_twice : forall a b, (length a <= length b)%nat -> xor_bytes (xor_bytes a b) b = a.
Proof.
  induction a as [|x a IH]; intros [|y b] L; cbn [xor_bytes length] in *; try reflexivity; [lia|]. rewrite IH by lia. f_equal.
  rewrite Z.lxor_assoc, Z.lxor_nilpotent. apply Z.lxor_0_r.
Qed.
Lemma masked_twice f e : (forall k b, length (f k b) = 16%nat /\ Forall byte (f k b)) -> block_cipher (block e) ->
  block_cipher (block (masked f e)) /\ (forall k b, block (masked f (masked f e)) k b = block e k b) /\
  forall k b, f k b = repeat 0 16 -> block (masked f e) k b = block e k b.
Proof.
  intros F B. split; [|split].
  - intros k b. cbn [masked block]. destruct (B k b) as [L1 B1], (F k b) as [L2 B2]. split; [rewrite xor_length by lia; exact L1|].
    apply Forall_forall. intros x I. apply (In_nth _ _ 0) in I. destruct I as [i [I <-]]. rewrite xor_length in I by lia.
    rewrite xor_nth by lia. apply byte_lxor; apply nth_byte; assumption.
  - intros k b. cbn [masked block]. apply xor_twice. rewrite (proj1 (B k b)), (proj1 (F k b)). lia.
  - intros k b E. cbn [masked block]. rewrite E. destruct (B k b) as [L _]. revert L. generalize (block e k b). intros l L.
    do 17 (destruct l as [|? l]; [try discriminate L|]); [|discriminate L]. cbn [xor_bytes repeat]. rewrite !Z.lxor_0_r. reflexivity.
Qed.
