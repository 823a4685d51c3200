(** Properties C46-C49, C58 and C72: counter-mode encryption of integers (src/utilities/aes.cpp, includes/aes.hpp).
    Everywhere the block function is arbitrary, [iv_block e iv = Ok v] says that sixteen bytes can be read through
    AES::iv and are [v], and [leading16 (getRawMpz key) k] that [k] is the first sixteen bytes of the key. *)
From Coq Require Import ZArith List Bool Lia.
From Verif Require Import Outcome CrcModel SpecCrc AesModel SpecAes AesProofs AesProofs2.
Import ListNotations.
Open Scope Z_scope.

(** C46. Both functions add the key stream to the bytes of their argument. *)
Theorem C46_ctr : forall e iv v text key k, block_cipher (block e) -> iv_block e iv = Ok v ->
  leading16 (getRawMpz key) k -> nbytes text <= 128 ->
  exists out, Forall byte out /\ ctr_of (block e) k v (getRawMpz text) out /\
    encrypt e iv text key = Ok (big_endian out) /\ decrypt e iv text key = Ok (big_endian out).
Proof. exact L_C46_ctr. Qed.
Print Assumptions C46_ctr.

Theorem C46_counter : forall z b, counter_bytes z b <-> b = block_of z.
Proof. exact L_C46_counter. Qed.
Print Assumptions C46_counter.

(** Decryption recovers the message exactly when its leading byte differs from the first byte of the key stream. *)
Theorem C46_roundtrip : forall e iv v m key k, block_cipher (block e) -> iv_block e iv = Ok v ->
  leading16 (getRawMpz key) k -> 0 < m -> nbytes m <= 128 ->
  exists c, encrypt e iv m key = Ok c /\
    (decrypt e iv c key = Ok m <-> Z.lxor (m / 256 ^ (nbytes m - 1)) (stream_byte (block e) k v 0) <> 0).
Proof. exact L_C46. Qed.
Print Assumptions C46_roundtrip.

(** The unconditional claim fails for every key whose key stream does not begin with a null byte: the message made of
    that byte encrypts to 0, and 0 decrypts to 0. *)
Theorem C46_roundtrip_refuted : forall e iv v key k, block_cipher (block e) -> iv_block e iv = Ok v ->
  leading16 (getRawMpz key) k ->
  let b := stream_byte (block e) k v 0 in b <> 0 ->
  encrypt e iv b key = Ok 0 /\ decrypt e iv 0 key = Ok 0.
Proof. exact L_C46_refuted. Qed.
Print Assumptions C46_roundtrip_refuted.

Theorem C46_good_keys : forall e iv v key k, block_cipher (block e) -> iv_block e iv = Ok v ->
  leading16 (getRawMpz key) k ->
  ((forall m, 0 < m -> nbytes m <= 128 -> exists c, encrypt e iv m key = Ok c /\ decrypt e iv c key = Ok m) <->
   stream_byte (block e) k v 0 = 0).
Proof. exact L_C46_when. Qed.
Print Assumptions C46_good_keys.

(** A small block function and surroundings as on 64-bit Linux (zeros behind the empty string, malloc blocks of at
    least 24 bytes), for the cases below. *)
Definition toy (k b : list Z) : list Z := map (fun i => (3 * nth i k 0 + 5 * nth i b 0 + 7 * Z.of_nat i + 1) mod 256) (seq 0 16).
Definition small : env :=
  {| big_endian_host := false; room := fun len => Z.max 24 ((len + 23) / 16 * 16 - 8); heap := 4096; block := toy;
     after_iv := repeat 0 15 |}.
Definition akey : Z := 0x0102030405060708090a0b0c0d0e0f10.

Example C46_toy : block_cipher (block small).
Proof.
  intros k b. cbn [block small]. unfold toy. split; [rewrite map_length, seq_length; reflexivity|].
  apply Forall_forall. intros x H. apply in_map_iff in H. destruct H as [i [<- _]]. apply Z.mod_pos_bound. reflexivity.
Qed.

Example C46_case : iv_block small (init iv_start) = Ok (repeat 0 16) /\
  leading16 (getRawMpz akey) [1; 2; 3; 4; 5; 6; 7; 8; 9; 10; 11; 12; 13; 14; 15; 16] /\
  stream_byte toy [1; 2; 3; 4; 5; 6; 7; 8; 9; 10; 11; 12; 13; 14; 15; 16] (repeat 0 16) 0 = 4 /\
  (exists c, encrypt small (init iv_start) (5 * 256 ^ 19 + 77) akey = Ok c /\ c <> 5 * 256 ^ 19 + 77 /\
     decrypt small (init iv_start) c akey = Ok (5 * 256 ^ 19 + 77)) /\
  encrypt small (init iv_start) 4 akey = Ok 0 /\
  exists c d, encrypt small (init iv_start) (4 * 256 + 1) akey = Ok c /\ decrypt small (init iv_start) c akey = Ok d /\ d <> 4 * 256 + 1.
Proof.
  split; [reflexivity|]. split; [split; [reflexivity|exists []; reflexivity]|]. split; [reflexivity|].
  split; [eexists; split; [vm_compute; reflexivity|split; [vm_compute; discriminate|vm_compute; reflexivity]]|].
  split; [vm_compute; reflexivity|]. do 2 eexists.
  split; [vm_compute; reflexivity|split; [vm_compute; reflexivity|vm_compute; discriminate]].
Qed.

(** C47. Exactly the keys of at least 2^120 and the texts of at most 128 bytes are handled inside the buffers. *)
Theorem C47_safe : forall e iv v text key, block_cipher (block e) -> iv_block e iv = Ok v -> nbytes text < 2 ^ 31 ->
  ((exists c, encrypt e iv text key = Ok c) <-> 2 ^ 120 <= Z.abs key /\ nbytes text <= 128).
Proof. exact L_C47_safe. Qed.
Print Assumptions C47_safe.

Theorem C47_short_key : forall e iv text key, Z.abs key < 2 ^ 120 ->
  encrypt e iv text key = Err (if key =? 0 then NullDeref else OutOfBounds) /\
  decrypt e iv text key = Err (if key =? 0 then NullDeref else OutOfBounds).
Proof. exact L_C47_key. Qed.
Print Assumptions C47_short_key.

Theorem C47_long_text : forall e iv v text key, iv_block e iv = Ok v -> 2 ^ 120 <= Z.abs key -> 128 < nbytes text < 2 ^ 31 ->
  encrypt e iv text key = Err OutOfBounds /\ decrypt e iv text key = Err OutOfBounds.
Proof. exact L_C47_long. Qed.
Print Assumptions C47_long_text.

(** The string AES::iv as AES::init leaves it is empty: with fewer than 15 readable bytes behind it no call succeeds ... *)
Theorem C47_default_iv : forall e text key, (length (after_iv e) < 15)%nat ->
  exists f, encrypt e (init iv_start) text key = Err f /\ decrypt e (init iv_start) text key = Err f.
Proof. exact L_C47_iv. Qed.
Print Assumptions C47_default_iv.

(** ... and a stored vector is enough exactly when 16 bytes are readable through it; the ones used are the first, terminating NUL and
    what lies behind it included. *)
Theorem C47_iv : forall e iv, ((exists v, iv_block e iv = Ok v) <-> (15 <= length iv + length (after_iv e))%nat) /\
  forall v, iv_block e iv = Ok v <-> leading16 (iv ++ [0] ++ after_iv e) v.
Proof. exact L_C47_read. Qed.
Print Assumptions C47_iv.

Theorem C47_prefix : forall e iv text key key' k, leading16 (getRawMpz key) k -> leading16 (getRawMpz key') k ->
  encrypt e iv text key = encrypt e iv text key' /\ decrypt e iv text key = decrypt e iv text key'.
Proof. exact L_C47_prefix. Qed.
Print Assumptions C47_prefix.

Example C47_case : encrypt small (init iv_start) 9 (2 ^ 119) = Err OutOfBounds /\
  encrypt small (init iv_start) 9 0 = Err NullDeref /\
  encrypt small (init iv_start) (256 ^ 128) akey = Err OutOfBounds /\
  encrypt small (init iv_start) 9 akey = encrypt small (init iv_start) 9 (akey * 2 ^ 40 + 12345).
Proof. repeat split; vm_compute; reflexivity. Qed.

(** C48. A call that follows the header adds to the bytes of the key the key stream of the message. *)
Theorem C48_declared : forall e iv v key m k, block_cipher (block e) -> iv_block e iv = Ok v ->
  leading16 (getRawMpz m) k -> nbytes key <= 128 ->
  exists out, ctr_of (block e) k v (getRawMpz key) out /\
    encrypt_as_declared e iv key m = Ok (big_endian out) /\ decrypt_as_declared e iv key m = Ok (big_endian out).
Proof. exact L_C48_declared. Qed.
Print Assumptions C48_declared.

(** Messages below 2^120 make it read past the message. *)
Theorem C48_short : forall e iv key m, Z.abs m < 2 ^ 120 -> exists f, encrypt_as_declared e iv key m = Err f.
Proof. exact L_C48_short. Qed.
Print Assumptions C48_short.

Example C48_case : encrypt_as_declared small (init iv_start) akey 9 = Err OutOfBounds /\
  exists c, encrypt_as_declared small (init iv_start) akey (2 ^ 127 + 5) = Ok c /\ encrypt small (init iv_start) (2 ^ 127 + 5) akey <> Ok c.
Proof. split; [reflexivity|]. eexists. split; [vm_compute; reflexivity|vm_compute; discriminate]. Qed.

(** C49. *)
Theorem C49_roundtrip : forall e iv v m key k, block_cipher (block e) -> iv_block e iv = Ok v ->
  leading16 (getRawMpz key) k -> big_endian_host e = false ->
  0 < m -> nbytes m <= 124 -> nbytes m + 4 <= room e (nbytes m) ->
  Z.lxor (m / 256 ^ (nbytes m - 1)) (stream_byte (block e) k v 0) <> 0 ->
  exists c, encryptCRC e iv key m = Ok c /\ decryptCRC e iv key c = Ok m.
Proof. exact L_C49. Qed.
Print Assumptions C49_roundtrip.

(** The proviso is exact: nothing else lets a message survive. *)
Theorem C49_exact : forall e iv key m, block_cipher (block e) -> big_endian_host e = false -> 0 <= m -> nbytes m <= 124 ->
  (do c <- encryptCRC e iv key m; decryptCRC e iv key c) = Ok m <->
  0 < m /\ nbytes m + 4 <= room e (nbytes m) /\
  exists v k, iv_block e iv = Ok v /\ leading16 (getRawMpz key) k /\
    Z.lxor (m / 256 ^ (nbytes m - 1)) (stream_byte (block e) k v 0) <> 0.
Proof. exact L_C49_exact. Qed.
Print Assumptions C49_exact.

Theorem C49_mismatch : forall e iv key c p, decrypt e iv c key = Ok p ->
  validateCRC (big_endian_host e) (heap e) p = Ok false -> decryptCRC e iv key c = Ok 0.
Proof. exact L_C49_mismatch. Qed.
Print Assumptions C49_mismatch.

Theorem C49_sound : forall e iv key c r, big_endian_host e = false -> decryptCRC e iv key c = Ok r -> r <> 0 ->
  exists p, decrypt e iv c key = Ok p /\ validateCRC false (heap e) p = Ok true /\ removeCRC p = Ok r.
Proof. exact L_C49_sound. Qed.
Print Assumptions C49_sound.

(** Decryption with a check is undefined exactly when the decrypted number has fewer than four bytes. *)
Theorem C49_fault : forall e iv key c p, decrypt e iv c key = Ok p -> Z.abs p < 2 ^ 24 -> exists f, decryptCRC e iv key c = Err f.
Proof. exact L_C49_fault. Qed.
Print Assumptions C49_fault.

Theorem C49_defined : forall e iv key c p, block_cipher (block e) -> decrypt e iv c key = Ok p -> 2 ^ 24 <= p ->
  exists r, decryptCRC e iv key c = Ok r.
Proof. exact L_C49_total. Qed.
Print Assumptions C49_defined.

Example C49_case : (exists c, encryptCRC small (init iv_start) akey (5 * 256 ^ 15 + 99) = Ok c /\
    decryptCRC small (init iv_start) akey c = Ok (5 * 256 ^ 15 + 99) /\
    decryptCRC small (init iv_start) akey (c + 1) = Ok 0) /\
  decryptCRC small (init iv_start) akey 1 = Err OutOfBounds.
Proof.
  split; [|vm_compute; reflexivity].
  eexists. split; [vm_compute; reflexivity|]. split; vm_compute; reflexivity.
Qed.

(** C58. The vector never changes between calls, so the key stream is used again for every message: two ciphertexts
    under one key reveal the difference of the messages. *)
Theorem C58_reuse : forall e iv v key k m m' c c', block_cipher (block e) -> iv_block e iv = Ok v ->
  leading16 (getRawMpz key) k -> 0 <= m -> 0 <= m' -> nbytes m = nbytes m' -> nbytes m <= 128 ->
  encrypt e iv m key = Ok c -> encrypt e iv m' key = Ok c' -> Z.lxor c c' = Z.lxor m m'.
Proof. exact L_C58. Qed.
Print Assumptions C58_reuse.

Example C58_case : exists c c', encrypt small (init iv_start) (7 * 256 ^ 17) akey = Ok c /\
  encrypt small (init iv_start) (9 * 256 ^ 17 + 3) akey = Ok c' /\ c <> c' /\
  nbytes (7 * 256 ^ 17) = nbytes (9 * 256 ^ 17 + 3).
Proof. do 2 eexists. split; [vm_compute; reflexivity|]. split; [vm_compute; reflexivity|]. split; [vm_compute; discriminate|reflexivity]. Qed.

(** C72. The check is no authentication: it is linear, and so is the encryption. *)
Theorem C72_linear : forall be room addr a b x y z, 0 <= a -> 0 <= b -> nbytes a < 2 ^ 32 -> nbytes b < 2 ^ 32 ->
  appendCRC be room addr a = Ok x -> appendCRC be room addr b = Ok y -> appendCRC be room addr (Z.lxor a b) = Ok z ->
  z = Z.lxor x y.
Proof. exact L_C72_linear. Qed.
Print Assumptions C72_linear.

(** Whoever sees the ciphertext of an unknown message under an unknown key makes the one of the message changed by
    [d], from [d] alone; the allocator and the addresses of the two programs need not agree. *)
Theorem C72_forge : forall e iv v room' addr' key m d c t, block_cipher (block e) -> iv_block e iv = Ok v ->
  0 < m -> 0 < d -> nbytes (Z.lxor m d) = nbytes m -> nbytes m <= 124 ->
  encryptCRC e iv key m = Ok c -> appendCRC (big_endian_host e) room' addr' d = Ok t ->
  encryptCRC e iv key (Z.lxor m d) = Ok (Z.lxor c t).
Proof. exact L_C72_forge. Qed.
Print Assumptions C72_forge.

(** If the original is accepted, so is the changed one, for every change that spares the leading byte. *)
Theorem C72_accepted : forall e iv v room' addr' key m d c t, block_cipher (block e) -> iv_block e iv = Ok v ->
  big_endian_host e = false -> 0 < m -> 0 < d -> nbytes d < nbytes m -> nbytes m <= 124 ->
  encryptCRC e iv key m = Ok c -> decryptCRC e iv key c = Ok m -> appendCRC (big_endian_host e) room' addr' d = Ok t ->
  decryptCRC e iv key (Z.lxor c t) = Ok (Z.lxor m d).
Proof. exact L_C72_accepted. Qed.
Print Assumptions C72_accepted.

(** 1000 paid to 17 becomes 1000000 paid to 34. *)
Example C72_case : exists c t, encryptCRC small (init iv_start) akey (5 * 256 ^ 15 + 17 * 256 ^ 8 + 1000) = Ok c /\
  decryptCRC small (init iv_start) akey c = Ok (5 * 256 ^ 15 + 17 * 256 ^ 8 + 1000) /\
  appendCRC false (fun len => len + 4) 64 (Z.lxor 17 34 * 256 ^ 8 + Z.lxor 1000 1000000) = Ok t /\
  decryptCRC small (init iv_start) akey (Z.lxor c t) = Ok (5 * 256 ^ 15 + 34 * 256 ^ 8 + 1000000).
Proof.
  eexists. eexists. split; [vm_compute; reflexivity|]. split; [vm_compute; reflexivity|].
  split; [vm_compute; reflexivity|vm_compute; reflexivity].
Qed.
