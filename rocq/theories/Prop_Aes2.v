(** Property C111: AES-128 itself in the place of the arbitrary block function (src/utilities/aes.cpp). *)
From Coq Require Import ZArith List Bool Lia.
From Verif Require Import Outcome SpecCrc CrcModel AesModel SpecAes Aes128 SpecAes2 Aes128Proofs Aes128Proofs2 SpecPair.
Import ListNotations.
Open Scope Z_scope.

(** C111: the block function below gives the answers of FIPS 197, appendices B and C.1; *)
Theorem C111_answers :
  aes128 (block_of 0x2b7e151628aed2a6abf7158809cf4f3c) (block_of 0x3243f6a8885a308d313198a2e0370734) = block_of 0x3925841d02dc09fbdc118597196a0b32 /\
  aes128 (block_of 0x000102030405060708090a0b0c0d0e0f) (block_of 0x00112233445566778899aabbccddeeff) = block_of 0x69c4e0d86a7b0430d8cdb78070b4c55a.
Proof. exact L_C111_answers. Qed.
Print Assumptions C111_answers.

(** NIST SP 800-38A, F.5.1 and F.5.2 (CTR-AES128), through AES::encrypt and AES::decrypt *)
Example C111_nist :
  let iv := block_of 0xf0f1f2f3f4f5f6f7f8f9fafbfcfdfeff in
  let key := 0x2b7e151628aed2a6abf7158809cf4f3c in
  let text := 0x6bc1bee22e409f96e93d7e117393172aae2d8a571e03ac9c9eb76fac45af8e5130c81c46a35ce411e5fbc1191a0a52eff69f2445df4f9b17ad2b417be66c3710 in
  let cipher := 0x874d6191b620e3261bef6864990db6ce9806f66b7970fdff8617187bb9fffdff5ae4df3edbd5d35e5b4f09020db03eab1e031dda2fbe03d1792170a0f3009cee in
  encrypt real_env iv text key = Ok cipher /\ decrypt real_env iv cipher key = Ok text.
Proof. vm_compute. split; reflexivity. Qed.

(** the table used for SubBytes is the inverse followed by the affine map, as in the standard; *)
Theorem C111_sbox : forall x, byte x -> exists y, byte y /\ (if x =? 0 then y = 0 else bmul x y = 1) /\ sbox x = affine y.
Proof. exact L_C111_sbox. Qed.
Print Assumptions C111_sbox.

(** AES-128 meets the condition under which the other theorems hold, *)
Theorem C111_cipher : block_cipher aes128.
Proof. exact L_C111_cipher. Qed.
Print Assumptions C111_cipher.

(** and every key gives a permutation of the blocks. *)
Theorem C111_permutation : forall k, is16 k ->
  exists inv, forall b, is16 b -> inv (aes128 k b) = b /\ is16 (inv b) /\ aes128 k (inv b) = b.
Proof. exact L_C111_permutation. Qed.
Print Assumptions C111_permutation.

(** With a permutation no block of key stream comes twice, *)
Theorem C111_stream : forall f k iv i j, block_cipher f -> injective f k -> (i < j)%nat -> Z.of_nat j - Z.of_nat i < 2 ^ 128 ->
  ~ (forall r, (r < 16)%nat -> stream_byte f k iv (16 * i + r) = stream_byte f k iv (16 * j + r)).
Proof. exact L_C111_stream. Qed.
Print Assumptions C111_stream.

(** so equal blocks of the message never become equal blocks of the ciphertext: who sees two equal blocks knows that the message's differ. *)
Theorem C111_blocks : forall e iv v text key k, block_cipher (block e) -> injective (block e) k -> iv_block e iv = Ok v ->
  leading16 (getRawMpz key) k -> nbytes text <= 128 ->
  exists out, length out = length (getRawMpz text) /\ encrypt e iv text key = Ok (big_endian out) /\
    forall i j, (i < j)%nat -> (16 * j + 16 <= length out)%nat -> same_block (getRawMpz text) i j -> ~ same_block out i j.
Proof. exact L_C111_blocks. Qed.
Print Assumptions C111_blocks.

(** Of the 256^16 initial vectors exactly one in 256 lets decryption recover every message (for the others see C46_roundtrip_refuted). *)
Theorem C111_vectors : forall e key k, block e = aes128 -> leading16 (getRawMpz key) k ->
  has_size (fun v => is16 v) (256 ^ 16) /\
  has_size (fun v => is16 v /\ forall m, 0 < m -> nbytes m <= 128 -> exists c, encrypt e v m key = Ok c /\ decrypt e v c key = Ok m) (256 ^ 15).
Proof. exact (fun e key k EB K => conj L_C111_blocks_count (L_C111_good e key k EB K)). Qed.
Print Assumptions C111_vectors.

(** the key of the standard with the vector that AES::init() leaves, sixteen zeros: 0x7d is encrypted to 0 and lost; 0x7e01 is not *)
Example C111_case : let key := 0x2b7e151628aed2a6abf7158809cf4f3c in
  iv_block real_env (init iv_start) = Ok (repeat 0 16) /\ leading16 (getRawMpz key) (block_of key) /\ injective (block real_env) (block_of key) /\
  encrypt real_env (init iv_start) 0x7d key = Ok 0 /\ decrypt real_env (init iv_start) 0 key = Ok 0 /\
  encrypt real_env (init iv_start) 0x7e01 key = Ok 0x03f6 /\ decrypt real_env (init iv_start) 0x03f6 key = Ok 0x7e01.
Proof.
  intros key. split; [reflexivity|]. split; [split; [reflexivity|exists []; reflexivity]|]. split; [apply L_C111_injective, counter_16|].
  vm_compute. split; [|split; [|split]]; reflexivity.
Qed.
