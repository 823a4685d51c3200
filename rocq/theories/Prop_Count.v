(** Property C104: how many ciphertexts AES::decryptCRC lets pass (src/utilities/aes.cpp, includes/crc.hpp).
    Everywhere the block function is arbitrary, and the key is any key: neither the one the ciphertext was made with nor
    a different one is special. *)
From Coq Require Import ZArith List Bool Lia.
From Verif Require Import Outcome CrcModel SpecCrc AesModel SpecAes SpecCount CountProofs Prop_Aes.
Import ListNotations.
Open Scope Z_scope.

(** C104. Among the 255 * 256^(n-1) positive integers of n bytes, those decrypted to a message under the given key. *)
Theorem C104_accepted : forall e iv v key k n, block_cipher (block e) -> iv_block e iv = Ok v ->
  leading16 (getRawMpz key) k -> big_endian_host e = false -> (5 <= n <= 128)%nat ->
  how_many (fun c => 0 < c /\ nbytes c = Z.of_nat n /\ exists m, m <> 0 /\ decryptCRC e iv key c = Ok m)
    (255 * 256 ^ (Z.of_nat n - 5) - (if stream_byte (block e) k v 0 =? 0 then 0 else 1)).
Proof. exact L_C104_accepted. Qed.
Print Assumptions C104_accepted.

(** Those that make decryptCRC read in front of its buffer. *)
Theorem C104_faults : forall e iv v key k n, block_cipher (block e) -> iv_block e iv = Ok v ->
  leading16 (getRawMpz key) k -> (4 <= n <= 128)%nat ->
  how_many (fun c => 0 < c /\ nbytes c = Z.of_nat n /\ exists f, decryptCRC e iv key c = Err f)
    (if stream_byte (block e) k v 0 =? 0 then 0 else 2 ^ 24).
Proof. exact L_C104_faults. Qed.
Print Assumptions C104_faults.

(** Every ciphertext of at most three bytes does. *)
Theorem C104_short : forall e iv v key k c, block_cipher (block e) -> iv_block e iv = Ok v ->
  leading16 (getRawMpz key) k -> 0 <= c < 2 ^ 24 -> exists f, decryptCRC e iv key c = Err f.
Proof. exact L_C104_short. Qed.
Print Assumptions C104_short.

(** No ciphertext of at most four bytes gives a message. *)
Theorem C104_four : forall e iv v key k c m, block_cipher (block e) -> iv_block e iv = Ok v ->
  leading16 (getRawMpz key) k -> big_endian_host e = false -> 0 <= c < 2 ^ 32 -> decryptCRC e iv key c = Ok m -> m = 0.
Proof. exact L_C104_four. Qed.
Print Assumptions C104_four.

(** With the block function of Prop_Aes the key stream begins with 4. Of the five-byte ciphertexts 254 are accepted: 1 of
    every 2^32, but for the missing one. Among them is the ciphertext of 7, but not the one of 4, which has no fifth byte. *)
Example C104_case :
  how_many (fun c => 0 < c /\ nbytes c = 5 /\ exists m, m <> 0 /\ decryptCRC small (init iv_start) akey c = Ok m) 254 /\
  how_many (fun c => 0 < c /\ nbytes c = 5 /\ exists f, decryptCRC small (init iv_start) akey c = Err f) (2 ^ 24) /\
  (exists c, encryptCRC small (init iv_start) akey 7 = Ok c /\ nbytes c = 5 /\ decryptCRC small (init iv_start) akey c = Ok 7) /\
  (exists c, encryptCRC small (init iv_start) akey 4 = Ok c /\ nbytes c = 4 /\ decryptCRC small (init iv_start) akey c = Ok 0) /\
  decryptCRC small (init iv_start) akey (3 * 256 ^ 3) = Ok 0.
Proof.
  assert (K : leading16 (getRawMpz akey) [1; 2; 3; 4; 5; 6; 7; 8; 9; 10; 11; 12; 13; 14; 15; 16])
    by (split; [vm_compute; reflexivity|exists []; vm_compute; reflexivity]).
  split; [exact (C104_accepted small (init iv_start) (repeat 0 16) akey _ 5 C46_toy eq_refl K eq_refl ltac:(lia))|].
  split; [exact (C104_faults small (init iv_start) (repeat 0 16) akey _ 5 C46_toy eq_refl K ltac:(lia))|].
  split; [eexists; split; [vm_compute; reflexivity|split; vm_compute; reflexivity]|].
  split; [eexists; split; [vm_compute; reflexivity|split; vm_compute; reflexivity]|]. vm_compute. reflexivity.
Qed.
