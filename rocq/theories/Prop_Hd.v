(** Property C112: how far apart the numbers are that validateCRC accepts (includes/crc.hpp, src/utilities/aes.cpp). *)
From Coq Require Import ZArith List Bool.
From Verif Require Import Outcome CrcModel SpecCrc AesModel SpecAes SpecHd HdProofs HdProofs2.
Import ListNotations.
Open Scope Z_scope.

(** C112: two different accepted numbers of at most 659 bytes differ in at least six bits: a change of up to five is always noticed. *)
Theorem C112_distance : forall be be' addr addr' n n', 0 <= n -> 0 <= n' -> nbytes n <= 659 -> nbytes n' <= 659 ->
  validateCRC be addr n = Ok true -> validateCRC be' addr' n' = Ok true -> n <> n' -> 6 <= ones (Z.lxor n n').
Proof. exact L_C112_distance. Qed.
Print Assumptions C112_distance.

(** Up to 26 bytes they differ in at least eight. *)
Theorem C112_short : forall be be' addr addr' n n', 0 <= n -> 0 <= n' -> nbytes n <= 26 -> nbytes n' <= 26 ->
  validateCRC be addr n = Ok true -> validateCRC be' addr' n' = Ok true -> n <> n' -> 8 <= ones (Z.lxor n n').
Proof. exact L_C112_short. Qed.
Print Assumptions C112_short.

(** Every accepted number of more than 27 bytes has another one six bits away, ... *)
Theorem C112_six : forall be addr addr' n, 0 <= n -> 27 < nbytes n < 2 ^ 32 -> validateCRC be addr n = Ok true ->
  exists n', 0 <= n' /\ nbytes n' = nbytes n /\ ones (Z.lxor n n') = 6 /\ validateCRC be addr' n' = Ok true.
Proof. exact L_C112_six. Qed.
Print Assumptions C112_six.

(** ... and every one of more than 660 bytes has another one four bits away. *)
Theorem C112_four : forall be addr addr' n, 0 <= n -> 660 < nbytes n < 2 ^ 32 -> validateCRC be addr n = Ok true ->
  exists n', 0 <= n' /\ nbytes n' = nbytes n /\ ones (Z.lxor n n') = 4 /\ validateCRC be addr' n' = Ok true.
Proof. exact L_C112_four. Qed.
Print Assumptions C112_four.

(** A change of two bits goes unnoticed exactly if their places differ by a multiple of 2^31 - 1. *)
Theorem C112_two : forall be be' addr addr' n n' i j, 0 <= n -> 0 <= n' -> nbytes n < 2 ^ 32 -> 4 <= nbytes n' < 2 ^ 32 ->
  validateCRC be addr n = Ok true -> 0 <= i < j -> Z.lxor n n' = 2 ^ i + 2 ^ j ->
  (validateCRC be' addr' n' = Ok true <-> (2 ^ 31 - 1 | turn i - turn j)).
Proof. exact L_C112_two. Qed.
Print Assumptions C112_two.

(** Ciphertexts of one length (128 bytes are the most that fit) that decryptCRC accepts under one key differ in at least six bits. *)
Theorem C112_ciphertexts : forall e iv key c c' m m', block_cipher (block e) -> big_endian_host e = false -> 0 <= c -> 0 <= c' ->
  nbytes c = nbytes c' -> nbytes c <= 128 -> decryptCRC e iv key c = Ok m -> m <> 0 -> decryptCRC e iv key c' = Ok m' -> m' <> 0 -> c <> c' ->
  6 <= ones (Z.lxor c c').
Proof. exact L_C112_ciphertexts. Qed.
Print Assumptions C112_ciphertexts.

(** two accepted numbers of 28 bytes six bits apart, and two of 7 bytes *)
Example C112_case : let n := 0x1000000000000000000000000000000000000000000000007b04ab85 in
  validateCRC false 16 n = Ok true /\ validateCRC false 16 (Z.lxor n change6) = Ok true /\ ones change6 = 6 /\
  validateCRC false 16 0x123456E3618D46 = Ok true.
Proof. vm_compute. repeat split; reflexivity. Qed.
