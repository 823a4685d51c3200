(** Properties C41-C45: CRC and byte conversions (includes/crc.hpp, src/utilities/utilities.cpp). *)
From Coq Require Import ZArith List Bool Lia.
From Verif Require Import Outcome CrcModel SpecCrc CrcProofs CrcProofs2 CrcProofs3 CrcProofs4.
Import ListNotations.
Open Scope Z_scope.

(** C41: for every buffer, length, initial value and address the table routines compute the bit-by-bit register,
    without reading outside the buffer or at a misaligned address (either would be an [Err]). *)
Theorem C41_calculate : forall be m c len, Forall byte (bytes m) -> word c -> 0 <= len < 2 ^ 32 ->
  len <= Z.of_nat (length (bytes m)) ->
  calculate_crc32c be m c len = Ok (crc c (firstn (Z.to_nat len) (bytes m))).
Proof. exact L_C41_calculate. Qed.
Print Assumptions C41_calculate.

(** A length that does not fit an unsigned int is cut. *)
Theorem C41_long : forall be m c len, Forall byte (bytes m) -> word c ->
  len mod 2 ^ 32 <= Z.of_nat (length (bytes m)) ->
  calculate_crc32c be m c len = Ok (crc c (firstn (Z.to_nat (len mod 2 ^ 32)) (bytes m))).
Proof. exact L_calculate. Qed.
Print Assumptions C41_long.

Theorem C41_single : forall m c len, Forall byte (bytes m) -> 0 <= len <= Z.of_nat (length (bytes m)) ->
  singletable_crc32c m c len = Ok (crc c (firstn (Z.to_nat len) (bytes m))).
Proof. exact L_single. Qed.
Print Assumptions C41_single.

Theorem C41_slicing : forall be m c len, Forall byte (bytes m) -> word c -> 4 <= len < 2 ^ 32 ->
  len <= Z.of_nat (length (bytes m)) ->
  multitable_crc32c be m c len = Ok (crc c (firstn (Z.to_nat len) (bytes m))).
Proof. exact L_multi. Qed.
Print Assumptions C41_slicing.

(** The register holds the remainder of x^32 times the message by the Castagnoli polynomial. *)
Theorem C41_polynomial : forall bs, Forall byte bs ->
  0 <= reflect32 (crc 0 bs) < 2 ^ 32 /\
  exists q, Z.lxor (message_poly bs * 2 ^ 32) (reflect32 (crc 0 bs)) = clmul q poly.
Proof. exact L_C41_polynomial. Qed.
Print Assumptions C41_polynomial.

(** the usual check value: "123456789" with all ones in and out gives E3069283, here at an odd address *)
Example C41_case : let m := {| base := 4097; bytes := [0x31; 0x32; 0x33; 0x34; 0x35; 0x36; 0x37; 0x38; 0x39] |} in
  calculate_crc32c false m 0xFFFFFFFF 9 = Ok (Z.lxor 0xE3069283 0xFFFFFFFF) /\
  calculate_crc32c true m 0xFFFFFFFF 9 = Ok (Z.lxor 0xE3069283 0xFFFFFFFF).
Proof. vm_compute. split; reflexivity. Qed.

(** C42: append, validate, remove. *)
Theorem C42_roundtrip : forall room addr addr' n, 0 < n -> nbytes n + 4 < 2 ^ 64 -> nbytes n + 4 <= room (nbytes n) ->
  exists r, appendCRC false room addr n = Ok r /\ validateCRC false addr' r = Ok true /\ removeCRC r = Ok n.
Proof. exact L_C42. Qed.
Print Assumptions C42_roundtrip.

(** What is appended, on either byte order. *)
Theorem C42_value : forall room addr n, 0 < n -> nbytes n < 2 ^ 32 -> nbytes n + 4 <= room (nbytes n) ->
  exists c3 c2 c1 c0, Forall byte [c0; c1; c2; c3] /\ crc 0 (getRawMpz n) = little_endian [c0; c1; c2; c3] /\
    appendCRC false room addr n = Ok (n * 2 ^ 32 + big_endian [c0; c1; c2; c3]) /\
    appendCRC true room addr n = Ok (n * 2 ^ 32 + big_endian [c3; c2; c1; c0]).
Proof. exact L_C42_value. Qed.
Print Assumptions C42_value.

(** The sign is lost. *)
Theorem C42_negative : forall be room addr n, appendCRC be room addr (- n) = appendCRC be room addr n.
Proof. exact L_C42_negative. Qed.
Print Assumptions C42_negative.

(** On a big-endian host only values whose CRC reads the same in both orders are accepted again. *)
Theorem C42_big_endian : forall room addr addr' n, 0 < n -> nbytes n < 2 ^ 32 -> nbytes n + 4 <= room (nbytes n) ->
  exists r, appendCRC true room addr n = Ok r /\
    forall c0 c1 c2 c3, Forall byte [c0; c1; c2; c3] -> crc 0 (getRawMpz n) = little_endian [c0; c1; c2; c3] ->
      (validateCRC true addr' r = Ok true <-> c0 = c3 /\ c1 = c2).
Proof. exact L_C42_big. Qed.
Print Assumptions C42_big_endian.

Example C42_case : 
  appendCRC false (fun len => len + 4) 16 0x123456 = Ok 0x123456E3618D46 /\
  validateCRC false 16 0x123456E3618D46 = Ok true /\ removeCRC 0x123456E3618D46 = Ok 0x123456 /\
  validateCRC false 16 0x123456E3618D47 = Ok false /\
  appendCRC true (fun len => len + 4) 16 0x123456 = Ok 0x123456468D61E3 /\
  validateCRC true 16 0x123456468D61E3 = Ok false.
Proof. vm_compute. repeat split; reflexivity. Qed.

(** C43: memory. With exactly the bytes that were asked for, appendCRC always faults. *)
Theorem C43_append : forall be addr n,
  appendCRC be (fun len => len) addr n = Err (if n =? 0 then NullDeref else OutOfBounds).
Proof. exact L_C43_append. Qed.
Print Assumptions C43_append.

(** With an allocator that gives more, it faults exactly when fewer than 4 bytes are left. *)
Theorem C43_append_any : forall be room addr n, n <> 0 ->
  (appendCRC be room addr n = Err OutOfBounds <-> room (nbytes n) < nbytes n + 4).
Proof. exact L_C43_append_any. Qed.
Print Assumptions C43_append_any.

(** With glibc, for lengths above 20 that are 5, 6, 7 or 8 modulo 16. *)
Theorem C43_glibc : forall be addr n, n <> 0 ->
  (appendCRC be glibc addr n = Err OutOfBounds <-> 20 < nbytes n /\ 5 <= nbytes n mod 16 <= 8).
Proof. exact L_C43_glibc. Qed.
Print Assumptions C43_glibc.

(** validateCRC reads before the buffer for values below 2^24, and nowhere outside for others. *)
Theorem C43_validate : forall be addr n, (exists b, validateCRC be addr n = Ok b) <-> 2 ^ 24 <= Z.abs n.
Proof. exact L_C43_validate. Qed.
Print Assumptions C43_validate.

Theorem C43_validate_fault : forall be addr n, Z.abs n < 2 ^ 24 ->
  validateCRC be addr n = Err (if n =? 0 then NullDeref else OutOfBounds).
Proof. exact L_C43_validate_fault. Qed.
Print Assumptions C43_validate_fault.

(** removeCRC asks for about 2^64 bytes on such values. *)
Theorem C43_remove : forall n, nbytes n < 2 ^ 63 -> (removeCRC n = Err Exhausted <-> Z.abs n < 2 ^ 24).
Proof. exact L_C43_remove. Qed.
Print Assumptions C43_remove.

Example C43_case : nbytes (2 ^ 160) = 21 /\ appendCRC false glibc 16 (2 ^ 160) = Err OutOfBounds /\
  nbytes (2 ^ 127) = 16 /\ appendCRC false glibc 16 (2 ^ 127) <> Err OutOfBounds.
Proof.
  assert (A : nbytes (2 ^ 160) = 21) by (vm_compute; reflexivity).
  assert (B : nbytes (2 ^ 127) = 16) by (vm_compute; reflexivity).
  split; [exact A|]. split; [|split; [exact B|]].
  - apply (L_C43_glibc false 16 (2 ^ 160)); [discriminate|]. rewrite A. vm_compute. repeat split; discriminate.
  - intros E. apply (L_C43_glibc false 16 (2 ^ 127)) in E; [|discriminate]. rewrite B in E. destruct E as [E _]. discriminate E.
Qed.

(** C44: validateCRC accepts exactly what appendCRC produces (up to the sign). *)
Theorem C44_exact : forall room addr addr' n, (forall len, len + 4 <= room len) ->
  (validateCRC false addr n = Ok true <-> exists m, 0 < m /\ appendCRC false room addr' m = Ok (Z.abs n)).
Proof. exact L_C44_exact. Qed.
Print Assumptions C44_exact.

(** Any change confined to 4 consecutive bytes is noticed. *)
Theorem C44_burst : forall be addr addr' n n' j e, 0 <= n -> 0 <= n' -> nbytes n < 2 ^ 32 -> nbytes n' < 2 ^ 32 ->
  validateCRC be addr n = Ok true -> 0 <= j -> 0 < e < 2 ^ 32 -> Z.lxor n n' = e * 256 ^ j ->
  validateCRC be addr' n' <> Ok true.
Proof. exact L_C44_burst. Qed.
Print Assumptions C44_burst.

(** Any change of an odd number of bits is noticed. *)
Theorem C44_odd : forall be addr addr' n n', 0 <= n -> 0 <= n' -> nbytes n < 2 ^ 32 -> nbytes n' < 2 ^ 32 ->
  validateCRC be addr n = Ok true -> parity (Z.lxor n n') = true -> validateCRC be addr' n' <> Ok true.
Proof. exact L_C44_parity. Qed.
Print Assumptions C44_odd.

(** Any change of two bits less than 2^31-16 places apart is noticed. *)
Theorem C44_two_bits : forall be addr addr' n n' i j, 0 <= n -> 0 <= n' -> nbytes n < 2 ^ 32 -> nbytes n' < 2 ^ 32 ->
  validateCRC be addr n = Ok true -> 0 <= i < j -> j - i < 2 ^ 31 - 16 -> Z.lxor n n' = 2 ^ i + 2 ^ j ->
  validateCRC be addr' n' <> Ok true.
Proof. exact L_C44_two. Qed.
Print Assumptions C44_two_bits.

Example C44_case : let n := 0x123456E3618D46 in let n' := 0x5656E3618D46 in
  validateCRC false 16 n = Ok true /\ Z.lxor n n' = 0x1262 * 256 ^ 5 /\ validateCRC false 16 n' = Ok false.
Proof. vm_compute. repeat split; reflexivity. Qed.

(** C45: conversion to bytes and back. *)
Theorem C45_export : forall n, shortest (getRawMpz n) (Z.abs n).
Proof. exact L_getRaw. Qed.
Print Assumptions C45_export.

Theorem C45_unique : forall bs n, shortest bs n -> getRawMpz n = bs.
Proof. exact getRaw_unique. Qed.
Print Assumptions C45_unique.

Theorem C45_length : forall n, Z.of_nat (length (getRawMpz n)) = nbytes n.
Proof. exact getRaw_length. Qed.
Print Assumptions C45_length.

Theorem C45_roundtrip : forall n, setRawMpz (getRawMpz n) = Z.abs n.
Proof. exact L_roundtrip. Qed.
Print Assumptions C45_roundtrip.

Theorem C45_import : forall bs, setRawMpz bs = big_endian bs.
Proof. exact setRaw_be. Qed.
Print Assumptions C45_import.

(** Leading zero bytes do not survive. *)
Theorem C45_zeros : forall k bs, setRawMpz (repeat 0 k ++ bs) = setRawMpz bs.
Proof. exact L_import_zeros. Qed.
Print Assumptions C45_zeros.

Theorem C45_reexport : forall bs, Forall byte bs -> exists k, bs = repeat 0 k ++ getRawMpz (setRawMpz bs).
Proof. exact L_reexport. Qed.
Print Assumptions C45_reexport.

Example C45_case : getRawMpz (-0x123456) = [0x12; 0x34; 0x56] /\ getRawMpz 0 = [] /\ setRawMpz [0; 0; 1; 2] = 0x102.
Proof. vm_compute. repeat split; reflexivity. Qed.
