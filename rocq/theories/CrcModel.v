(** Model of includes/crc.hpp and of the byte conversions in src/utilities/utilities.cpp. *)
From Coq Require Import ZArith List Bool.
From Verif Require Import Outcome CrcTables.
Import ListNotations.
Open Scope Z_scope.

(** ** Memory *)

(** A readable object: its address and the values of its bytes. Not from the source: C++ pointers into it are
    modelled by offsets; a read outside is [Err OutOfBounds]. *)
Record buf := { base : Z; bytes : list Z }.

(** [*(p)] on unsigned char. *)
Definition rd (m : buf) (p : Z) : res Z :=
  if (0 <=? p) && (p <? Z.of_nat (length (bytes m))) then Ok (nth (Z.to_nat p) (bytes m) 0) else Err OutOfBounds.

(** [*(const uint32_t * )p] on a little-endian host; the address must be a multiple of 4.
    Simplification: the aliasing rule of C++ (an unsigned char object read as uint32_t) is not modelled. *)
Definition rd32 (m : buf) (p : Z) : res Z :=
  if (base m + p) mod 4 =? 0 then
    do b0 <- rd m p; do b1 <- rd m (p + 1); do b2 <- rd m (p + 2); do b3 <- rd m (p + 3);
    Ok (Z.lor b0 (Z.lor (Z.shiftl b1 8) (Z.lor (Z.shiftl b2 16) (Z.shiftl b3 24))))
  else Err Misaligned.

(** [t[i]] on a table. *)
Definition tab (t : list Z) (i : Z) : res Z :=
  if (0 <=? i) && (i <? Z.of_nat (length t)) then Ok (nth (Z.to_nat i) t 0) else Err OutOfBounds.

(** Unsigned conversions. *)
Definition u32 (z : Z) : Z := z mod 2 ^ 32.
Definition u64 (z : Z) : Z := z mod 2 ^ 64.

(** [for (li = 0; li < n; li++)] with a body that does not use li. *)
Fixpoint timesM {S} (n : nat) (f : S -> res S) (s : S) : res S :=
  match n with
  | O => Ok s
  | S n' => do s' <- f s; timesM n' f s'
  end.

(** ** CRC *)

(** The loop body shared by singletable_crc32c and the head and tail loops of crc32c_sb8_64_bit:
    [crc = t[(crc ^ *p++) & 0xff] ^ (crc >> 8)] (includes/crc.hpp:217, 697-698, 734-735). *)
Definition byte_step (t : list Z) (m : buf) (s : Z * Z) : res (Z * Z) :=
  let '(crc, p) := s in
  do b <- rd m p;
  do e <- tab t (Z.land (Z.lxor crc b) 0xFF);
  Ok (Z.lxor e (Z.shiftr crc 8), p + 1).

(** includes/crc.hpp:210-220 *)
Definition singletable_crc32c (m : buf) (crc size : Z) : res Z :=
  do s <- timesM (Z.to_nat size) (byte_step crc32Table m) (crc, 0); Ok (fst s).

(** The body of the eight-byte loop (includes/crc.hpp:699-732); [be] is BYTE_ORDER == BIG_ENDIAN.
    The three reads of the same word in lines 722-725 are one read here. *)
Definition sb8_step (be : bool) (m : buf) (s : Z * Z) : res (Z * Z) :=
  let '(crc, p) := s in
  do s1 <-
    (if be then
       do b0 <- rd m p; do b1 <- rd m (p + 1); do b2 <- rd m (p + 2); do b3 <- rd m (p + 3);
       Ok (Z.lxor (Z.lxor (Z.lxor (Z.lxor crc b0) (Z.shiftl b1 8)) (Z.shiftl b2 16)) (Z.shiftl b3 24))
     else do w <- rd32 m p; Ok (Z.lxor crc w));
  let crc := s1 in
  do t88 <- tab sctp_crc_tableil8_o88 (Z.land crc 0xFF);
  do t80 <- tab sctp_crc_tableil8_o80 (Z.land (Z.shiftr crc 8) 0xFF);
  let term1 := Z.lxor t88 t80 in
  let term2 := Z.shiftr crc 16 in
  do t72 <- tab sctp_crc_tableil8_o72 (Z.land term2 0xFF);
  do t64 <- tab sctp_crc_tableil8_o64 (Z.land (Z.shiftr term2 8) 0xFF);
  let crc := Z.lxor (Z.lxor term1 t72) t64 in
  if be then
    do b4 <- rd m (p + 4); do t56 <- tab sctp_crc_tableil8_o56 b4; let crc := Z.lxor crc t56 in
    do b5 <- rd m (p + 5); do t48 <- tab sctp_crc_tableil8_o48 b5; let crc := Z.lxor crc t48 in
    do b6 <- rd m (p + 6); do t40 <- tab sctp_crc_tableil8_o40 b6; let crc := Z.lxor crc t40 in
    do b7 <- rd m (p + 7); do t32 <- tab sctp_crc_tableil8_o32 b7; let crc := Z.lxor crc t32 in
    Ok (crc, p + 8)
  else
    do w <- rd32 m (p + 4);
    do t56 <- tab sctp_crc_tableil8_o56 (Z.land w 0xFF);
    do t48 <- tab sctp_crc_tableil8_o48 (Z.land (Z.shiftr w 8) 0xFF);
    let term1 := Z.lxor t56 t48 in
    let term2 := Z.shiftr w 16 in
    do t40 <- tab sctp_crc_tableil8_o40 (Z.land term2 0xFF);
    do t32 <- tab sctp_crc_tableil8_o32 (Z.land (Z.shiftr term2 8) 0xFF);
    Ok (Z.lxor (Z.lxor (Z.lxor crc term1) t40) t32, p + 8).

(** includes/crc.hpp:682-737 *)
Definition crc32c_sb8_64_bit (be : bool) (m : buf) (crc len init_bytes : Z) : res Z :=
  let running_length := u32 (u32 (len - init_bytes) / 8 * 8) in
  let end_bytes := u32 (len - init_bytes - running_length) in
  do s <- timesM (Z.to_nat init_bytes) (byte_step sctp_crc_tableil8_o32 m) (crc, 0);
  do s <- timesM (Z.to_nat (running_length / 8)) (sb8_step be m) s;
  do s <- timesM (Z.to_nat end_bytes) (byte_step sctp_crc_tableil8_o32 m) s;
  Ok (fst s).

(** includes/crc.hpp:739-751 *)
Definition multitable_crc32c (be : bool) (m : buf) (crc len : Z) : res Z :=
  if len =? 0 then Ok crc
  else
    let to_even_word := 4 - Z.land (base m) 3 in
    crc32c_sb8_64_bit be m crc len to_even_word.

(** includes/crc.hpp:753-763; the length parameter is an unsigned int, so callers passing a size_t lose its high half. *)
Definition calculate_crc32c (be : bool) (m : buf) (crc len : Z) : res Z :=
  let len := u32 len in
  if len <? 4 then singletable_crc32c m crc len else multitable_crc32c be m crc len.

(** ** Bytes of an integer *)

Fixpoint digits (fuel : nat) (n : Z) (acc : list Z) : list Z :=
  match fuel with
  | O => acc
  | S f => if n =? 0 then acc else digits f (n / 256) (n mod 256 :: acc)
  end.

(** utils::getRawMpz, src/utilities/utilities.cpp:15-20: mpz_export with order 1 (most significant first), size 1,
    no nails. GMP ignores the sign, writes no leading zero byte, allocates exactly as many bytes as it writes,
    and for 0 writes nothing and returns the NULL it was given. The empty list stands for that NULL. *)
Definition getRawMpz (n : Z) : list Z := let a := Z.abs n in digits (Z.to_nat (Z.log2 a + 1)) a [].

(** utils::setRawMpz, src/utilities/utilities.cpp:21-26 (mpz_import, most significant byte first). *)
Definition setRawMpz (bs : list Z) : Z := fold_left (fun a b => a * 256 + b) bs 0.

(** The bytes of a uint32_t object. *)
Definition obj32 (be : bool) (w : Z) : list Z :=
  let le := [Z.land w 255; Z.land (Z.shiftr w 8) 255; Z.land (Z.shiftr w 16) 255; Z.land (Z.shiftr w 24) 255] in
  if be then rev le else le.

(** ** Appending, checking and removing *)

(** appendCRC, includes/crc.hpp:766-778. [addr] is the address malloc returned, [room len] the number of bytes that can
    be used in a block for which [len] were requested. The buffer is never freed (HeapModel). *)
Definition appendCRC (be : bool) (room : Z -> Z) (addr n : Z) : res Z :=
  let res := getRawMpz n in
  let len := Z.of_nat (length res) in
  do crc <- calculate_crc32c be {| base := addr; bytes := res |} 0 len;
  if len =? 0 then Err NullDeref
  else if room len <? len + 4 then Err OutOfBounds
  else Ok (setRawMpz (res ++ obj32 be crc)).

(** validateCRC, includes/crc.hpp:780-795. The subtraction len-4 is on size_t. *)
Definition validateCRC (be : bool) (addr n : Z) : res bool :=
  let res := getRawMpz n in
  let len := Z.of_nat (length res) in
  let m := {| base := addr; bytes := res |} in
  if len =? 0 then Err NullDeref
  else
    do b0 <- rd m (len - 4); do b1 <- rd m (len - 3); do b2 <- rd m (len - 2); do b3 <- rd m (len - 1);
    let value := Z.lor (Z.lor (Z.lor b0 (Z.shiftl b1 8)) (Z.shiftl b2 16)) (Z.shiftl b3 24) in
    do crc <- calculate_crc32c be m 0 (u64 (len - 4));
    Ok (crc =? value).

(** removeCRC, includes/crc.hpp:797-805. For fewer than 4 bytes the size_t difference wraps to about 2^64 and
    mpz_import gives up on the size. *)
Definition removeCRC (n : Z) : res Z :=
  let res := getRawMpz n in
  let len := Z.of_nat (length res) in
  let count := u64 (len - 4) in
  if len <? count then Err Exhausted else Ok (setRawMpz (firstn (Z.to_nat count) res)).
