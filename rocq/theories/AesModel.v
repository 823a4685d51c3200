(** Model of src/utilities/aes.cpp and includes/aes.hpp. *)
From Coq Require Import ZArith List Bool.
From Verif Require Import Outcome CrcModel.
Import ListNotations.
Open Scope Z_scope.

(** What the code gets from its surroundings. The block cipher of OpenSSL is not part of the repository: it is any
    function of a 16-byte key and a 16-byte block. *)
Record env := {
  big_endian_host : bool;
  room : Z -> Z;                          (* bytes usable in a malloc block, by requested length (see appendCRC) *)
  heap : Z;                               (* address malloc returned; one address stands for all blocks *)
  block : list Z -> list Z -> list Z;     (* AES-128 on one block *)
  after_iv : list Z                       (* bytes readable behind the terminating NUL of AES::iv; [] when there are none *)
}.

(** The static member AES::iv (src/utilities/aes.cpp:14, default-constructed) as a list of bytes. *)
Definition iv_start : list Z := [].

(** The namespace-level string of includes/aes.hpp:19: built from a C literal that starts with a NUL, hence empty. *)
Definition iv_namespace : list Z := [].

(** AES::init(iv), src/utilities/aes.cpp:30-33: the parameter is stored. *)
Definition init_with (iv : list Z) (_ : list Z) : list Z := iv.

(** AES::init(), src/utilities/aes.cpp:35-38: in a member function the name iv is the member itself. *)
Definition init (iv : list Z) : list Z := iv.

(** The 16 bytes EVP_EncryptInit_ex reads through AES::iv.c_str(). *)
Definition iv_block (e : env) (iv : list Z) : res (list Z) :=
  let readable := iv ++ 0 :: after_iv e in
  if Z.of_nat (length readable) <? 16 then Err OutOfBounds else Ok (firstn 16 readable).

(** The 16 bytes it reads through keyarr. A null key is not set, and the update call then aborts or crashes. *)
Definition key_block (key : Z) : res (list Z) :=
  let ks := getRawMpz key in
  if Z.of_nat (length ks) =? 0 then Err NullDeref
  else if Z.of_nat (length ks) <? 16 then Err OutOfBounds
  else Ok (firstn 16 ks).

(** The counter block: 16 bytes, most significant first, modulo 2^128. *)
Definition block_of (z : Z) : list Z := map (fun i => (z / 256 ^ Z.of_nat (15 - i)) mod 256) (seq 0 16).

(** EVP_aes_128_ctr: [n] blocks of key stream, counter starting at the iv. *)
Definition stream (e : env) (key iv : list Z) (n : nat) : list Z :=
  flat_map (fun i => block e key (block_of (setRawMpz iv + Z.of_nat i))) (seq 0 n).

Fixpoint xor_bytes (a b : list Z) : list Z :=
  match a, b with x :: a', y :: b' => Z.lxor x y :: xor_bytes a' b' | _, _ => [] end.

Definition ctr (e : env) (key iv bs : list Z) : list Z := xor_bytes bs (stream e key iv (length bs / 16 + 1)).

(** Conversion to int. *)
Definition s32 (z : Z) : Z := let u := z mod 2 ^ 32 in if u <? 2 ^ 31 then u else u - 2 ^ 32.

(** The part shared by encrypt and decrypt (lines 40-89 and 91-143, which differ only in names: in counter mode
    both directions are the same). The length is passed as int: a negative one makes the update call fail and
    handleErrors abort; the output goes to a 128-byte array. The context and its allocation failures are not
    modelled; the buffers that stay allocated are in HeapModel. EVP_*Final_ex writes nothing in this mode. *)
Definition crypt (e : env) (iv : list Z) (text key : Z) : res Z :=
  let arr := getRawMpz text in
  do k <- key_block key;
  do v <- iv_block e iv;
  let inl := s32 (Z.of_nat (length arr)) in
  if inl <? 0 then Err AssertFail
  else if 128 <? inl then Err OutOfBounds
  else Ok (setRawMpz (ctr e k v (firstn (Z.to_nat inl) arr))).

(** AES::encrypt, src/utilities/aes.cpp:40-89, with the parameters in the order of the definition. *)
Definition encrypt (e : env) (iv : list Z) (plaintext key : Z) : res Z := crypt e iv plaintext key.

(** AES::decrypt, src/utilities/aes.cpp:91-143. *)
Definition decrypt (e : env) (iv : list Z) (cipher key : Z) : res Z := crypt e iv cipher key.

(** A call written after the declarations in includes/aes.hpp:35,38: encrypt(key, plaintext), decrypt(key, cipher).
    Both parameters have type mpz_class, so it is a call of the functions above with first and second argument in place. *)
Definition encrypt_as_declared (e : env) (iv : list Z) (key plaintext : Z) : res Z :=
  let first := key in let second := plaintext in encrypt e iv first second.
Definition decrypt_as_declared (e : env) (iv : list Z) (key cipher : Z) : res Z :=
  let first := key in let second := cipher in decrypt e iv first second.

(** AES::encryptCRC, src/utilities/aes.cpp:145-149 *)
Definition encryptCRC (e : env) (iv : list Z) (key plaintext : Z) : res Z :=
  do msg <- appendCRC (big_endian_host e) (room e) (heap e) plaintext;
  encrypt e iv msg key.

(** AES::decryptCRC, src/utilities/aes.cpp:151-162 *)
Definition decryptCRC (e : env) (iv : list Z) (key cipher : Z) : res Z :=
  do m <- decrypt e iv cipher key;
  do ok <- validateCRC (big_endian_host e) (heap e) m;
  if ok then removeCRC m else Ok 0.
