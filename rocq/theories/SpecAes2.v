(** Vocabulary for the statements about AES-128 and counter mode with a permutation. *)
From Coq Require Import ZArith List Bool.
From Verif Require Import Outcome SpecCrc CrcModel AesModel SpecAes Aes128.
Import ListNotations.
Open Scope Z_scope.

(** sixteen bytes *)
Definition is16 (l : list Z) : Prop := length l = 16%nat /\ Forall byte l.

(** different blocks have different images under the key *)
Definition injective (f : list Z -> list Z -> list Z) (k : list Z) : Prop :=
  forall b b', is16 b -> is16 b' -> f k b = f k b' -> b = b'.

(** block number i and block number j of a list are the same sixteen values *)
Definition same_block (l : list Z) (i j : nat) : Prop :=
  forall r, (r < 16)%nat -> nth (16 * i + r) l 0 = nth (16 * j + r) l 0.

(** surroundings with the real cipher: a little-endian host with glibc's malloc, and fifteen zero bytes behind the empty AES::iv
    (libstdc++ keeps the characters of a short string in the object, and this object is static) *)
Definition real_env : env := {|
  big_endian_host := false; room := glibc; heap := 4096; block := aes128; after_iv := repeat 0 15 |}.
