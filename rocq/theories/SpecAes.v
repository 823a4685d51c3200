(** Counter mode, stated on byte positions. *)
From Coq Require Import ZArith List Bool.
From Verif Require Import SpecCrc AesModel.
Import ListNotations.
Open Scope Z_scope.

(** a block function yields 16 bytes *)
Definition block_cipher (f : list Z -> list Z -> list Z) : Prop :=
  forall k b, length (f k b) = 16%nat /\ Forall byte (f k b).

(** byte [i] of the key stream: byte [i mod 16] of the encrypted counter [iv + i/16] *)
Definition stream_byte (f : list Z -> list Z -> list Z) (key iv : list Z) (i : nat) : Z :=
  nth (i mod 16) (f key (block_of (big_endian iv + Z.of_nat (i / 16)))) 0.

(** [out] is [inp] with the key stream added byte by byte *)
Definition ctr_of (f : list Z -> list Z -> list Z) (key iv inp out : list Z) : Prop :=
  length out = length inp /\ forall i, (i < length inp)%nat -> nth i out 0 = Z.lxor (nth i inp 0) (stream_byte f key iv i).

(** the 16 leading bytes *)
Definition leading16 (l k : list Z) : Prop := length k = 16%nat /\ exists r, l = k ++ r.

(** the 16 bytes of a counter, most significant first *)
Definition counter_bytes (z : Z) (b : list Z) : Prop :=
  length b = 16%nat /\ Forall byte b /\ big_endian b = z mod 2 ^ 128.
