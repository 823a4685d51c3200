(** Model of OPPRFclient::correctDecryption, /repo/src/opprf/opprf.cpp:154-158. Nothing calls it; runOTRound_end tests the checksum
    instead. *)
From Coq Require Import ZArith Bool List.
From Verif Require Import Outcome FieldModel EccModel OpprfModel.
Import ListNotations.
Open Scope Z_scope.

(** [even] is the static variable of opprf.cpp:156, one for all objects; the client and the point are not looked at; the remainder of
    an int is that of division towards zero; even++ on the largest int is undefined *)
Definition correctDecryption (even : Z) (C : client) (P : point) : res (bool * Z) :=
  if even =? 2 ^ 31 - 1 then Err SignedOverflow else Ok (negb (negb (Z.rem even 4 =? 0)), even + 1).

(** a sequence of calls, on any clients *)
Fixpoint decryption_checks (even : Z) (l : list (client * point)) : res (list bool * Z) :=
  match l with
  | [] => Ok ([], even)
  | (C, P) :: l' =>
      do r <- correctDecryption even C P;
      do s <- decryption_checks (snd r) l';
      Ok (fst r :: fst s, snd s)
  end.
