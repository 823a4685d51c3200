(** Vocabulary for the reductions to the decisional Diffie-Hellman problem: many ElGamal encryptions under one key, each
    message chosen when all earlier ciphertexts have been seen. *)
From Coq Require Import ZArith Bool List.
From Verif Require Import Outcome FieldModel CurveParams EccModel SpecEcc ECOrder DmeModel SpecDme ElgamalModel SpecCount SpecDdh SpecDdh2.
Import ListNotations.
Open Scope Z_scope.

(** ciphertexts as the adversary sees them, the oldest first *)
Definition view (c : ctxt) : elt * elt := (den CV (cu c), den CV (cmv c)).

Section Games.
  Variables (dbg : bool) (live : Z -> bool).

  (** the ciphertexts of an encryption service with public key pk; M chooses the next message *)
  Fixpoint served (E : elgamal) (pk : point) (M : list (elt * elt) -> point) (seen : list (elt * elt)) (rs : list Z) : res (list (elt * elt)) :=
    match rs with
    | [] => Ok seen
    | r :: rs' => do c <- eg_encrypt dbg live E pk (M seen) r; served E pk M (seen ++ [view c]) rs'
    end.
  Definition service_guess (E : elgamal) (n : nat) {T} (coin : T -> Prop) (M : T -> elt -> list (elt * elt) -> point) (A : T -> elt -> list (elt * elt) -> bool) (N : Z) : Prop :=
    how_many (fun '(t, k, rs) => coin t /\ draw k /\ (length rs = n /\ Forall draw rs) /\
      exists pk l, pmulz dbg live CV (egen E) k = Ok pk /\ served E pk (M t (den CV pk)) [] rs = Ok l /\ A t (den CV pk) l = true) N.
  (** the same when the service encrypts random points instead *)
  Fixpoint served_random (E : elgamal) (pk : point) (rs : list (Z * Z)) : res (list (elt * elt)) :=
    match rs with
    | [] => Ok []
    | (r, z) :: rs' =>
        do P <- getRandomPoint dbg live CV (Some (eaddr E)) z; do c <- eg_encrypt dbg live E pk P r;
        do l <- served_random E pk rs'; Ok (view c :: l)
    end.
  Definition service_guess_random (E : elgamal) (n : nat) {T} (coin : T -> Prop) (A : T -> elt -> list (elt * elt) -> bool) (N : Z) : Prop :=
    how_many (fun '(t, ps, k) => and_draw (and_pairs n coin) (t, ps, k) /\
      exists pk l, pmulz dbg live CV (egen E) k = Ok pk /\ served_random E pk ps = Ok l /\ A t (den CV pk) l = true) N.

  (** M and A turned into a distinguisher that draws a pair for each message and makes every ciphertext of its three
      elements *)
  Fixpoint answered (X Y W : elt) (M : list (elt * elt) -> point) (seen : list (elt * elt)) (ps : list (Z * Z)) : list (elt * elt) :=
    match ps with
    | [] => seen
    | (p, q) :: ps' =>
        answered X Y W M (seen ++ [(gadd CV (gmul CV p Y) (pow q), gadd CV (gadd CV (gmul CV p W) (gmul CV q X)) (den CV (M seen)))]) ps'
    end.
  Definition with_messages {T} (M : T -> elt -> list (elt * elt) -> point) (A : T -> elt -> list (elt * elt) -> bool) (t : T * list (Z * Z)) (X Y W : elt) : bool :=
    A (fst t) X (answered X Y W (M (fst t) X) [] (snd t)).
End Games.
