(** Vocabulary for a receiver of oblivious transfers that sends any public key it likes. *)
From Coq Require Import ZArith Bool List.
From Verif Require Import Outcome FieldModel CurveParams EccModel SpecEcc DmeModel SpecDme OtModel SpecCount SpecDdh SpecDdh3.
Import ListNotations.
Open Scope Z_scope.

Section Cheat.
  Variables (dbg : bool) (live : Z -> bool).
  (** the answer of the sender S to the public key pk; branch b carries m, the other branch carries o *)
  Definition answer (S : otsndr) (pk : pkey) (b : Z) (m o : point) (s0 t0 s1 t1 : Z) : res (otsndr * list ctxt) :=
    encMsgs dbg live S pk (if b =? 0 then m else o) (if b =? 0 then o else m) s0 t0 s1 t1.
  (** how often A says yes to the answer *)
  Definition judged (S : otsndr) (pk : pkey) (b : Z) (m o : point) (A : list (elt * elt) -> bool) (N : Z) : Prop :=
    how_many (fun '(s0, t0, s1, t1) => draw s0 /\ draw t0 /\ draw s1 /\ draw t1 /\
      exists S' cs, answer S pk b m o s0 t0 s1 t1 = Ok (S', cs) /\ A (map view cs) = true) N.
  (** the answer says nothing about the message of branch b: everybody says yes equally often, whatever it is *)
  Definition hidden (S : otsndr) (pk : pkey) (b : Z) : Prop :=
    forall m m' o A, is_valid live m -> is_valid live m' -> is_valid live o -> exists N, judged S pk b m o A N /\ judged S pk b m' o A N.
  (** the message of branch b is a function of the answer, whatever the draws *)
  Definition revealed (S : otsndr) (pk : pkey) (b : Z) : Prop :=
    exists f : list (elt * elt) -> elt, forall m o s0 t0 s1 t1, is_valid live m -> is_valid live o ->
      exists S' cs, answer S pk b m o s0 t0 s1 t1 = Ok (S', cs) /\ f (map view cs) = den CV m.
  (** a public key of points of the curve, not both infinite *)
  Definition some_key (pk : pkey) : Prop := pk_valid live pk /\ (pinf (pg pk) = false \/ pinf (ph pk) = false).
  (** a string on which some such key reveals both messages *)
  Definition double_string (S : otsndr) : Prop := exists pk, some_key pk /\ revealed S pk 0 /\ revealed S pk 1.
End Cheat.
