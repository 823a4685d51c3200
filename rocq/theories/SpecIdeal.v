(** Vocabulary for any number of oblivious transfers with a receiver that sends any public keys it likes, beside a world in which
    the sender is asked for one message of every transfer only. *)
From Coq Require Import ZArith Bool List.
From Verif Require Import Outcome FieldModel CurveParams EccModel SpecEcc DmeModel SpecDme OtModel SpecCount SpecDdh SpecDdh3.
Import ListNotations.
Open Scope Z_scope.

(** the answers so far, the oldest first *)
Definition seen : Type := list (list (elt * elt)).
(** the message of branch b *)
Definition message_of (mm : point * point) (b : Z) : point := if b =? 0 then fst mm else snd mm.
Definition four (q : Z * Z * Z * Z) : Prop := let '(s0, t0, s1, t1) := q in draw s0 /\ draw t0 /\ draw s1 /\ draw t1.

Section Ideal.
  Variables (dbg : bool) (live : Z -> bool).
  (** K is the receiver: it makes the next public key of the answers so far. M has the messages of the next transfer, which may
      depend on the answers as well. *)
  Fixpoint transfers (S : otsndr) (K : seen -> pkey) (M : seen -> point * point) (ds : list (Z * Z * Z * Z)) (h : seen) : res seen :=
    match ds with
    | [] => Ok h
    | (s0, t0, s1, t1) :: l =>
        do x <- encMsgs dbg live S (K h) (message_of (M h) 0) (message_of (M h) 1) s0 t0 s1 t1;
        transfers (fst x) K M l (h ++ [map view (snd x)])
    end.
  (** The same without the sender's messages but one: whoever has the trapdoor of the string D finds out which branch of the key is
      messy, asks for the message of the other branch, and sends infinity in the place of the one it does not know. *)
  Fixpoint simulated (D : dme) (S : otsndr) (K : seen -> pkey) (M : seen -> point * point) (ds : list (Z * Z * Z * Z)) (h : seen) : res seen :=
    match ds with
    | [] => Ok h
    | (s0, t0, s1, t1) :: l =>
        do b <- FindMessy dbg live D (K h);
        let m := message_of (M h) (1 - b) in
        do x <- encMsgs dbg live S (K h) (if b =? 0 then pt_inf CV else m) (if b =? 0 then m else pt_inf CV) s0 t0 s1 t1;
        simulated D (fst x) K M l (h ++ [map view (snd x)])
    end.
  (** in how many ways the n transfers end with answers that A says yes to *)
  Definition counted (run : list (Z * Z * Z * Z) -> res seen) (n : nat) (A : seen -> bool) (N : Z) : Prop :=
    how_many (fun ds => length ds = n /\ Forall four ds /\ exists h, run ds = Ok h /\ A h = true) N.
End Ideal.
