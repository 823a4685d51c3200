(** Vocabulary for any number of oblivious transfers with a sender that answers as it likes, beside a world in which both messages are
    read off its answers. *)
From Coq Require Import ZArith Bool List.
From Verif Require Import Outcome FieldModel CurveParams EccModel SpecEcc DmeModel SpecDme OtModel SpecCount SpecDdh SpecDdh2.
Import ListNotations.
Open Scope Z_scope.

(** what happened so far, the oldest first: the public key of the receiver and what it got out of the answer *)
Definition exchange : Type := (elt * elt) * res point.

Section Send.
  Variables (dbg : bool) (live : Z -> bool).
  (** B has the branch that the receiver wants next; G is the sender: it answers a public key by any list of pairs of points. Both may
      depend on all that happened so far. *)
  Fixpoint received (R : otrecv) (B : list exchange -> Z) (G : list exchange -> elt * elt -> list ctxt) (rs : list Z) (h : list exchange) : res (list exchange) :=
    match rs with
    | [] => Ok h
    | r :: l =>
        do x <- selectMsg dbg live R (B h) r;
        let v := elts (snd x) in
        received (fst x) B G l (h ++ [(v, decryptMsg dbg live (fst x) (G h v))])
    end.
  (** The same without the branch: whoever has the trapdoor of the string D sends a key of TrapKeyGen, opens both parts of the answer,
      and the receiver is handed the one that it wants. *)
  Fixpoint extracted (D : dme) (B : list exchange -> Z) (G : list exchange -> elt * elt -> list ctxt) (rs : list Z) (h : list exchange) : res (list exchange) :=
    match rs with
    | [] => Ok h
    | r :: l =>
        do x <- TrapKeyGen dbg live D r;
        let '(pk, sk0, sk1) := x in
        let v := elts pk in
        let cs := G h v in
        let m0 := do ct <- vat cs 0; Dec dbg live sk0 ct in
        let m1 := do ct <- vat cs 1; Dec dbg live sk1 ct in
        extracted D B G l (h ++ [(v, if B h =? 0 then m0 else m1)])
    end.
  (** in how many ways the n transfers end with exchanges that A says yes to *)
  Definition tried (run : list Z -> res (list exchange)) (n : nat) (A : list exchange -> bool) (N : Z) : Prop :=
    how_many (fun rs => length rs = n /\ Forall draw rs /\ exists h, run rs = Ok h /\ A h = true) N.
End Send.
