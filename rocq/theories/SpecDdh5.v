(** Vocabulary for the reductions to the decisional Diffie-Hellman problem: someone who listens to oblivious
    transfers and wants to know the choices. *)
From Coq Require Import ZArith Bool List.
From Verif Require Import Outcome FieldModel CurveParams EccModel SpecEcc ECOrder DmeModel SpecDme OtModel SpecCount SpecDdh SpecDdh2 SpecDdh3 SpecDdh4.
Import ListNotations.
Open Scope Z_scope.

(** conversations that differ in the branches only *)
Definition same_shape (l l' : list step) : Prop :=
  Forall2 (fun s s' => match s, s' with Key _, Key _ => True | Pair, Pair => True | _, _ => False end) l l'.
(** the branches of a conversation, and the rest of it *)
Definition branches (l : list step) : list Z := flat_map (fun s => match s with Key b => [b] | Pair => [] end) l.
Definition pairs_in (l : list step) : list step := filter (fun s => match s with Key _ => false | Pair => true end) l.
(** keys from one list, everything else random with the numbers from another *)
Fixpoint weave (l : list step) (ks : list (elt * elt)) (ps : list (list Z)) : heard :=
  match l, ks, ps with
  | Key _ :: l', k :: ks', _ => [k] :: weave l' ks' ps
  | Pair :: l', _, [i0; j0; i1; j1] :: ps' => [(pow i0, pow j0); (pow i1, pow j1)] :: weave l' ks ps'
  | _, _, _ => []
  end.
Definition keyed (l : list step) {T} (A : T -> four -> heard -> bool) : T * list (list Z) -> elt -> elt -> elt -> elt -> list (elt * elt) -> bool :=
  fun '(t, ps) a0 a1 b0 b1 ks => A t ((a0, a1), (b0, b1)) (weave l ks ps).
