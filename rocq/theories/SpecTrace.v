(** Vocabulary for the statements about sequences of point operations. *)
From Coq Require Import ZArith List.
From Verif Require Import TraceModel.
Import ListNotations.
Open Scope Z_scope.

(** What an onlooker makes of a sequence of operations: after a call of operator* the weight is 1, a doubling doubles it, an
    addition adds it to the number read so far; a return yields that number. *)
Definition look (s : Z * Z * list Z) (e : event) : Z * Z * list Z :=
  let '(w, a, l) := s in
  match e with
  | Multiply => (1, 0, l)
  | Double => (2 * w, a, l)
  | Copy | Opposite | Chord => (w, a + w, l)
  | Done => (w, a, l ++ [a])
  end.
Definition observed (l : list event) : list Z := snd (fold_left look l (1, 0, [])).

(** how often an event occurs *)
Definition same_event (x y : event) : bool :=
  match x, y with
  | Multiply, Multiply | Done, Done | Copy, Copy | Opposite, Opposite | Chord, Chord | Double, Double => true
  | _, _ => false
  end.
Definition occurrences (e : event) (l : list event) : Z := Z.of_nat (length (filter (same_event e) l)).

(** the number of ones among the [k] lowest binary digits *)
Fixpoint ones (k : nat) (v : Z) : Z :=
  match k with O => 0 | S k' => ones k' v + Z.b2z (Z.testbit v (Z.of_nat k')) end.
