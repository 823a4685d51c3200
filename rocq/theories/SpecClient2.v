(** Vocabulary for the draws that hide one share of the oblivious PRF. *)
From Coq Require Import ZArith Bool List.
From Verif Require Import OpprfModel.
Open Scope Z_scope.

(** p with the draw x for the point r of the server (opprf.cpp:36) and o for the scalar that belongs to a round (opprf.cpp:42) *)
Definition with_pair (p : prep_draws) (x round o : Z) : prep_draws :=
  mkpd (d_kopprf p) x (d_lt p) (d_eq p) (d_gt p) (fun j => if (j =? Z.to_nat (round - 1))%nat then o else d_ok p j).
