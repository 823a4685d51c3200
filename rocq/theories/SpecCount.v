(** How many elements of a type have a property. *)
From Coq Require Import ZArith List.
Import ListNotations.
Open Scope Z_scope.

Definition how_many {A : Type} (P : A -> Prop) (n : Z) : Prop :=
  exists l, NoDup l /\ (forall z, In z l <-> P z) /\ Z.of_nat (length l) = n.
