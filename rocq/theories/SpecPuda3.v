(** Vocabulary for what the aggregator of private data aggregation sees over several timestamps, together with some of the users. *)
From Coq Require Import ZArith Bool List.
From Verif Require Import Outcome FieldModel CurveParams EccModel DmeModel SpecDme SpecOt PudaModel SpecPuda2.
Import ListNotations.
Open Scope Z_scope.

(** the views of one setup at several timestamps: [hist] has the timestamps and the messages of all users *)
Definition views (dbg : bool) (live : Z -> bool) (c1 c2 rh ra : Z) (ds : list (Z * Z)) (hist : list (Z * list Z)) : res (list view_t) :=
  mapM (fun h => view dbg live c1 c2 rh ra ds (snd h) (fst h)) hist.

(** as many messages as users at every timestamp *)
Definition complete (n : nat) (hist : list (Z * list Z)) : Prop := Forall (fun h => length (snd h) = n) hist.

(** the second history is the first with the messages of user [i] at time [t] lowered by [t] times the shift of the user *)
Definition shifted (shifts : list Z) (h h' : Z * list Z) : Prop :=
  fst h' = fst h /\ forall i, (i < length shifts)%nat -> (order | nth i (snd h) 0 - nth i (snd h') 0 - fst h * nth i shifts 0).

(** the keys of the users in [J] are the same *)
Definition keys_known (J : nat -> Prop) (ds ds' : list (Z * Z)) : Prop := forall i, J i -> nth_error ds' i = nth_error ds i.
