(** Vocabulary for the statements about the byte buffers. *)
From Coq Require Import ZArith Bool List.
From Verif Require Import Outcome CrcModel SpecCrc AesModel OpprfModel SpecOpprf HeapModel.
Import ListNotations.
Open Scope Z_scope.

(** malloc gives blocks that are not in use, and none of them at the null address *)
Definition allocator (alloc : mem -> nat -> Z) : Prop :=
  forall m n, (0 < n)%nat -> alloc m n <> 0 /\ ~ In (alloc m n) (map caddr m).

(** the result without the memory *)
Definition value {A} (r : res (A * mem)) : res A := do x <- r; Ok (fst x).

(** a block of the memory begins with these bytes *)
Definition found (m : mem) (bs : list Z) : Prop := exists c tail, In c m /\ cbytes c = bs ++ tail.

(** the bytes a call leaves, block by block, latest first *)
Definition contents (m : mem) : list (list Z) := map cbytes m.

(** the number of blocks a call leaves: exactly for the server, at least for the client *)
Definition blocks (v : event) : nat :=
  match v with
  | EPrepare _ => 270
  | EMasks _ _ _ => 9
  | EFinish round _ => if round =? 16 then 0 else 4
  | EUnmask _ _ => 4
  | _ => 0
  end.
Definition of_server (v : event) : Prop :=
  match v with EPrepare _ | EServe _ _ _ _ _ _ _ _ | EMasks _ _ _ | ECleanServer _ => True | _ => False end.
