(** Property C56: who frees the curves. *)
From Coq Require Import ZArith Bool List Lia.
From Verif Require Import Outcome OwnModel SpecOwn OwnProofs.
Import ListNotations.
Open Scope Z_scope.

(** C56: while no object is copied, the curves in use are exactly those the existing objects point to, no two pointers
    are equal, and at every address making and freeing alternate. *)
Theorem C56_owned : forall alloc, allocator alloc -> forall h, program h -> unshared h ->
  exists w, orun alloc world0 h = Ok w /\ NoDup (pointers w) /\ (forall a, owned w a <-> holds (wtrace w) a = true) /\
    forall a, (owned w a -> exists k, events a (wtrace w) = cycles a k ++ [New a]) /\
              (~ owned w a -> exists k, events a (wtrace w) = cycles a k).
Proof. exact L_C56_owned. Qed.
Print Assumptions C56_owned.

(** Every existing object accounts for one curve, an aggregator for two. *)
Theorem C56_number : forall alloc, allocator alloc -> forall h env, srun [] h = Some env -> unshared h ->
  exists w l, orun alloc world0 h = Ok w /\ NoDup l /\ (forall a, In a l <-> holds (wtrace w) a = true) /\
    length l = (length (filter (fun o => match o with Some _ => true | None => false end) env) +
                length (filter (fun o => match o with Some KPuda => true | _ => false end) env))%nat.
Proof. exact L_C56_number. Qed.
Print Assumptions C56_number.

Example C56_number_case : let h := [Construct KSndr; Construct KPuda; Destroy 0; Construct KRecv] in
  srun [] h = Some [None; Some KPuda; Some KRecv] /\ unshared h /\
  orun reuse world0 h = Ok (mkworld [None; Some (mkobj KPuda [2; 3]); Some (mkobj KRecv [1])] [New 1; Del 1; New 3; New 2; New 1]).
Proof. split; [reflexivity|]. split; [repeat (constructor; [intros H; exact H|]); constructor|reflexivity]. Qed.

(** Once every object is destroyed, every curve has been freed exactly once. *)
Theorem C56_freed : forall alloc, allocator alloc -> forall h, complete h -> unshared h ->
  exists w, orun alloc world0 h = Ok w /\ forall a, exists k, events a (wtrace w) = cycles a k.
Proof. exact L_C56_complete. Qed.
Print Assumptions C56_freed.

(** With one copy, or one assignment between two objects, every program that destroys its objects frees twice. *)
Theorem C56_copied : forall alloc, allocator alloc -> forall h, complete h -> ~ unshared h ->
  orun alloc world0 h = Err DoubleFree.
Proof. exact L_C56_shared. Qed.
Print Assumptions C56_copied.

(** Destroying the original leaves the copy without a curve. *)
Theorem C56_dangling : forall alloc, allocator alloc -> forall h i w,
  program (h ++ [Copy i; Destroy i]) -> orun alloc world0 (h ++ [Copy i; Destroy i]) = Ok w ->
  exists l x, wobjs w = l ++ [Some x] /\ optrs x <> [] /\ forall a, In a (optrs x) -> holds (wtrace w) a = false.
Proof. exact L_C56_dangling. Qed.
Print Assumptions C56_dangling.

(** a sender, a receiver and an aggregator, destroyed in another order, with an allocator that reuses addresses *)
Example C56_case :
  let h := [Construct KSndr; Construct KPuda; Destroy 0; Construct KRecv; Assign 2 2; Destroy 1; Destroy 2] in
  allocator next /\ allocator reuse /\ complete h /\ unshared h /\
  orun reuse world0 h = Ok (mkworld [None; None; None] [Del 1; Del 3; Del 2; New 1; Del 1; New 3; New 2; New 1]).
Proof.
  split; [exact next_allocator|]. split; [exact reuse_allocator|]. split; [|split; [|reflexivity]].
  - exists [None; None; None]. split; [reflexivity|repeat constructor].
  - repeat (constructor; [intros H; cbn in H; congruence || exact H|]). constructor.
Qed.

(** a copied server, an assigned client, and a copy left alone *)
Example C56_copied_case :
  complete [Construct KServer; Copy 0; Destroy 0; Destroy 1] /\
  orun next world0 [Construct KServer; Copy 0; Destroy 0; Destroy 1] = Err DoubleFree /\
  complete [Construct KClient; Construct KClient; Assign 0 1; Destroy 1; Construct KPuda; Destroy 0; Destroy 2] /\
  orun reuse world0 [Construct KClient; Construct KClient; Assign 0 1; Destroy 1; Construct KPuda; Destroy 0; Destroy 2] = Err DoubleFree /\
  program ([Construct KDme] ++ [Copy 0; Destroy 0]) /\
  orun next world0 ([Construct KDme] ++ [Copy 0; Destroy 0]) = Ok (mkworld [None; Some (mkobj KDme [1])] [Del 1; New 1]).
Proof.
  split. { exists [None; None]. split; [reflexivity|repeat constructor]. }
  split; [reflexivity|]. split. { exists [None; None; None]. split; [reflexivity|repeat constructor]. }
  split; [reflexivity|]. split; [eexists; reflexivity|reflexivity].
Qed.
