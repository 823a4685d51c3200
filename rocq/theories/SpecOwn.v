(** Vocabulary for the statements about ownership. *)
From Coq Require Import ZArith Bool List.
From Verif Require Import Outcome OwnModel.
Import ListNotations.
Open Scope Z_scope.

(** an allocator gives out addresses that are not in use; it may reuse addresses that were given back *)
Definition allocator (alloc : list event -> Z) : Prop := forall tr, holds tr (alloc tr) = false.

(** The rules of the language, without the heap: which objects exist, and that operations are applied to objects that
    do. Assignment is between objects of one class, and does not compile for Puda, which has a const member
    (puda.hpp:69). *)
Definition sstep (env : list (option kind)) (o : op) : option (list (option kind)) :=
  match o with
  | Construct k => Some (env ++ [Some k])
  | Copy i => match nth_error env i with Some (Some k) => Some (env ++ [Some k]) | _ => None end
  | Assign i j =>
      match nth_error env i, nth_error env j with
      | Some (Some k), Some (Some k') =>
          match k, k' with
          | KDme, KDme | KRecv, KRecv | KSndr, KSndr | KServer, KServer | KClient, KClient => Some env
          | _, _ => None
          end
      | _, _ => None
      end
  | Destroy i => match nth_error env i with Some (Some _) => Some (upd i None env) | _ => None end
  end.
Fixpoint srun (env : list (option kind)) (h : list op) : option (list (option kind)) :=
  match h with
  | [] => Some env
  | o :: t => match sstep env o with Some env' => srun env' t | None => None end
  end.
(** a program the compiler accepts and that respects lifetimes *)
Definition program (h : list op) : Prop := exists env, srun [] h = Some env.
(** one that destroys every object it makes *)
Definition complete (h : list op) : Prop := exists env, srun [] h = Some env /\ Forall (eq None) env.

(** no object is copied or overwritten by another *)
Definition shares (o : op) : Prop := match o with Copy _ => True | Assign i j => i <> j | _ => False end.
Definition unshared (h : list op) : Prop := Forall (fun o => ~ shares o) h.

(** the events at one address, oldest first *)
Definition at_addr (a : Z) (e : event) : bool := match e with New x | Del x => x =? a end.
Definition events (a : Z) (tr : list event) : list event := filter (at_addr a) (rev tr).
(** made and freed, k times over *)
Fixpoint cycles (a : Z) (k : nat) : list event :=
  match k with O => [] | S k' => New a :: Del a :: cycles a k' end.
(** an existing object points to [a] *)
Definition owned (w : world) (a : Z) : Prop := exists i x, nth_error (wobjs w) i = Some (Some x) /\ In a (optrs x).
(** the pointers of all existing objects *)
Definition pointers (w : world) : list Z := flat_map (fun o => match o with Some x => optrs x | None => [] end) (wobjs w).
