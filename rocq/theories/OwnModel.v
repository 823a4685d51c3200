(** Model of who owns the curves: dme::DME_DDH, ot::OTrecv, ot::OTsndr, opprf::OPPRFserver, opprf::OPPRFclient and
    puda::Puda hold the only owning raw pointers of the library. An object is the list of those pointers. *)
From Coq Require Import ZArith Bool List.
From Verif Require Import Outcome.
Import ListNotations.
Open Scope Z_scope.

(** what happens to the blocks of the heap that hold curves, latest event first *)
Inductive event := New (a : Z) | Del (a : Z).

(** is there a curve at [a]? *)
Fixpoint holds (tr : list event) (a : Z) : bool :=
  match tr with
  | [] => false
  | New x :: t => (x =? a) || holds t a
  | Del x :: t => negb (x =? a) && holds t a
  end.

Inductive kind := KDme | KRecv | KSndr | KServer | KClient | KPuda.

(** The owning pointers: one in DME_DDH, dme.hpp:103; OTrecv and OTsndr have a DME_DDH member, ot.hpp:16, 38;
    OPPRFserver and OPPRFclient have one of these, opprf.hpp:59, 105, and a second pointer to its curve that owns
    nothing; Puda has two, puda.hpp:24-25 *)
Definition curves (k : kind) : nat := match k with KPuda => 2%nat | _ => 1%nat end.

Record obj := mkobj { okind : kind; optrs : list Z }.
(** every object ever made, [None] once destroyed, and the heap *)
Record world := mkworld { wobjs : list (option obj); wtrace : list event }.
Definition world0 : world := mkworld [] [].

Inductive op :=
| Construct (k : kind)
| Copy (i : nat)
| Assign (i j : nat)
| Destroy (i : nat).

Fixpoint upd {A} (i : nat) (x : A) (l : list A) : list A :=
  match l, i with
  | [], _ => []
  | _ :: t, O => x :: t
  | y :: t, S i' => y :: upd i' x t
  end.

Section Own.
  (** the address the allocator gives after what has happened so far *)
  Variable alloc : list event -> Z.

  (** the constructors: dme.hpp:103 for every constructor of DME_DDH; puda.cpp:8-12 *)
  Fixpoint news (m : nat) (tr : list event) : list Z * list event :=
    match m with
    | O => ([], tr)
    | S m' => let a := alloc tr in let '(ps, tr') := news m' (New a :: tr) in (a :: ps, tr')
    end.

  (** the destructors: dme.cpp:187-191, whose pointer is never null; puda.cpp:14-18; those of the containing classes
      are empty, and then the members are destroyed *)
  Fixpoint dels (ps : list Z) (tr : list event) : res (list event) :=
    match ps with
    | [] => Ok tr
    | a :: t => if holds tr a then dels t (Del a :: tr) else Err DoubleFree
    end.

  (** Copying and assigning: no class declares a copy constructor or an assignment operator, so the pointers are
      copied. The destructors the classes declare suppress the moves. An operation on an object that does not exist
      is reported as a use after free. *)
  Definition ostep (w : world) (o : op) : res world :=
    match o with
    | Construct k => let '(ps, tr) := news (curves k) (wtrace w) in Ok (mkworld (wobjs w ++ [Some (mkobj k ps)]) tr)
    | Copy i =>
        match nth_error (wobjs w) i with
        | Some (Some x) => Ok (mkworld (wobjs w ++ [Some x]) (wtrace w))
        | _ => Err UseAfterFree
        end
    | Assign i j =>
        match nth_error (wobjs w) i, nth_error (wobjs w) j with
        | Some (Some _), Some (Some y) => Ok (mkworld (upd i (Some y) (wobjs w)) (wtrace w))
        | _, _ => Err UseAfterFree
        end
    | Destroy i =>
        match nth_error (wobjs w) i with
        | Some (Some x) => do tr <- dels (optrs x) (wtrace w); Ok (mkworld (upd i None (wobjs w)) tr)
        | _ => Err UseAfterFree
        end
    end.

  Fixpoint orun (w : world) (h : list op) : res world :=
    match h with
    | [] => Ok w
    | o :: t => do w' <- ostep w o; orun w' t
    end.
End Own.
