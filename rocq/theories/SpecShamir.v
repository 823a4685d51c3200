(** Vocabulary for the statements about secret sharing. *)
From Coq Require Import ZArith Bool List.
From Verif Require Import Outcome FieldModel SpecField ShamirModel.
Import ListNotations.
Open Scope Z_scope.

(** an element of the scalar field class, a share made of two of them *)
Definition scalar (x : fe) : Prop := canon FIELD x.
Definition sh_ok (s : share) : Prop := scalar (sidx s) /\ scalar (sval s).

(** value at x of the integer polynomial with coefficients cs, constant term first *)
Fixpoint poly_at (cs : list Z) (x : Z) : Z :=
  match cs with
  | [] => 0
  | c :: cs' => c + x * poly_at cs' x
  end.

(** share [s] lies on the polynomial, modulo the group order *)
Definition on_poly (cs : list Z) (s : share) : Prop := (FIELD | poly_at cs (fval (sidx s)) - fval (sval s)).
Definition residue (z : Z) : Prop := 0 <= z < FIELD.

(** the values rand() can return, and those for which rand()+1 does not overflow *)
Definition rand_range (rnd : nat -> Z) : Prop := forall i, 0 <= rnd i <= INT_MAX.
Definition no_overflow (rnd : nat -> Z) : Prop := forall i, 0 <= rnd i < INT_MAX.

(** share-wise addition as a client of the library writes it *)
Definition add_shares (dbg : bool) (l1 l2 : list share) : res (list share) :=
  mapM (fun '(s1, s2) => do v <- fe_add dbg FIELD (sval s1) (sval s2); Ok (mkshare (sidx s1) v)) (combine l1 l2).
