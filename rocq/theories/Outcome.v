(** Outcomes of modelled C++ calls: a value, or the reason why no value is defined. *)
From Coq Require Import List Bool ZArith.
Import ListNotations.

Inductive fault :=
| AssertFail      (* assert(...) failed: the process aborts *)
| DivByZero       (* GMP division by zero: the process aborts *)
| NoInverse       (* mpz_invert reported failure; its output operand is undefined and used anyway *)
| InexactDiv      (* mpz_divexact on operands that do not divide: undefined result *)
| NullDeref       (* null pointer dereferenced *)
| UseAfterFree    (* object read after its destruction *)
| DoubleFree      (* object destroyed twice *)
| OutOfBounds     (* array or buffer access outside the object *)
| SignedOverflow  (* signed integer overflow, or a shift by a negative or too large amount *)
| MissingReturn   (* control flows off the end of a non-void function *)
| Uninit          (* an indeterminate value is used *)
| Misaligned      (* access through a pointer that is not aligned for its type *)
| Thrown          (* an exception leaves the function *)
| Exhausted       (* memory or address space exhausted *)
| Diverge.        (* the loop never ends *)

Inductive res (A : Type) :=
| Ok (a : A)
| Err (f : fault).
Arguments Ok {A} a.
Arguments Err {A} f.

Definition bind {A B} (r : res A) (k : A -> res B) : res B :=
  match r with
  | Ok a => k a
  | Err f => Err f
  end.

Notation "'do' x <- r ; k" := (bind r (fun x => k))
  (at level 200, x pattern, r at level 100, k at level 200, right associativity).

Definition check (f : fault) (c : bool) : res unit := if c then Ok tt else Err f.

(** [assert(c)]: active when [dbg] (no -DNDEBUG). *)
Definition assert_ (dbg c : bool) : res unit := if dbg then check AssertFail c else Ok tt.

Fixpoint mapM {A B} (f : A -> res B) (l : list A) : res (list B) :=
  match l with
  | [] => Ok []
  | a :: l' => do b <- f a; do bs <- mapM f l'; Ok (b :: bs)
  end.

Fixpoint foldM {A S} (f : S -> A -> res S) (l : list A) (s : S) : res S :=
  match l with
  | [] => Ok s
  | a :: l' => do s' <- f s a; foldM f l' s'
  end.

Lemma bind_Ok {A B} (r : res A) (k : A -> res B) b :
  bind r k = Ok b <-> exists a, r = Ok a /\ k a = Ok b.
Proof.
  destruct r as [a|f]; cbn; split.
  - intros H; exists a; split; [reflexivity|exact H].
  - intros [a' [E H]]; injection E as <-; exact H.
  - discriminate.
  - intros [a' [E _]]; discriminate.
Qed.

Lemma Ok_inj {A} (a b : A) : Ok a = Ok b -> a = b.
Proof. intros E; injection E; auto. Qed.

(** A loop without a syntactic bound: at most [k] steps, each ending the loop ([inr]) or going on ([inl]).
    [k] is a binary number so that bounds like 2^256 can be written down. *)
Fixpoint loop_upto {S R} (k : positive) (step : S -> S + R) (s : S) : S + R :=
  match k with
  | xH => step s
  | xO k' => match loop_upto k' step s with inl s' => loop_upto k' step s' | inr r => inr r end
  | xI k' =>
      match step s with
      | inl s1 => match loop_upto k' step s1 with inl s' => loop_upto k' step s' | inr r => inr r end
      | inr r => inr r
      end
  end.
