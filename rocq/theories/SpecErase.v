(** What leaving out the asserts (-DNDEBUG) may change. *)
From Coq Require Import ZArith.
From Verif Require Import Outcome.

(** [d] is the outcome with asserts, [r] the outcome without: they are the same, or the build with asserts stops with a fault of [F] *)
Definition spared {A} (F : fault -> Prop) (d r : res A) : Prop := d = r \/ exists f, F f /\ d = Err f.

(** the faults of an assert that compares moduli *)
Definition moduli (f : fault) : Prop := f = AssertFail.
(** of an assert that compares the curve objects of two points *)
Definition curves (f : fault) : Prop := f = AssertFail \/ f = NullDeref \/ f = UseAfterFree.
(** of an assert that calls isValid *)
Definition validity (f : fault) : Prop := f = AssertFail \/ f = NullDeref \/ f = UseAfterFree \/ f = DivByZero.
