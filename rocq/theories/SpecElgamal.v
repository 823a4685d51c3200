(** Vocabulary for the statements about ElGamal encryption. *)
From Coq Require Import ZArith Bool List.
From Verif Require Import Outcome FieldModel CurveParams EccModel SpecEcc DmeModel SpecDme ElgamalModel.
Open Scope Z_scope.

(** an object that is alive and whose generator refers to a curve that is alive *)
Definition elgamal_ok (live : Z -> bool) (E : elgamal) : Prop :=
  live (eaddr E) = true /\ exists c, egen E = gen CV c /\ live c = true.
