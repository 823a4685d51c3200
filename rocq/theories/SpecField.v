(** Vocabulary for the statements about the field classes. *)
From Coq Require Import ZArith Bool List.
From Verif Require Import Outcome FieldModel ZpField CurveParams.
Import ListNotations.
Open Scope Z_scope.

(** the four field classes and the modulus each constructor passes on *)
Inductive fclass := Secp256r1_p | Secp256r1_n | Bn254_p | Bn254_n.
Definition modulus (c : fclass) : Z :=
  match c with
  | Secp256r1_p => fieldp secp256r1
  | Secp256r1_n => fieldn secp256r1
  | Bn254_p => fieldp bn254
  | Bn254_n => fieldn bn254
  end.

(** [x] is an object of the class: class modulus, canonical value *)
Definition canon (q : Z) (x : fe) : Prop := fmod x = q /\ 0 <= fval x < q.
Definition elem (c : fclass) (x : fe) : Prop := canon (modulus c) x.

(** [r] is the canonical representative of the integer [z] *)
Definition represents (c : fclass) (r : fe) (z : Z) : Prop := elem c r /\ (modulus c | z - fval r).

(** [r] returns normally an element representing [z] *)
Definition returns (c : fclass) (r : res fe) (z : Z) : Prop := exists x, r = Ok x /\ represents c x z.

(** ** Histories on abstract residues
    The residue field is [Fp q] of ZpField.v; [None]: a division by zero was asked for. *)
Section Residues.
  Variable q : Z.
  Definition renv := nat -> Fp q.
  Definition rset (e : renv) (i : nat) (v : Fp q) : renv := fun k => if Nat.eqb k i then v else e k.
  Definition rexec (e : renv) (c : instr) : option renv :=
    match c with
    | IAdd i j => Some (rset e i (fadd q (e i) (e j)))
    | ISub i j => Some (rset e i (fsub q (e i) (e j)))
    | IMul i j => Some (rset e i (fmul q (e i) (e j)))
    | IMulz i a => Some (rset e i (fmul q (e i) (mk q a)))
    | IDiv i j => if eqFp q (e j) (f0 q) then None else Some (rset e i (fdiv q (e i) (e j)))
    | ICopy i j => Some (rset e i (e j))
    end.
  Fixpoint rexec_all (e : renv) (l : list instr) : option renv :=
    match l with
    | [] => Some e
    | c :: l' => match rexec e c with Some e' => rexec_all e' l' | None => None end
    end.

  (** the store represents the residues *)
  Definition reps (s : store) (e : renv) : Prop := forall k, canon q (s k) /\ fval (s k) = val q (e k).
End Residues.
