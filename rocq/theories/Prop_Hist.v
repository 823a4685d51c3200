(** Property C95: any history of point operations, with curve objects constructed and destroyed in between
    (includes/ecc_template.hpp). [hexec_all] runs a program on point objects, [arun] on the curve group; [tracks]: every point variable
    holds the mathematical point and refers to its curve object, every scalar variable holds the residue, the outputs are the same. *)
From Coq Require Import ZArith Bool List.
From Verif Require Import Outcome FieldModel SpecField CurveParams EccModel SpecEcc HistModel SpecHist EccProofs EccThms HistProofs Prop_Ecc.
Import ListNotations.
Open Scope Z_scope.

(** C95. A program over points does what it does on the curve group: it ends in the state that represents the abstract one, or stops
    with the same fault, or, in a build without asserts, comes to a subtraction with the point at infinity. *)
Theorem C95_history : forall k dbg l s a, let C := params k in tracks C s a ->
  exists o, arun dbg C l a o /\
    match o with
    | Goes _ a' => exists s', hexec_all dbg C l s = Ok s' /\ tracks C s' a'
    | Faults _ f => hexec_all dbg C l s = Err f
    | Leaves _ => dbg = false /\ exists l1 i j m l2 s', l = l1 ++ HSub i j m :: l2 /\ hexec_all dbg C l1 s = Ok s' /\
        (hpt s' j = pt_inf C \/ hpt s' m = pt_inf C)
    end.
Proof. exact (fun k dbg => L_history dbg (params k) (good_params k)). Qed.
Print Assumptions C95_history.

(** The abstract program has one outcome. *)
Theorem C95_deterministic : forall k dbg l a o o', let C := params k in arun dbg C l a o -> arun dbg C l a o' -> o = o'.
Proof. exact (fun k dbg => L_determ dbg (params k) (good_params k)). Qed.
Print Assumptions C95_deterministic.

(** Default-constructed variables are infinity and zero. *)
Theorem C95_start : forall k live, let C := params k in tracks C (hstart C live) (astart C live).
Proof. exact (fun k => L_start (params k) (good_params k)). Qed.
Print Assumptions C95_start.

(** If no curve object is destroyed, the only faults are the operations that read the curve object of the point at infinity, and the
    division by zero. *)
Theorem C95_careful : forall k dbg l a f, let C := params k in anchored C a -> careful (alive_ C a) l ->
  arun dbg C l a (Faults C f) -> f = NullDeref \/ f = NoInverse.
Proof. exact (fun k dbg => L_careful dbg (params k)). Qed.
Print Assumptions C95_careful.

(** Then the two builds do the same, except that asserts stop at a subtraction with the point at infinity. *)
Theorem C95_builds : forall k l a o, let C := params k in anchored C a -> careful (alive_ C a) l ->
  arun false C l a o -> arun true C l a (match o with Leaves _ => Faults C NullDeref | _ => o end).
Proof. exact (fun k => L_builds (params k)). Qed.
Print Assumptions C95_builds.

(** A curve object is destroyed: the sum with infinity is still computed, validity is not. *)
Definition C95_program : list hinstr :=
  [HCurve 1 true; HGen 0 1; HValid 0; HCurve 1 false; HAdd 1 0 2; HCurve 2 true; HGen 2 2; HEqual 2 3].
Example C95_case : (do s <- hexec_all true bn254 C95_program (hstart bn254 (fun _ => false)); Ok (hout s)) = Ok [SBool false; SBool true] /\
  hexec_all true bn254 (C95_program ++ [HValid 1]) (hstart bn254 (fun _ => false)) = Err UseAfterFree /\
  hexec_all true bn254 (C95_program ++ [HAdd 3 2 1]) (hstart bn254 (fun _ => false)) = Err UseAfterFree /\
  hexec_all false bn254 (C95_program ++ [HMul 3 2 0; HDouble 3 3]) (hstart bn254 (fun _ => false)) = Err NullDeref /\
  hexec_all true bn254 [HCurve 2 true; HGen 2 2; HSub 0 1 2] (hstart bn254 (fun _ => false)) = Err NullDeref /\
  (exists s, hexec_all false bn254 [HCurve 2 true; HGen 2 2; HSub 0 1 2] (hstart bn254 (fun _ => false)) = Ok s) /\
  careful (fun _ => false) [HCurve 2 true; HGen 2 2; HDouble 0 1] /\
  hexec_all true bn254 [HCurve 2 true; HGen 2 2; HDouble 0 1] (hstart bn254 (fun _ => false)) = Err NullDeref.
Proof.
  repeat split; try (eexists; vm_compute; reflexivity); try (vm_compute; reflexivity); intros c []; subst; try reflexivity; contradiction.
Qed.
