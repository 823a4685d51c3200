(** Programs over points, scalars and curve objects: any sequence of the operations of ecc_template.hpp on any number of variables,
    with curve objects constructed and destroyed in between. The operations are those of FieldModel and EccModel; [hlive] is the set
    of live curve objects when an operation runs. P += Q, P -= Q and P *= s (ecc_template.hpp:424-462) are [HAdd i i j], [HSub i i j]
    and [HMul i i s]: the binary operator returns a temporary, which is then assigned. *)
From Coq Require Import ZArith Bool List.
From Verif Require Import Outcome FieldModel CurveParams EccModel.
Import ListNotations.
Open Scope Z_scope.

(** what a program prints *)
Inductive seen := SBool (b : bool) | SInt (z : Z).

(** live curve objects, point variables, scalar variables, output, latest first *)
Record hstate := mkh { hlive : Z -> bool; hpt : nat -> point; hsc : store; hout : list seen }.

Inductive hinstr :=
| HCurve (c : Z) (b : bool)           (* a curve object is constructed or destroyed at c *)
| HInf (i : nat)                      (* Point(), ecc_template.hpp:145-149 *)
| HGen (i : nat) (c : Z)              (* getDefaultGen, :102 *)
| HCopy (i j : nat)                   (* operator=, :464-483 *)
| HAdd (i j k : nat)                  (* operator+, :307-341 *)
| HSub (i j k : nat)                  (* operator-, :354-362 *)
| HDouble (i j : nat)                 (* pointDouble, :554-579 *)
| HMul (i j s : nat)                  (* operator*(Field_n), :391-411 *)
| HMulz (i j : nat) (a : Z)           (* operator*(mpz), :375-378 *)
| HRandom (i : nat) (c d : Z)         (* getRandomPoint, :624-632, with the draw *)
| HLookup (i : nat) (c x : Z) (b : bool)  (* evaluateP or evaluatePneg, :677-721 *)
| HDecode (i : nat) (e : Z)           (* setEncodedX, :282-292 *)
| HScalar (s : nat) (a : Z)           (* Field_n(mpz) *)
| HRandomS (s : nat) (c d : Z)        (* getRandomScalar, :640-645 *)
| HField (f : instr)                  (* a compound operator on scalars, FieldModel *)
| HEqual (i j : nat)                  (* operator==, :496-502 *)
| HValid (i : nat)                    (* isValid, :528-540 *)
| HEncode (i : nat).                  (* getEncodedX, :260-269 *)

Section Hist.
  Variables (dbg : bool) (C : cparams).

  Definition set_pt (s : hstate) (i : nat) (P : point) : hstate :=
    mkh (hlive s) (fun k => if Nat.eqb k i then P else hpt s k) (hsc s) (hout s).
  Definition set_sc (s : hstate) (t : store) : hstate := mkh (hlive s) (hpt s) t (hout s).
  Definition print (s : hstate) (o : seen) : hstate := mkh (hlive s) (hpt s) (hsc s) (o :: hout s).
  Definition set_live (s : hstate) (c : Z) (b : bool) : hstate :=
    mkh (fun a => if a =? c then b else hlive s a) (hpt s) (hsc s) (hout s).

  Definition hexec (s : hstate) (h : hinstr) : res hstate :=
    let live := hlive s in
    let to i r := do P <- r; Ok (set_pt s i P) in
    match h with
    | HCurve c b => Ok (set_live s c b)
    | HInf i => to i (Ok (pt_inf C))
    | HGen i c => to i (getDefaultGen live C (Some c))
    | HCopy i j => to i (Ok (hpt s j))
    | HAdd i j k => to i (padd dbg live C (hpt s j) (hpt s k))
    | HSub i j k => to i (psub dbg live C (hpt s j) (hpt s k))
    | HDouble i j => to i (pdouble dbg live C (hpt s j))
    | HMul i j t => to i (pmul dbg live C (hpt s j) (hsc s t))
    | HMulz i j a => to i (pmulz dbg live C (hpt s j) a)
    | HRandom i c d => to i (getRandomPoint dbg live C (Some c) d)
    | HLookup i c x b => to i ((if b then evaluateP else evaluatePneg) dbg live C (Some c) (fe_new (fieldp C) x))
    | HDecode i e => to i (setEncodedX dbg live C (hpt s i) e)
    | HScalar t a => Ok (set_sc s (write (hsc s) t (fe_new (fieldn C) a)))
    | HRandomS t c d => do x <- getRandomScalar live C (Some c) d; Ok (set_sc s (write (hsc s) t x))
    | HField f => do t <- exec dbg (fieldn C) (hsc s) f; Ok (set_sc s t)
    | HEqual i j => do b <- peq live C (hpt s i) (hpt s j); Ok (print s (SBool b))
    | HValid i => do b <- isValid dbg live C (hpt s i); Ok (print s (SBool b))
    | HEncode i => do e <- getEncodedX dbg live C (hpt s i); Ok (print s (SInt e))
    end.
  Definition hexec_all (l : list hinstr) (s : hstate) : res hstate := foldM hexec l s.
End Hist.
