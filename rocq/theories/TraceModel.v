(** Which point operations the scalar multiplication of /repo/includes/ecc_template.hpp and the functions of
    /repo/src/dme/dme.cpp that use secrets perform, in order.  Every definition is the one of EccModel or DmeModel with
    events added; that the events change no outcome is a theorem (C84_outcomes). *)
From Coq Require Import ZArith Bool List.
From Verif Require Import Outcome FieldModel CurveParams EccModel DmeModel.
Import ListNotations.
Open Scope Z_scope.

(** a call of operator*, ecc_template.hpp:391-411, and its return; in operator+, ecc_template.hpp:307-341: an operand is infinite
    (:310-314), the operands are opposite (:323), or the chord is computed (:327-340); the body of pointDouble (:554-579) *)
Inductive event := Multiply | Done | Copy | Opposite | Chord | Double.

(** what was done, and the outcome *)
Definition traced (A : Type) : Type := list event * res A.
Definition lift {A} (r : res A) : traced A := ([], r).
Definition tbind {A B} (r : traced A) (k : A -> traced B) : traced B :=
  match snd r with
  | Ok a => (fst r ++ fst (k a), snd (k a))
  | Err f => (fst r, Err f)
  end.
Notation "'tdo' x <- r ; k" := (tbind r (fun x => k))
  (at level 200, x pattern, r at level 100, k at level 200, right associativity).

Section Points.
  Variables (dbg : bool) (live : Z -> bool) (C : cparams).

  (** pointDouble, ecc_template.hpp:554-579 *)
  Definition pdouble_t (P : point) : traced point := ([Double], pdouble dbg live C P).

  (** operator+, ecc_template.hpp:307-341; the arithmetic of the chord is that of [padd] *)
  Definition padd_t (P Q : point) : traced point :=
    if pinf P then ([Copy], Ok Q) else
    if pinf Q then ([Copy], Ok P) else
    tdo _ <- lift (assert_same_curve dbg live C P Q);
    if fe_eq (px P) (px Q) then
      if fe_eq (py P) (py Q) then pdouble_t P else ([Opposite], Ok (pt_inf C))
    else ([Chord], padd dbg live C P Q).

  (** operator-, ecc_template.hpp:354-362 *)
  Definition psub_t (P Q : point) : traced point :=
    tdo _ <- lift (assert_same_curve dbg live C P Q);
    tdo ny <- lift (fe_sub dbg (fieldp C) (fe_new (fieldp C) 0) (py Q));
    padd_t P (pt_fe (px Q) ny (pcur P)).

  (** operator*(Field_n), ecc_template.hpp:391-411 *)
  Fixpoint mulloop_t (bits : list bool) (R P : point) : traced point :=
    match bits with
    | [] => lift (Ok R)
    | b :: rest =>
        tdo R' <- (if b then padd_t R P else lift (Ok R));
        match rest with
        | [] => lift (Ok R')
        | _ => tdo P' <- pdouble_t P; mulloop_t rest R' P'
        end
    end.
  Definition pmul_t (P : point) (s : fe) : traced point :=
    tdo _ <- ([Multiply], Ok tt);
    tdo R <- (if pinf P then lift (Ok P) else mulloop_t (zbits (fval s)) (pt_inf C) P);
    ([Done], Ok R).
  (** operator*(mpz), ecc_template.hpp:375-378 *)
  Definition pmulz_t (P : point) (a : Z) : traced point := pmul_t P (fe_new (fieldn C) a).
  (** getRandomPoint, ecc_template.hpp:618-628 *)
  Definition getRandomPoint_t (c : option Z) (r : Z) : traced point :=
    tdo g <- lift (getDefaultGen live C c); pmulz_t g r.
End Points.

Section Dme.
  Variables (dbg : bool) (live : Z -> bool).
  Local Notation pmul := (pmul_t dbg live CV).
  Local Notation padd := (padd_t dbg live CV).
  Local Notation psub := (psub_t dbg live CV).
  Local Notation randS := (getRandomScalar live CV).

  (** KeyGen, dme.cpp:196-217 *)
  Definition KeyGen_t (D : dme) (branch : branch_t) (r : Z) : traced keypair :=
    tdo sk <- lift (randS (dcurve D) r);
    tdo pk <-
      (if branch =? 0 then
         tdo a <- pmul (g0 (dcrs D)) sk; tdo b <- pmul (h0 (dcrs D)) sk; lift (Ok (mkpk a b))
       else if branch =? 1 then
         tdo a <- pmul (g1 (dcrs D)) sk; tdo b <- pmul (h1 (dcrs D)) sk; lift (Ok (mkpk a b))
       else lift (Ok pkey_default));
    lift (Ok (mkkp pk sk)).

  (** Enc, dme.cpp:243-268 *)
  Definition Enc_t (D : dme) (pk : pkey) (b : branch_t) (m : point) (r1 r2 : Z) : traced ctxt :=
    tdo s <- lift (randS (dcurve D) r1);
    tdo t <- lift (randS (dcurve D) r2);
    tdo gs <- pmul (pg pk) s;
    tdo ht <- pmul (ph pk) t;
    tdo v <- padd gs ht;
    if b =? 0 then
      tdo us <- pmul (g0 (dcrs D)) s; tdo ut <- pmul (h0 (dcrs D)) t; tdo u <- padd us ut;
      tdo mv <- padd v m; lift (Ok (mkct u mv))
    else if b =? 1 then
      tdo us <- pmul (g1 (dcrs D)) s; tdo ut <- pmul (h1 (dcrs D)) t; tdo u <- padd us ut;
      tdo mv <- padd v m; lift (Ok (mkct u mv))
    else lift (Ok ctxt_default).

  (** Dec, dme.cpp:284-287 *)
  Definition Dec_t (sk : fe) (c : ctxt) : traced point :=
    tdo us <- pmul (cu c) sk; psub (cmv c) us.
End Dme.
