(** Model of ecc::Point and ecc::Curve, /repo/includes/ecc_template.hpp, with the constructors of
    Curve_secp256r1 and Curve_bn254, /repo/src/ecc.

    A pointer to a curve object is [option Z]: [None] is the null pointer, [Some c] an address.
    [live] tells which addresses hold a constructed, not yet destroyed curve object; since no
    function modifies the members of a curve after construction, every live object holds the
    constants [C].  [dbg] says whether assert is compiled in. *)
From Coq Require Import ZArith Bool List.
From Verif Require Import Outcome FieldModel Fermat CurveParams.
Import ListNotations.
Open Scope Z_scope.

(** ecc_template.hpp:17-23, members x, y, is_inf, curve *)
Record point := mkpoint { px : fe; py : fe; pinf : bool; pcur : option Z }.

(** binary digits of v, least significant first: get_str(2) read from its end
    (ecc_template.hpp:399-402); "0" for zero; the sign character of a negative value is a non-'1'. *)
Fixpoint pbits (p : positive) : list bool :=
  match p with
  | xH => [true]
  | xO p' => false :: pbits p'
  | xI p' => true :: pbits p'
  end.
Definition zbits (v : Z) : list bool :=
  match v with
  | Z0 => [false]
  | Zpos p => pbits p
  | Zneg p => pbits p ++ [false]
  end.

(** operator== on curves, ecc_template.hpp:589-598 *)
Definition curve_eq (c1 c2 : cparams) : bool :=
  (c_prime c1 =? c_prime c2) && (c_a c1 =? c_a c2) && (c_b c1 =? c_b c2) &&
  (c_order c1 =? c_order c2) && (c_cofactor c1 =? c_cofactor c2).

(** GMP mpz_powm(b, e, m) for e >= 0; m = 0 divides by zero *)
Definition mpz_powm (b e m : Z) : res Z :=
  if m =? 0 then Err DivByZero else Ok (powmod b e (Z.abs m)).

(** GMP mpz_divexact_ui(n, d): undefined unless d divides n *)
Definition mpz_divexact (n d : Z) : res Z :=
  if n mod d =? 0 then Ok (n / d) else Err InexactDiv.

Section Ecc.
  Variables (dbg : bool) (live : Z -> bool) (C : cparams).
  Let q := fieldp C.
  Let qn := fieldn C.

  (** reading through a Curve_XXX pointer *)
  Definition deref (c : option Z) : res cparams :=
    match c with
    | None => Err NullDeref
    | Some a => if live a then Ok C else Err UseAfterFree
    end.

  (** Point(), ecc_template.hpp:145-149; x and y are default-constructed fields *)
  Definition pt_inf : point := mkpoint (fe_default q) (fe_default q) true None.
  (** Point(Field, Field, Curve pointer), ecc_template.hpp:183-189 *)
  Definition pt_fe (x y : fe) (c : option Z) : point := mkpoint x y false c.
  (** Point(mpz, mpz, Curve pointer), ecc_template.hpp:163-169 *)
  Definition pt_z (x y : Z) (c : option Z) : point := mkpoint (fe_new q x) (fe_new q y) false c.

  (** the generator built by the curve constructor at address c,
      src/ecc/ecc_secp256r1.cpp:17-20, src/ecc/ecc_bn254.cpp:17-20 *)
  Definition gen (c : Z) : point := pt_z (c_gx C) (c_gy C) (Some c).
  (** getDefaultGen, ecc_template.hpp:102, called on the object at c *)
  Definition getDefaultGen (c : option Z) : res point :=
    match c with
    | None => Err NullDeref
    | Some a => if live a then Ok (gen a) else Err UseAfterFree
    end.

  (** assert of two curves being equal, ecc_template.hpp:316 and 356 *)
  Definition assert_same_curve (P Q : point) : res unit :=
    if dbg then
      do c1 <- deref (pcur P);
      do c2 <- deref (pcur Q);
      check AssertFail (curve_eq c1 c2)
    else Ok tt.

  (** pointDouble, ecc_template.hpp:554-579 *)
  Definition pdouble (P : point) : res point :=
    do xx <- fe_square q (px P);
    do xx3 <- fe_mulz q xx 3;
    do c <- deref (pcur P);
    do t1 <- fe_add dbg q xx3 (fe_new q (c_a c));
    do t2 <- fe_mulz q (py P) 2;
    do s <- fe_div dbg q t1 t2;
    do ss <- fe_mul dbg q s s;
    do x2 <- fe_mulz q (px P) 2;
    do rx <- fe_sub dbg q ss x2;
    do dx <- fe_sub dbg q (px P) rx;
    do sdx <- fe_mul dbg q s dx;
    do ry <- fe_sub dbg q sdx (py P);
    Ok (pt_fe rx ry (pcur P)).

  (** operator+, ecc_template.hpp:307-341 *)
  Definition padd (P Q : point) : res point :=
    if pinf P then Ok Q else
    if pinf Q then Ok P else
    do _ <- assert_same_curve P Q;
    if fe_eq (px P) (px Q) then
      if fe_eq (py P) (py Q) then pdouble P else Ok pt_inf
    else
      do dy <- fe_sub dbg q (py P) (py Q);
      do dx <- fe_sub dbg q (px P) (px Q);
      do s <- fe_div dbg q dy dx;
      do ss <- fe_mul dbg q s s;
      do t <- fe_sub dbg q ss (px P);
      do rx <- fe_sub dbg q t (px Q);
      do d <- fe_sub dbg q (px P) rx;
      do sd <- fe_mul dbg q s d;
      do ry <- fe_sub dbg q sd (py P);
      Ok (pt_fe rx ry (pcur P)).

  (** operator-, ecc_template.hpp:354-362 *)
  Definition psub (P Q : point) : res point :=
    do _ <- assert_same_curve P Q;
    do ny <- fe_sub dbg q (fe_new q 0) (py Q);
    padd P (pt_fe (px Q) ny (pcur P)).

  (** operator*(Field_n), ecc_template.hpp:391-411: the loop over the digits *)
  Fixpoint mulloop (bits : list bool) (R P : point) : res point :=
    match bits with
    | [] => Ok R
    | b :: rest =>
        do R' <- (if b then padd R P else Ok R);
        match rest with
        | [] => Ok R'
        | _ => do P' <- pdouble P; mulloop rest R' P'
        end
    end.
  Definition pmul (P : point) (s : fe) : res point :=
    if pinf P then Ok P else mulloop (zbits (fval s)) pt_inf P.
  (** operator*(mpz), ecc_template.hpp:375-378 *)
  Definition pmulz (P : point) (a : Z) : res point := pmul P (fe_new qn a).

  (** the compound forms, ecc_template.hpp:424-428, 441-445, 458-462: the binary operator returns a
      temporary which is then assigned.  operator*=(mpz) is declared (line 48) but not defined. *)
  Definition padd_eq := padd.
  Definition psub_eq := psub.
  Definition pmul_eq := pmul.

  (** operator==, ecc_template.hpp:496-502 *)
  Definition peq (P Q : point) : res bool :=
    if pinf P && pinf Q then Ok true else
    if negb (fe_eq (px P) (px Q)) then Ok false else
    if negb (fe_eq (py P) (py Q)) then Ok false else
    do c1 <- deref (pcur P);
    do c2 <- deref (pcur Q);
    Ok (curve_eq c1 c2 && Bool.eqb (pinf P) (pinf Q)).

  (** x*x*x + x*a + b, ecc_template.hpp:537, 681, 710, 738: field product, integer product *)
  Definition rhs (x : fe) (a b : Z) : res fe :=
    do xx <- fe_mul dbg q x x;
    do xxx <- fe_mul dbg q xx x;
    do xa <- fe_mulz q x a;
    do s <- fe_add dbg q xxx xa;
    fe_add dbg q s (fe_new q b).

  (** isValid, ecc_template.hpp:528-540; operator &= does not short-circuit *)
  Definition isValid (P : point) : res bool :=
    if pinf P then Ok true else
    match pcur P with
    | None => Ok false
    | Some _ =>
        do c <- deref (pcur P);
        do r <- rhs (px P) (c_a c) (c_b c);
        do yy <- fe_mul dbg q (py P) (py P);
        Ok ((fmod (px P) =? fmod (py P)) && (fmod (px P) =? c_prime c) && fe_eq r yy)
    end.

  (** evaluatePy2, ecc_template.hpp:736-739, on the curve object at c *)
  Definition evaluatePy2 (c : option Z) (x : fe) : res fe :=
    do k <- deref c; rhs x (c_a k) (c_b k).

  (** the candidate root, ecc_template.hpp:681-686 and 710-715 *)
  Definition root (k : cparams) (y2 : fe) : res Z :=
    do e <- mpz_divexact (fmod y2 + 1) 4;
    mpz_powm (fval y2) e (c_prime k).

  (** evaluateP, ecc_template.hpp:677-692 *)
  Definition evaluateP (c : option Z) (x : fe) : res point :=
    do k <- deref c;
    do y2 <- rhs x (c_a k) (c_b k);
    do r <- root k y2;
    let y := fe_new q r in
    do yy <- fe_mul dbg q y y;
    Ok (if fe_eq yy y2 then pt_fe x y c else pt_inf).

  (** evaluatePneg, ecc_template.hpp:706-721 *)
  Definition evaluatePneg (c : option Z) (x : fe) : res point :=
    do k <- deref c;
    do y2 <- rhs x (c_a k) (c_b k);
    do r <- root k y2;
    let y := fe_new q (fmod y2 - r) in
    do yy <- fe_mul dbg q y y;
    Ok (if fe_eq yy y2 then pt_fe x y c else pt_inf).

  (** getEncodedX, ecc_template.hpp:260-269 *)
  Definition getEncodedX (P : point) : res Z :=
    do E <- evaluateP (pcur P) (px P);
    Ok (fval (px P) * 2 + (if fe_eq (py E) (py P) then 1 else 0)).

  (** setEncodedX, ecc_template.hpp:282-292; mpz_div_2exp rounds down, mpz_tstbit sees two's
      complement; the argument is converted by the constructor Field_p(mpz) *)
  Definition setEncodedX (P : point) (ex : Z) : res point :=
    if Z.odd ex then evaluateP (pcur P) (fe_new q (Z.div2 ex))
    else evaluatePneg (pcur P) (fe_new q (Z.div2 ex)).

  (** getRandomPoint and getRandomScalar, ecc_template.hpp:624-645; the draw of
      rand.get_z_range(order), an integer in [0, order), is the argument *)
  Definition getRandomPoint (c : option Z) (draw : Z) : res point :=
    do G <- getDefaultGen c; pmulz G draw.
  Definition getRandomScalar (c : option Z) (draw : Z) : res fe :=
    do _ <- deref c; Ok (fe_new qn draw).
End Ecc.
