(** Model of PrimeField<Field_XXX>, /repo/includes/field_template.hpp, and of the four field classes,
    /repo/src/fields/*.cpp.
    mpz_class is an unbounded integer [Z].  Objects carry a value and a modulus; the class constructor
    uses the class modulus [q].  [dbg] says whether assert is compiled in. *)
From Coq Require Import ZArith Bool List.
From Verif Require Import Outcome.
Import ListNotations.
Open Scope Z_scope.

(** field_template.hpp:17-18, members value and p *)
Record fe := mkfe { fval : Z; fmod : Z }.

(** GMP mpz_mod(r, n, d): the non-negative remainder, ignoring the sign of d; d = 0 aborts *)
Definition mpz_mod (n d : Z) : res Z := if d =? 0 then Err DivByZero else Ok (n mod Z.abs d).

(** Extended Euclid: returns (g, u) with g = gcd and u * a0 = g modulo the modulus, when started with
    (m, 0) and (a, 1).  [fuel] bounds the number of division steps. *)
Fixpoint egcd (fuel : nat) (r0 u0 r1 u1 : Z) : Z * Z :=
  match fuel with
  | O => (r0, u0)
  | S f => if r1 =? 0 then (r0, u0) else egcd f r1 u1 (r0 mod r1) (u0 - r0 / r1 * u1)
  end.

(** GMP mpz_invert(r, a, m): the inverse in [0, |m|) if it exists; otherwise GMP reports failure and
    leaves r undefined.  m = 0 divides by zero. *)
Definition mpz_invert (a m : Z) : res Z :=
  if m =? 0 then Err DivByZero else
  let m' := Z.abs m in
  let '(g, u) := egcd (2 * Z.to_nat (Z.log2 m') + 4) m' 0 (a mod m') 1 in
  if g =? 1 then Ok (u mod m') else Err NoInverse.

(** The class constructors Field_XXX(mpz_class v) : PrimeField(v, q),
    field_template.hpp:71-75 with src/fields/field_secp256r1.cpp:7,18 and field_bn254.cpp:7,17.
    The class modulus q is a positive constant. *)
Definition fe_new (q v : Z) : fe := mkfe (v mod q) q.

(** The default constructors Field_XXX(), field_template.hpp:57-60 with field_secp256r1.cpp:11-14, 22-25 and
    field_bn254.cpp:11-14, 21-24: value 0, class modulus *)
Definition fe_default (q : Z) : fe := mkfe 0 q.

(** The constructors of the base class with explicit modulus, field_template.hpp:71-75, and without one, :64-67, where
    the member p is still 0; the latter is called by no class of the library *)
Definition pf_two (v prime : Z) : res fe := do r <- mpz_mod v prime; Ok (mkfe r prime).
Definition pf_one (v : Z) : res fe := do r <- mpz_mod v 0; Ok (mkfe r 0).

(** field_template.hpp:29-31 *)
Definition getRawValue (x : fe) : Z := fval x.
Definition getField (x : fe) : Z := fmod x.
Definition setField (x : fe) (prime : Z) : fe := mkfe (fval x) prime.

(** operator==, field_template.hpp:113-119 *)
Definition fe_eq (x y : fe) : bool := (fval x =? fval y) && (fmod x =? fmod y).

Section Ops.
  Variables (dbg : bool) (q : Z).

  (** operator+, field_template.hpp:131-138 *)
  Definition fe_add (x y : fe) : res fe :=
    do _ <- assert_ dbg (fmod x =? fmod y);
    do r <- mpz_mod (fval x + fval y) (fmod x);
    Ok (fe_new q r).

  (** operator+=, field_template.hpp:140-148 *)
  Definition fe_add_eq (x y : fe) : res fe :=
    do _ <- assert_ dbg (fmod x =? fmod y);
    do r <- mpz_mod (fval x + fval y) (fmod x);
    Ok (mkfe r (fmod x)).

  (** unary operator-, field_template.hpp:150-156 *)
  Definition fe_neg (x : fe) : res fe :=
    do r <- mpz_mod (- fval x) (fmod x);
    Ok (fe_new q r).

  (** operator-, field_template.hpp:158-165 *)
  Definition fe_sub (x y : fe) : res fe :=
    do _ <- assert_ dbg (fmod x =? fmod y);
    do r <- mpz_mod (fval x - fval y) (fmod x);
    Ok (fe_new q r).

  (** operator-=, field_template.hpp:167-174 *)
  Definition fe_sub_eq (x y : fe) : res fe :=
    do _ <- assert_ dbg (fmod x =? fmod y);
    do r <- mpz_mod (fval x - fval y) (fmod x);
    Ok (mkfe r (fmod x)).

  (** operator*(Field_XXX), field_template.hpp:176-184 *)
  Definition fe_mul (x y : fe) : res fe :=
    do _ <- assert_ dbg (fmod x =? fmod y);
    do r <- mpz_mod (fval x * fval y) (fmod x);
    Ok (fe_new q r).

  (** operator*(mpz_class), field_template.hpp:186-192 *)
  Definition fe_mulz (x : fe) (a : Z) : res fe :=
    do r <- mpz_mod (fval x * a) (fmod x);
    Ok (fe_new q r).

  (** operator*=(Field_XXX), field_template.hpp:194-201 *)
  Definition fe_mul_eq (x y : fe) : res fe :=
    do _ <- assert_ dbg (fmod x =? fmod y);
    do r <- mpz_mod (fval x * fval y) (fmod x);
    Ok (mkfe r (fmod x)).

  (** operator*=(mpz_class), field_template.hpp:203-209 *)
  Definition fe_mulz_eq (x : fe) (a : Z) : res fe :=
    do r <- mpz_mod (fval x * a) (fmod x);
    Ok (mkfe r (fmod x)).

  (** square, field_template.hpp:103-109 *)
  Definition fe_square (x : fe) : res fe :=
    do r <- mpz_mod (fval x * fval x) (fmod x);
    Ok (fe_new q r).

  (** invert, field_template.hpp:95-101: the return value of mpz_invert is ignored *)
  Definition fe_invert (x : fe) : res fe :=
    do r <- mpz_invert (fval x) (fmod x);
    Ok (fe_new q r).

  (** operator/, field_template.hpp:211-216 *)
  Definition fe_div (x y : fe) : res fe :=
    do _ <- assert_ dbg (fmod x =? fmod y);
    do i <- fe_invert y;
    fe_mul x i.

  (** operator/=, field_template.hpp:218-225 *)
  Definition fe_div_eq (x y : fe) : res fe :=
    do _ <- assert_ dbg (fmod x =? fmod y);
    do i <- fe_invert y;
    fe_mul_eq x i.
End Ops.

(** ** Compound updates on named objects
    A store of field objects addressed by index, so that target and operand may be the same object.
    The compound operators first write the unreduced result into value and then reduce it
    (for instance field_template.hpp:144-145); both writes are modelled. *)
Inductive instr :=
| IAdd (i j : nat)            (* x_i += x_j *)
| ISub (i j : nat)            (* x_i -= x_j *)
| IMul (i j : nat)            (* x_i *= x_j *)
| IMulz (i : nat) (a : Z)     (* x_i *= a *)
| IDiv (i j : nat)            (* x_i /= x_j *)
| ICopy (i j : nat).          (* x_i = x_j, field_template.hpp:121-128 *)

Definition store := nat -> fe.
Definition write (s : store) (i : nat) (x : fe) : store := fun k => if Nat.eqb k i then x else s k.
Definition write_val (s : store) (i : nat) (v : Z) : store := write s i (mkfe v (fmod (s i))).

Section Exec.
  Variables (dbg : bool) (q : Z).

  Definition reduce (s : store) (i : nat) : res store :=
    do r <- mpz_mod (fval (s i)) (fmod (s i));
    Ok (write_val s i r).

  Definition exec (s : store) (c : instr) : res store :=
    match c with
    | IAdd i j =>
        do _ <- assert_ dbg (fmod (s i) =? fmod (s j));
        reduce (write_val s i (fval (s i) + fval (s j))) i
    | ISub i j =>
        do _ <- assert_ dbg (fmod (s i) =? fmod (s j));
        reduce (write_val s i (fval (s i) - fval (s j))) i
    | IMul i j =>
        do _ <- assert_ dbg (fmod (s i) =? fmod (s j));
        reduce (write_val s i (fval (s i) * fval (s j))) i
    | IMulz i a => reduce (write_val s i (fval (s i) * a)) i
    | IDiv i j =>
        do _ <- assert_ dbg (fmod (s i) =? fmod (s j));
        do t <- fe_invert q (s j);
        do _ <- assert_ dbg (fmod (s i) =? fmod t);
        reduce (write_val s i (fval (s i) * fval t)) i
    | ICopy i j => Ok (write s i (s j))
    end.

  Definition exec_all (s : store) (l : list instr) : res store := foldM exec l s.
End Exec.
