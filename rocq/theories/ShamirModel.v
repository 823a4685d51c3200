(** Model of sss::ShamirSS, /repo/src/shamirss/shamirss.cpp and /repo/includes/shamirss.hpp.
    std::vector is [list]; the draws of rand() are the stream [rnd]; [cap] bounds the number of elements a
    vector can hold (push_back throws beyond it). *)
From Coq Require Import ZArith Bool List.
From Verif Require Import Outcome FieldModel CurveParams.
Import ListNotations.
Open Scope Z_scope.

(** shamirss.hpp:12, typedef field::Field_secp256r1_n FIELD *)
Definition FIELD : Z := fieldn secp256r1.

(** shamirss.hpp:14-24, struct Share *)
Record share := mkshare { sidx : fe; sval : fe }.

(** RAND_MAX = INT_MAX of the C library (glibc); int has 32 bits, size_t 64 *)
Definition INT_MAX : Z := 2 ^ 31 - 1.
Definition SIZE : Z := 2 ^ 64.

Section Shamir.
  Variable dbg : bool.

  (** evalPoly, shamirss.cpp:15-25 *)
  Definition evalPoly (x : fe) (poly : list fe) : res fe :=
    do (y, _) <- foldM (fun '(y, temp) coeff =>
                   do u <- fe_mul dbg FIELD coeff temp;
                   do y' <- fe_add dbg FIELD y u;
                   do temp' <- fe_mul dbg FIELD temp x;
                   Ok (y', temp')) poly (fe_default FIELD, fe_new FIELD 1);
    Ok y.

  (** shamirss.cpp:32, FIELD((rand()+1) %100) for the value [r] returned by rand(); int addition *)
  Definition coef (r : Z) : res fe :=
    if r =? INT_MAX then Err SignedOverflow else Ok (fe_new FIELD (Z.rem (r + 1) 100)).

  (** getShares, shamirss.cpp:26-44.  The loop bound t-1 is computed in size_t.  The memory limit is
      checked before the loops run; the loop over i then never reaches the largest size_t. *)
  Definition getShares (cap : Z) (rnd : nat -> Z) (t n : Z) (secret : fe) : res (list share) :=
    let k := (t - 1) mod SIZE in
    if (cap <? k + 1) || (cap <? n) then Err Exhausted else
    do cs <- mapM (fun i => coef (rnd i)) (seq 0 (Z.to_nat k));
    mapM (fun i =>
      let idx := fe_new FIELD (Z.of_nat i) in
      do val <- evalPoly idx (secret :: cs);
      Ok (mkshare idx val)) (seq 1 (Z.to_nat n)).

  (** element access shares[i]; the index is below size() in both loops *)
  Definition at_ (l : list share) (i : nat) : share := nth i l (mkshare (fe_default FIELD) (fe_default FIELD)).

  (** reconSecret, shamirss.cpp:46-69 *)
  Definition reconSecret (shares : list share) : res fe :=
    let size := length shares in
    foldM (fun result i =>
      do (numerator, denominator) <-
        foldM (fun '(numerator, denominator) j =>
          if negb (Nat.eqb i j) then
            do numerator' <- fe_mul_eq dbg numerator (sidx (at_ shares j));
            do d <- fe_sub dbg FIELD (sidx (at_ shares j)) (sidx (at_ shares i));
            do denominator' <- fe_mul_eq dbg denominator d;
            Ok (numerator', denominator')
          else Ok (numerator, denominator))
          (seq 0 size) (fe_new FIELD 1, fe_new FIELD 1);
      do u <- fe_mul dbg FIELD (sval (at_ shares i)) numerator;
      do w <- fe_div dbg FIELD u denominator;
      fe_add_eq dbg result w) (seq 0 size) (fe_default FIELD).
End Shamir.
