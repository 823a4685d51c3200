(** Vocabulary for a receiver of oblivious transfers that sends points which are not on the curve. *)
From Coq Require Import ZArith Bool List.
From Verif Require Import Outcome FieldModel CurveParams EccModel DmeModel.
Import ListNotations.
Open Scope Z_scope.

(** a point with the abscissa 15, for the curve object at address c, and its mirror image *)
Definition trick_y : Z := 15330037599258922595677383974380023332775212294221841447605756574330589961127.
Definition trick (c : Z) : point := pt_z CV 15 trick_y (Some c).
Definition mirrored (c : Z) : point := pt_z CV 15 (- trick_y) (Some c).
(** a public key with this point twice *)
Definition trick_key (c : Z) : pkey := mkpk (trick c) (trick c).
(** what the receiver takes for the message: the second part of the ciphertext, or its sum with one of the two points *)
Definition guesses (dbg : bool) (live : Z -> bool) (c : Z) (ct : ctxt) : list (res point) :=
  [Ok (cmv ct); padd dbg live CV (cmv ct) (trick c); padd dbg live CV (cmv ct) (mirrored c)].
