(** Vocabulary for the statements about points and curves. *)
From Coq Require Import ZArith Bool List.
From Verif Require Import Outcome FieldModel ZpField SpecField ECGroup ECOrder CurveParams CurveFacts EccModel.
Import ListNotations.
Open Scope Z_scope.

(** the two curve classes *)
Inductive cname := Secp256r1 | Bn254.
Definition params (k : cname) : cparams := match k with Secp256r1 => secp256r1 | Bn254 => bn254 end.

Section Vocabulary.
  Variables (live : Z -> bool) (C : cparams).
  Let p := c_prime C.

  (** affine equation on integers modulo the prime *)
  Definition equation (x y : Z) : Prop := (y * y) mod p = (x * x * x + c_a C * x + c_b C) mod p.

  (** a point object the library can hold: the infinity it constructs, or a finite point whose
      coordinates are canonical field objects, satisfy the equation, and whose curve is alive *)
  Definition finite_valid (P : point) : Prop :=
    pinf P = false /\ canon (fieldp C) (px P) /\ canon (fieldp C) (py P) /\
    (exists c, pcur P = Some c /\ live c = true) /\ equation (fval (px P)) (fval (py P)).
  Definition valid (P : point) : Prop := P = pt_inf C \/ finite_valid P.

  (** the mathematical point: [None] is the neutral element *)
  Definition den (P : point) : ept p :=
    if pinf P then None else Some (mk p (fval (px P)), mk p (fval (py P))).

  (** the group: chord-and-tangent addition, mirror image, multiples, generator *)
  Definition gadd : ept p -> ept p -> ept p := eadd p (c_a C).
  Definition gneg : ept p -> ept p := eneg p.
  Definition gmul : Z -> ept p -> ept p := ezmul p (c_a C).
  Definition ggen : ept p := Some (mk p (c_gx C), mk p (c_gy C)).

  (** the point mirrored at the x axis *)
  Definition mirror (P : point) : point :=
    mkpoint (px P) (fe_new (fieldp C) (- fval (py P))) (pinf P) (pcur P).

  (** the computation ends normally in a valid point denoting [E] *)
  Definition yields (r : res point) (E : ept p) : Prop := exists R, r = Ok R /\ valid R /\ den R = E.

  (** both computations end normally, in valid points, denoting the same point *)
  Definition agree (r1 r2 : res point) : Prop := exists E, yields r1 E /\ yields r2 E.
End Vocabulary.

(** adding P k times, starting from infinity *)
Fixpoint times (dbg : bool) (live : Z -> bool) (C : cparams) (k : nat) (P : point) : res point :=
  match k with
  | O => Ok (pt_inf C)
  | S k' => do R <- times dbg live C k' P; padd dbg live C R P
  end.

(** the curve object a point refers to is alive (vacuously for a null pointer) *)
Definition alive (live : Z -> bool) (P : point) : bool :=
  match pcur P with Some c => live c | None => true end.
Definition all_alive : Z -> bool := fun _ => true.

(** point objects obtainable through the public constructors and operators *)
Inductive built (dbg : bool) (live : Z -> bool) (C : cparams) : point -> Prop :=
| built_default : built dbg live C (pt_inf C)
| built_integers x y c : built dbg live C (pt_z C x y c)
| built_fields x y c : canon (fieldp C) x -> canon (fieldp C) y -> built dbg live C (pt_fe x y c)
| built_add P Q R : built dbg live C P -> built dbg live C Q -> padd dbg live C P Q = Ok R -> built dbg live C R
| built_sub P Q R : built dbg live C P -> built dbg live C Q -> psub dbg live C P Q = Ok R -> built dbg live C R
| built_double P R : built dbg live C P -> pdouble dbg live C P = Ok R -> built dbg live C R
| built_mul P s R : built dbg live C P -> pmul dbg live C P s = Ok R -> built dbg live C R
| built_gen c R : getDefaultGen live C c = Ok R -> built dbg live C R
| built_lookup c x R : canon (fieldp C) x -> evaluateP dbg live C c x = Ok R -> built dbg live C R
| built_lookupneg c x R : canon (fieldp C) x -> evaluatePneg dbg live C c x = Ok R -> built dbg live C R
| built_decode P e R : built dbg live C P -> setEncodedX dbg live C P e = Ok R -> built dbg live C R.
