(** Vocabulary for what the aggregate of several senders shows to a receiver that sends any public key it likes. *)
From Coq Require Import ZArith Bool List.
From Verif Require Import Outcome FieldModel CurveParams EccModel SpecEcc DmeModel SpecDme OtModel SpecOt SpecCount SpecDdh SpecDdh3 SpecIdeal.
Import ListNotations.
Open Scope Z_scope.

(** a sender with these draws *)
Definition drawn (x : sender) (q : Z * Z * Z * Z) : sender :=
  let '(s0, t0, s1, t1) := q in mksender (snd_o x) (snd_m0 x) (snd_m1 x) s0 t0 s1 t1.

Section Dot.
  Variables (dbg : bool) (live : Z -> bool).
  (** what the proxy makes of the answers of the senders xs, as in testsuit/test_ot.cpp:95-121 *)
  Definition gathered (pk : pkey) (xs : list sender) (ds : list (Z * Z * Z * Z)) : res (list ctxt) :=
    do vs <- mapM (send dbg live pk) (map (fun y => drawn (fst y) (snd y)) (combine xs ds));
    aggregate dbg live vs.
  (** how often A says yes to it *)
  Definition told (pk : pkey) (xs : list sender) (A : list (elt * elt) -> bool) (N : Z) : Prop :=
    how_many (fun ds => length ds = length xs /\ Forall four ds /\ exists cs, gathered pk xs ds = Ok cs /\ A (map view cs) = true) N.
End Dot.
