(** Vocabulary for a distributed transfer in which some answers do not come from honest senders. *)
From Coq Require Import ZArith Bool List.
From Verif Require Import Outcome FieldModel CurveParams EccModel SpecEcc DmeModel SpecDme OtModel SpecOt SpecCount SpecDdh SpecDdh3 SpecIdeal SpecDot.
Import ListNotations.
Open Scope Z_scope.

(** an answer of at least two ciphertexts of points of the curve *)
Definition well_formed (live : Z -> bool) (w : list ctxt) : Prop :=
  exists c0 c1 l, w = c0 :: c1 :: l /\ ct_valid live c0 /\ ct_valid live c1.
(** what the answers ws have on branch b in all *)
Definition weight (b : nat) (ws : list (list ctxt)) : elt * elt :=
  (total (map (fun w => cu (nth b w (mkct (pt_inf CV) (pt_inf CV)))) ws), total (map (fun w => cmv (nth b w (mkct (pt_inf CV) (pt_inf CV)))) ws)).
Definition moved (k0 k1 : elt * elt) (l : list (elt * elt)) : list (elt * elt) :=
  map (fun y => (gadd CV (fst (fst y)) (fst (snd y)), gadd CV (snd (fst y)) (snd (snd y)))) (combine l [k0; k1]).

Section Dot.
  Variables (dbg : bool) (live : Z -> bool).
  (** what the proxy makes of the answers of the senders xs among the answers us and ws *)
  Definition gathered_among (us ws : list (list ctxt)) (pk : pkey) (xs : list sender) (ds : list (Z * Z * Z * Z)) : res (list ctxt) :=
    do vs <- mapM (send dbg live pk) (map (fun y => drawn (fst y) (snd y)) (combine xs ds));
    aggregate dbg live (us ++ vs ++ ws).
  (** how often A says yes to it *)
  Definition told_among (us ws : list (list ctxt)) (pk : pkey) (xs : list sender) (A : list (elt * elt) -> bool) (N : Z) : Prop :=
    how_many (fun ds => length ds = length xs /\ Forall four ds /\ exists cs, gathered_among us ws pk xs ds = Ok cs /\ A (map view cs) = true) N.
End Dot.

(** a hierarchy of proxies: a proxy takes in answers of senders and the aggregates of other proxies *)
Inductive proxies := Answer (w : list ctxt) | Proxy (ts : list proxies).
Fixpoint relay (dbg : bool) (live : Z -> bool) (t : proxies) : res (list ctxt) :=
  match t with
  | Answer w => Ok w
  | Proxy ts =>
      do vs <- (fix all (l : list proxies) : res (list (list ctxt)) :=
                  match l with [] => Ok [] | t :: l' => do v <- relay dbg live t; do vs <- all l'; Ok (v :: vs) end) ts;
      aggregate dbg live vs
  end.
(** the answers of all senders below *)
Fixpoint answers (t : proxies) : list (list ctxt) := match t with Answer w => [w] | Proxy ts => flat_map answers ts end.
(** well-formed answers, and something for each proxy to take in *)
Fixpoint proper (live : Z -> bool) (t : proxies) : Prop :=
  match t with
  | Answer w => well_formed live w
  | Proxy ts => ts <> [] /\ fold_right (fun t P => proper live t /\ P) True ts
  end.
