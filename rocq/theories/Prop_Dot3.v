(** Property C128: aggregation by several proxies (src/ot/dot.cpp, src/dme/dmhe.cpp). A proxy of a hierarchy [proxies] hands its aggregate
    on as if it were the answer of one sender; [weight] sums the points of the answers on one branch. *)
From Coq Require Import ZArith Bool List Lia Permutation.
From Verif Require Import Outcome FieldModel CurveParams EccModel SpecEcc DmeModel SpecDme OtModel SpecOt SpecDdh SpecDdh3 SpecDot2 DotProofs4.
Import ListNotations.
Open Scope Z_scope.

(** C128. The aggregate of any answers of points of the curve is their sums, and can be aggregated again, ... *)
Theorem C128_sums : forall dbg live vs, Forall (well_formed live) vs -> vs <> [] ->
  exists cs, aggregate dbg live vs = Ok cs /\ map view cs = [weight 0 vs; weight 1 vs] /\ well_formed live cs.
Proof. exact L_C128_sums. Qed.
Print Assumptions C128_sums.

(** ... the order of the answers does not matter, ... *)
Theorem C128_order : forall dbg live vs vs', Forall (well_formed live) vs -> vs <> [] -> Permutation vs vs' ->
  exists cs cs', aggregate dbg live vs = Ok cs /\ aggregate dbg live vs' = Ok cs' /\ map view cs' = map view cs.
Proof. exact L_C128_order. Qed.
Print Assumptions C128_order.

(** ... and a hierarchy of proxies gives what one proxy gives that takes in the answers of all senders. *)
Theorem C128_tree : forall dbg live t, proper live t ->
  exists cs cs', relay dbg live t = Ok cs /\ aggregate dbg live (answers t) = Ok cs' /\ map view (firstn 2 cs) = map view cs'.
Proof. exact L_C128_tree. Qed.
Print Assumptions C128_tree.

(** three senders, one of which sends three ciphertexts, below a proxy with two proxies below it *)
Example C128_case : forall dbg live c, live c = true -> exists R, getRandomPoint dbg live CV (Some c) 3 = Ok R /\
  let G := gen CV c in let w := [mkct G R; mkct R G] in let w' := [mkct R R; mkct (pt_inf CV) G; mkct G G] in
  let t := Proxy [Proxy [Answer w; Answer w]; Proxy [Proxy [Answer w']]] in
  answers t = [w; w; w'] /\ proper live t /\
  exists cs ct cr, aggregate dbg live [w; w; w'] = Ok cs /\ map view cs = [(pow 5, pow 9); (pow 6, pow 3)] /\
    relay dbg live t = Ok ct /\ map view (firstn 2 ct) = map view cs /\ aggregate dbg live [w'; w; w] = Ok cr /\ map view cr = map view cs.
Proof. exact case128. Qed.
