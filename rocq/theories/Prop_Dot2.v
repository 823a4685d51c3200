(** Property C127: a distributed transfer in which some answers come from senders that follow no rule (src/ot/dot.cpp, src/ot/ot.cpp,
    src/dme/dmhe.cpp). [us] and [ws] are the answers before and after those of the honest senders [xs]; they may be chosen with the
    receiver and depend on its key, which is any pair of points of the curve. *)
From Coq Require Import ZArith Bool List Lia.
From Verif Require Import Outcome FieldModel ECGroup ECOrder CurveParams EccModel SpecEcc DmeModel SpecDme OtModel SpecOt SpecCount SpecDdh SpecDdh3 SpecCheat SpecIdeal SpecDot SpecDot2 DotProofs3 DotCase DotCase2.
Import ListNotations.
Open Scope Z_scope.

(** C127. The others move the aggregate of the honest senders by the sums of what they sent and do nothing else to it. *)
Theorem C127_moved : forall dbg live D pk us ws xs ds, dme_ok live D -> pk_valid live pk -> Forall (well_formed live) us -> Forall (well_formed live) ws ->
  xs <> [] -> length ds = length xs -> Forall (sender_ok live D) xs ->
  exists cs cs', gathered dbg live pk xs ds = Ok cs /\ gathered_among dbg live us ws pk xs ds = Ok cs' /\
    map view cs' = moved (weight 0 (us ++ ws)) (weight 1 (us ++ ws)) (map view cs).
Proof. exact L_C127_moved. Qed.
Print Assumptions C127_moved.

(** So the receiver and the others together learn of the messages of the honest senders the sums on the branches that the key does not
    hide, and nothing else. *)
Theorem C127_sums : forall dbg live O pk us ws xs xs' A, dme_ok live (sdme O) -> pk_valid live pk -> Forall (well_formed live) us -> Forall (well_formed live) ws ->
  xs <> [] -> length xs' = length xs -> Forall (sender_ok live (sdme O)) xs -> Forall (sender_ok live (sdme O)) xs' ->
  (forall b, branch b -> hidden dbg live O pk b \/ total (map (snd_msg b) xs) = total (map (snd_msg b) xs')) ->
  exists N, told_among dbg live us ws pk xs A N /\ told_among dbg live us ws pk xs' A N.
Proof. exact L_C127_sums. Qed.
Print Assumptions C127_sums.

(** honest senders with G, 3G or 3G, G on branch 0, one other that sends (G, 3G) and (3G, G) *)
Example C127_case : forall dbg live c c2, live c = true -> live c2 = true ->
  exists D P Q R, dme_new_random dbg live c 1 2 3 4 = Ok D /\
    getRandomPoint dbg live CV (Some c) 7 = Ok P /\ getRandomPoint dbg live CV (Some c) 14 = Ok Q /\ getRandomPoint dbg live CV (Some c2) 3 = Ok R /\
    let O := otsndr_new (dme_new_crs c2 (dcrs D)) in let G := gen CV c2 in let us := [[mkct G R; mkct R G]] in
    let xs := [speaks O G G; speaks O R G] in let xs' := [speaks O R R; speaks O G (pt_inf CV)] in
    let v0 := (fun l : list (elt * elt) => snd (nth 0 l (None, None))) in
    hidden dbg live O (mkpk P Q) 1 /\ weight 0 us = (den CV G, den CV R) /\ weight 1 us = (den CV R, den CV G) /\
    exists cs cs' N, gathered dbg live (mkpk P Q) xs [(5, 0, 0, 0); (6, 0, 0, 0)] = Ok cs /\
      gathered_among dbg live us [] (mkpk P Q) xs [(5, 0, 0, 0); (6, 0, 0, 0)] = Ok cs' /\ map view cs' = moved (den CV G, den CV R) (den CV R, den CV G) (map view cs) /\
      let A := fun v => if ept_dec (c_prime CV) (v0 v) (v0 (map view cs')) then true else false in
      0 < N /\ told_among dbg live us [] (mkpk P Q) xs A N /\ told_among dbg live us [] (mkpk P Q) xs' A N.
Proof. exact case127. Qed.
