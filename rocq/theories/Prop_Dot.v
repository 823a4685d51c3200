(** Property C125: what a receiver of a distributed transfer learns of the messages of the single senders (src/ot/dot.cpp, src/ot/ot.cpp,
    src/dme/dmhe.cpp). [gathered] is what the proxy makes of the answers of the senders to one public key, [judged], [hidden] and
    [revealed] (C117) are about the answer of one sender. *)
From Coq Require Import ZArith Bool List Lia.
From Verif Require Import Outcome FieldModel ECGroup ECOrder CurveParams EccModel SpecEcc DmeModel SpecDme OtModel SpecOt SpecCount SpecDdh SpecDdh3 SpecCheat SpecIdeal SpecDot DotProofs2 DotCase.
Import ListNotations.
Open Scope Z_scope.

(** C125. The aggregate of n senders is distributed as the answer of one sender whose messages are the sums, whatever the key. *)
Theorem C125_one : forall dbg live O pk xs T0 T1 A, dme_ok live (sdme O) -> pk_valid live pk -> xs <> [] -> Forall (sender_ok live (sdme O)) xs ->
  is_valid live T0 -> is_valid live T1 -> den CV T0 = total (map (snd_msg 0) xs) -> den CV T1 = total (map (snd_msg 1) xs) ->
  exists N, judged dbg live O pk 0 T0 T1 A N /\ told dbg live pk xs A (order ^ (4 * (Z.of_nat (length xs) - 1)) * N).
Proof. exact L_C125_one. Qed.
Print Assumptions C125_one.

(** Messages with the same sums give the same distribution, and where the key hides a branch the sums need not agree either; ... *)
Theorem C125_sums : forall dbg live O pk xs xs' A, dme_ok live (sdme O) -> pk_valid live pk -> xs <> [] -> length xs' = length xs ->
  Forall (sender_ok live (sdme O)) xs -> Forall (sender_ok live (sdme O)) xs' ->
  (forall b, branch b -> hidden dbg live O pk b \/ total (map (snd_msg b) xs) = total (map (snd_msg b) xs')) ->
  exists N, told dbg live pk xs A N /\ told dbg live pk xs' A N.
Proof. exact L_C125_sums. Qed.
Print Assumptions C125_sums.

(** ... the sum of a branch that the key reveals is a function of the aggregate, whatever the draws. *)
Theorem C125_revealed : forall dbg live O pk b, dme_ok live (sdme O) -> pk_valid live pk -> branch b -> revealed dbg live O pk b ->
  exists f, forall xs ds, xs <> [] -> length ds = length xs -> Forall (sender_ok live (sdme O)) xs ->
    exists cs, gathered dbg live pk xs ds = Ok cs /\ f (map view cs) = total (map (snd_msg b) xs).
Proof. exact L_C125_revealed. Qed.
Print Assumptions C125_revealed.

(** three senders that send G, G, G or 3G and two infinities on branch 0, with the key (7G, 14G) on the string of the draws 1 2 3 4 *)
Example C125_case : forall dbg live c c2, live c = true -> live c2 = true ->
  exists D P Q R f N, dme_new_random dbg live c 1 2 3 4 = Ok D /\
    getRandomPoint dbg live CV (Some c) 7 = Ok P /\ getRandomPoint dbg live CV (Some c) 14 = Ok Q /\ getRandomPoint dbg live CV (Some c2) 3 = Ok R /\
    let O := otsndr_new (dme_new_crs c2 (dcrs D)) in let G := gen CV c2 in
    let xs := [speaks O G G; speaks O G R; speaks O G (pt_inf CV)] in let xs' := [speaks O R R; speaks O (pt_inf CV) R; speaks O (pt_inf CV) R] in
    hidden dbg live O (mkpk P Q) 1 /\
    (forall ds, length ds = 3%nat -> exists cs, gathered dbg live (mkpk P Q) xs ds = Ok cs /\ f (map view cs) = den CV R) /\
    let A := fun v => if ept_dec (c_prime CV) (f v) (den CV R) then true else false in
    0 < N /\ told dbg live (mkpk P Q) xs A N /\ told dbg live (mkpk P Q) xs' A N.
Proof. exact case125. Qed.
