(** Vocabulary for the statements about servers, or others between the parties, that do not follow the oblivious PRF. *)
From Coq Require Import ZArith Bool List.
From Verif Require Import Outcome FieldModel CurveParams EccModel SpecEcc DmeModel SpecDme OtModel SpecOt AesModel OpprfModel SpecOpprf SpecOpprf2.
Import ListNotations.
Open Scope Z_scope.

(** messages of the given rounds that agree on the branches an input [x] asks for; nothing is said about public keys and
    other branches *)
Inductive same_for (x : Z) : list Z -> list (pkey * otctxts) -> list (pkey * otctxts) -> Prop :=
| same_end l : same_for x l [] []
| same_more r l m m' t t' :
    Forall2 (fun v v' => vat v (round_bit x r) = vat v' (round_bit x r)) (oc (snd m)) (oc (snd m')) ->
    vat (ocprf (snd m)) (round_bit x r) = vat (ocprf (snd m')) (round_bit x r) ->
    same_for x l t t' -> same_for x (r :: l) (m :: t) (m' :: t').

(** round [r] of a transcript without the ciphertexts of branch 1 *)
Definition cut (m : pkey * otctxts) : pkey * otctxts :=
  (fst m, mkoc (map (firstn 1) (oc (snd m))) (firstn 1 (ocprf (snd m)))).
Definition cut_round (r : Z) (t : transcript) : transcript :=
  mktr (map (fun z => if fst z =? r then cut (snd z) else snd z) (combine rounds (tr_rounds t))) (tr_masks t).

(** what someone in between may turn the PRF ciphertexts of a round into: the two branches shifted by different multiples *)
Definition tilt_round (live : Z -> bool) (k : Z * Z) (m m' : pkey * otctxts) : Prop :=
  oc (snd m') = oc (snd m) /\
  exists c0 c1 c0' c1', ocprf (snd m) = [c0; c1] /\ ocprf (snd m') = [c0'; c1'] /\
    shift_ctxt live (fst k) c0 c0' /\ shift_ctxt live (snd k) c1 c1'.
Inductive tilt_rounds (live : Z -> bool) : list (Z * Z) -> list (pkey * otctxts) -> list (pkey * otctxts) -> Prop :=
| tilt_end : tilt_rounds live [] [] []
| tilt_more k ks m m' t t' : tilt_round live k m m' -> tilt_rounds live ks t t' -> tilt_rounds live (k :: ks) (m :: t) (m' :: t').
(** the shifts an input runs into, over the given rounds *)
Fixpoint tilted (x : Z) (l : list Z) (ks : list (Z * Z)) : Z :=
  match l, ks with
  | r :: l', k :: ks' => (if round_bit x r =? 0 then fst k else snd k) + tilted x l' ks'
  | _, _ => 0
  end.
(** branch 1 of round [r] shifted by [k] times the weight of its bit, for every round *)
Definition weighted (k : Z) : list (Z * Z) := map (fun r => (0, k * 2 ^ (r - 1))) rounds.
