(** Vocabulary for the statements about randomness. *)
From Coq Require Import ZArith Bool List.
From Verif Require Import Outcome FieldModel CurveParams EccModel DmeModel SpecDme OtModel AesModel OpprfModel ShamirModel RngModel.
Import ListNotations.
Open Scope Z_scope.

(** What an outsider knows of a call: which function it is, and the public parameters that decide how much it draws. No
    key, message, branch, point or address is part of it. *)
Inductive shape :=
| ShDme (mu : mode_t) | ShDmeRandom | ShKeyGen | ShTrapKeyGen | ShEnc | ShSelect | ShRandomMsg | ShEncMsgs
| ShServer | ShPrepare | ShFirstRound | ShRound | ShMasks | ShShares (t : Z).
Definition shape_of (c : call) : shape :=
  match c with
  | CDme _ mu => ShDme mu
  | CDmeRandom _ => ShDmeRandom
  | CKeyGen _ _ => ShKeyGen
  | CTrapKeyGen _ => ShTrapKeyGen
  | CEnc _ _ _ _ => ShEnc
  | CSelect _ _ => ShSelect
  | CRandomMsg _ => ShRandomMsg
  | CEncMsgs _ _ _ _ => ShEncMsgs
  | CServer _ _ _ => ShServer
  | CPrepare _ => ShPrepare
  | CRounds _ round _ => if round =? 16 then ShFirstRound else ShRound
  | CMasks _ => ShMasks
  | CShares _ t _ _ => ShShares t
  end.
Definition same_shape (p p' : list call) : Prop := map shape_of p = map shape_of p'.

(** the values that came from one of the generators *)
Definition from (s : source) (l : list request) (v : list Z) : list Z :=
  map snd (filter (fun x => match source_of (fst x), s with SCurve, SCurve | SUtils, SUtils | SLibc, SLibc => true | _, _ => false end)
    (combine l v)).
Definition asked (s : source) (l : list request) : list request :=
  filter (fun q => match source_of q, s with SCurve, SCurve | SUtils, SUtils | SLibc, SLibc => true | _, _ => false end) l.

(** what a generator in state [s] gives to requests with the parameters [l] *)
Fixpoint stream {S : Type} (next : S -> Z -> Z * S) (s : S) (l : list Z) : list Z :=
  match l with [] => [] | m :: t => fst (next s m) :: stream next (snd (next s m)) t end.
Definition parameter (q : request) : Z := match q with Range m => m | Bits n => n | Rand => 0 end.
