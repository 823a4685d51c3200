(** Vocabulary for the statement about the number of multiplications of a client of the oblivious PRF. *)
From Coq Require Import ZArith Bool List.
From Verif Require Import Outcome FieldModel EccModel DmeModel OtModel AesModel OpprfModel SpecOpprf SpecOpprf2 SpecOpprf4 TraceModel SpecTrace TraceModel2.
Import ListNotations.
Open Scope Z_scope.

(** how often a client with the given draws calls operator* at the end of the rounds 15 to 1 of a transcript *)
Fixpoint multiplications (dbg : bool) (live : Z -> bool) (e : env) (iv : list Z) (C : client) (l : list (Z * round_draws))
    (t : list (pkey * otctxts)) : res (list Z) :=
  match l, t with
  | (round, d) :: l', (_, c) :: t' =>
      do s <- runOTRound_start dbg live C round (rd_key d);
      do C' <- runOTRound_end dbg live e iv (fst s) round c;
      do r <- multiplications dbg live e iv C' l' t';
      Ok ((if round =? BITS then [] else [occurrences Multiply (fst (runOTRound_end_t dbg live e iv (fst s) round c))]) ++ r)
  | _, _ => Ok []
  end.

(** what the server makes of these numbers: the letter at the index it put there *)
Definition letters_counted (d : session_draws) (ns : list Z) : list (option comparison) :=
  map (fun z => letter_at (fst z) (Z.to_nat (snd z - 2))) (combine (shuffles d) ns).

(** 15, ..., 1 *)
Definition levels_above : list nat := rev (seq 1 15).
