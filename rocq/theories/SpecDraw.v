(** Vocabulary for the statements about draws that make decryption fail. *)
From Coq Require Import ZArith Bool List.
From Verif Require Import Outcome FieldModel CurveParams EccModel SpecEcc DmeModel SpecDme OtModel SpecOt.
Open Scope Z_scope.

(** a sender whose second draw on branch [b] is [t] *)
Definition with_draw (b : branch_t) (x : sender) (t : Z) : sender :=
  if b =? 0 then mksender (snd_o x) (snd_m0 x) (snd_m1 x) (snd_s0 x) t (snd_s1 x) (snd_t1 x)
  else mksender (snd_o x) (snd_m0 x) (snd_m1 x) (snd_s0 x) (snd_t0 x) (snd_s1 x) t.
