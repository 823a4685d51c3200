(** Vocabulary for the statements about numbers as text. *)
From Coq Require Import ZArith Bool List Ascii String.
From Verif Require Import TextModel.
Import ListNotations.
Open Scope Z_scope.

(** digits: up to base 36 in either case, above in the order 0-9, A-Z, a-z *)
Definition lower : list ascii := txt "0123456789abcdefghijklmnopqrstuvwxyz".
Definition upper : list ascii := txt "0123456789ABCDEFGHIJKLMNOPQRSTUVWXYZ".
Definition mixed : list ascii := txt "0123456789ABCDEFGHIJKLMNOPQRSTUVWXYZabcdefghijklmnopqrstuvwxyz".
Definition digit (base : Z) (c : ascii) (d : nat) : Prop :=
  Z.of_nat d < base /\
  (base <= 36 /\ (nth_error lower d = Some c \/ nth_error upper d = Some c) \/ 36 < base /\ nth_error mixed d = Some c).

(** white space: blank, tab, line feed, vertical tab, form feed, carriage return *)
Definition space (c : ascii) : Prop := In c [" "; "009"; "010"; "011"; "012"; "013"]%char.

(** digits with white space between and after them, and the digits alone *)
Inductive spaced (base : Z) : text -> list nat -> Prop :=
| spaced_nil : spaced base [] []
| spaced_space c s ds : space c -> spaced base s ds -> spaced base (c :: s) ds
| spaced_digit c d s ds : digit base c d -> spaced base s ds -> spaced base (c :: s) (d :: ds).

(** positional notation *)
Fixpoint positional (base : Z) (ds : list nat) : Z :=
  match ds with
  | [] => 0
  | d :: ds' => Z.of_nat d * base ^ Z.of_nat (List.length ds') + positional base ds'
  end.

(** [s] denotes [v]: white space, an optional minus sign, immediately a digit, more digits and white space *)
Definition numeral (base : Z) (s : text) (v : Z) : Prop :=
  exists sp (neg : bool) c s' d ds, s = sp ++ (if neg then txt "-" else []) ++ c :: s' /\
    Forall space sp /\ digit base c d /\ spaced base s' ds /\
    v = (if neg then -1 else 1) * positional base (d :: ds).

Definition no_nul (s : text) : Prop := ~ In "000"%char s.

(** base 0: the digits after the prefix decide; a prefix alone denotes 0 *)
Inductive prefixed : text -> Z -> text -> Prop :=
| prefix_hex c s : c = "x"%char \/ c = "X"%char -> prefixed ("0"%char :: c :: s) 16 s
| prefix_binary c s : c = "b"%char \/ c = "B"%char -> prefixed ("0"%char :: c :: s) 2 s
| prefix_octal s : prefixed ("0"%char :: s) 8 s
| prefix_none c d s : digit 10 c d -> d <> O -> prefixed (c :: s) 10 (c :: s).
Definition numeral0 (s : text) (v : Z) : Prop :=
  exists sp (neg : bool) s1 base s2 ds, s = sp ++ (if neg then txt "-" else []) ++ s1 /\ Forall space sp /\ prefixed s1 base s2 /\
    spaced base s2 ds /\ v = (if neg then -1 else 1) * positional base ds.
