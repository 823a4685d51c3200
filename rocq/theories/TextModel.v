(** Model of numbers as text: the constructors that read strings and the operators << , /repo/includes/ecc_template.hpp,
    /repo/includes/field_template.hpp. Strings are lists of characters. Streams have their initial flags: decimal, width 0. *)
From Coq Require Import ZArith Bool List Ascii String.
From Verif Require Import Outcome FieldModel CurveParams EccModel.
Import ListNotations.
Open Scope Z_scope.

Definition text := list ascii.
Definition txt (s : string) : text := list_ascii_of_string s.
Definition code (c : ascii) : Z := Z.of_N (N_of_ascii c).
Definition chr (n : Z) : ascii := ascii_of_N (Z.to_N n).

(** ** GMP *)

(** isspace in the C locale *)
Definition is_space (c : ascii) : bool := (code c =? 32) || (9 <=? code c) && (code c <=? 13).

(** the table __gmp_digit_value_tab; above base 36 upper and lower case differ *)
Definition digit_value (base : Z) (c : ascii) : Z :=
  let n := code c in
  if (48 <=? n) && (n <=? 57) then n - 48
  else if (65 <=? n) && (n <=? 90) then n - 55
  else if (97 <=? n) && (n <=? 122) then (if base <=? 36 then n - 87 else n - 61)
  else 255.

(** std::string::c_str read as a C string: up to the first NUL *)
Fixpoint c_str (s : text) : text :=
  match s with
  | [] => []
  | c :: s' => if code c =? 0 then [] else c :: c_str s'
  end.

Fixpoint skip (f : ascii -> bool) (s : text) : text :=
  match s with
  | [] => []
  | c :: s' => if f c then skip f s' else s
  end.

(** the loop over the digits; spaces are dropped *)
Fixpoint read_digits (tab base acc : Z) (s : text) : option Z :=
  match s with
  | [] => Some acc
  | c :: s' => if is_space c then read_digits tab base acc s' else
      let d := digit_value tab c in if base <=? d then None else read_digits tab base (acc * base + d) s'
  end.

(** the base of a string read with base 0, and what follows the prefix *)
Definition find_base (base : Z) (s : text) : Z * text :=
  if base =? 0 then
    match s with
    | c :: s' =>
        if code c =? 48 then
          match s' with
          | d :: s2 => if (code d =? 120) || (code d =? 88) then (16, s2)
                       else if (code d =? 98) || (code d =? 66) then (2, s2) else (8, s')
          | [] => (8, s')
          end
        else (10, s)
    | [] => (10, s)
    end
  else (base, s).

(** mpz_set_str(x, s, base) on a variable that holds [old]: the new value and whether it reports success *)
Definition mpz_set_str (old : Z) (s : text) (base : Z) : Z * bool :=
  if 62 <? base then (old, false) else
  let s := skip is_space (c_str s) in
  let '(neg, s) := match s with
                   | c :: s' => if code c =? 45 then (true, s') else (false, s)
                   | [] => (false, s)
                   end in
  match s with
  | [] => (old, false)
  | c :: _ =>
      if (if base =? 0 then 10 else base) <=? digit_value base c then (old, false) else
      let '(b, s) := find_base base s in
      match read_digits base b 0 (skip (fun c => (code c =? 48) || is_space c) s) with
      | None => (old, false)
      | Some v => (if neg : bool then - v else v, true)
      end
  end.

(** mpz_class(const char*, int): throws std::invalid_argument *)
Definition mpz_class_str (s : text) (base : Z) : res Z :=
  let r := mpz_set_str 0 s base in if snd r then Ok (fst r) else Err Thrown.

(** mpz_get_str(base) for bases 2 to 62 *)
Definition digit_char (base d : Z) : ascii :=
  if d <? 10 then chr (48 + d) else if base <=? 36 then chr (87 + d) else if d <? 36 then chr (55 + d) else chr (61 + d).
(** the digits of v > 0, least significant first *)
Fixpoint low_digits (fuel : nat) (base v : Z) : list Z :=
  match fuel with
  | O => []
  | S f => if v =? 0 then [] else v mod base :: low_digits f base (v / base)
  end.
Definition get_str (base v : Z) : text :=
  (if v <? 0 then txt "-" else []) ++
  (if v =? 0 then txt "0"
   else map (digit_char base) (rev (low_digits (Z.to_nat (Z.log2 (Z.abs v)) + 1) base (Z.abs v)))).
(** operator<< of mpz_class *)
Definition show_z (v : Z) : text := get_str 10 v.

(** ** The library *)

(** operator<< on fields, field_template.hpp:226-230 *)
Definition show_fe (a : fe) : text := show_z (fval a) ++ txt "  mod " ++ show_z (fmod a).

(** operator<< on points, ecc_template.hpp:504-515 *)
Definition show_pt (P : point) : text :=
  if pinf P then txt "(inf, inf)"
  else txt "(" ++ show_z (fval (px P)) ++ txt "," ++ show_z (fval (py P)) ++ txt ")".

(** operator<< on curves, ecc_template.hpp:601-610 *)
Definition show_curve (C : cparams) : text :=
  txt "C(p=" ++ show_z (c_prime C) ++ txt ", a=" ++ show_z (c_a C) ++ txt ", b=" ++ show_z (c_b C) ++
  txt ", n=" ++ show_z (c_order C) ++ txt ", cof=" ++ show_z (c_cofactor C) ++ txt ")".

Section Read.
  Variable C : cparams.
  (** Point(string, string, Curve pointer, base), ecc_template.hpp:220-229; the results of set_str are ignored *)
  Definition pt_str (sx sy : text) (c : option Z) (base : Z) : point :=
    let v := fst (mpz_set_str 0 sx base) in
    let x := fe_new (fieldp C) v in
    let v := fst (mpz_set_str v sy base) in
    let y := fe_new (fieldp C) v in
    mkpoint x y false c.

  (** Point(char pointer, char pointer, Curve pointer, base), ecc_template.hpp:243-246; std::string throws on a null pointer *)
  Definition pt_cstr (sx sy : option text) (c : option Z) (base : Z) : res point :=
    match sx, sy with
    | Some sx, Some sy => Ok (pt_str (c_str sx) (c_str sy) c base)
    | _, _ => Err Thrown
    end.
End Read.

(** The constructors of the curves with their literals, src/ecc/ecc_secp256r1.cpp:13-23 and src/ecc/ecc_bn254.cpp:13-23 (set_str
    on fresh members; the results are ignored), and of the field classes, src/fields/field_secp256r1.cpp:7-24 and
    src/fields/field_bn254.cpp:7-24 (constructor of mpz_class) *)
Definition lit (s : string) : Z := fst (mpz_set_str 0 (txt s) 16).
Definition built (p n : string) (prime a b gx gy order cof : string) : res cparams :=
  do p <- mpz_class_str (txt p) 16;
  do n <- mpz_class_str (txt n) 16;
  Ok {| fieldp := p; fieldn := n; c_prime := lit prime; c_a := lit a; c_b := lit b; c_gx := lit gx; c_gy := lit gy;
        c_order := lit order; c_cofactor := lit cof |}.
Definition built_secp256r1 : res cparams := built
  "ffffffff00000001000000000000000000000000ffffffffffffffffffffffff"
  "ffffffff00000000ffffffffffffffffbce6faada7179e84f3b9cac2fc632551"
  "ffffffff00000001000000000000000000000000ffffffffffffffffffffffff"
  "ffffffff00000001000000000000000000000000fffffffffffffffffffffffc"
  "5ac635d8aa3a93e7b3ebbd55769886bc651d06b0cc53b0f63bce3c3e27d2604b"
  "6b17d1f2e12c4247f8bce6e563a440f277037d812deb33a0f4a13945d898c296"
  "4fe342e2fe1a7f9b8ee7eb4a7c0f9e162bce33576b315ececbb6406837bf51f5"
  "ffffffff00000000ffffffffffffffffbce6faada7179e84f3b9cac2fc632551"
  "1".
Definition built_bn254 : res cparams := built
  "2523648240000001BA344D80000000086121000000000013A700000000000013"
  "2523648240000001BA344D8000000007FF9F800000000010A10000000000000D"
  "2523648240000001BA344D80000000086121000000000013A700000000000013"
  "0000000000000000000000000000000000000000000000000000000000000000"
  "0000000000000000000000000000000000000000000000000000000000000002"
  "2523648240000001BA344D80000000086121000000000013A700000000000012"
  "0000000000000000000000000000000000000000000000000000000000000001"
  "2523648240000001BA344D8000000007FF9F800000000010A10000000000000D"
  "1".
