(** Properties C69-C71: numbers, points and curves as text (includes/ecc_template.hpp, includes/field_template.hpp). *)
From Coq Require Import ZArith Bool List Ascii String.
From Verif Require Import Outcome FieldModel CurveParams EccModel SpecEcc TextModel SpecText TextProofs TextProofs2.
Import ListNotations.
Open Scope Z_scope.

(** C69: a string is read to the number it denotes; a string that denotes none leaves the variable as it was. *)
Theorem C69_reads : forall old base s, 2 <= base <= 62 -> no_nul s ->
  (forall v, mpz_set_str old s base = (v, true) <-> numeral base s v) /\
  (mpz_set_str old s base = (old, false) <-> ~ exists v, numeral base s v).
Proof. exact L_C69_reads. Qed.
Print Assumptions C69_reads.

Theorem C69_roundtrip : forall old base v, 2 <= base <= 62 -> mpz_set_str old (get_str base v) base = (v, true).
Proof. exact L_C69_roundtrip. Qed.
Print Assumptions C69_roundtrip.

(** Nothing after a NUL is read. *)
Theorem C69_nul : forall old base s s', no_nul s -> mpz_set_str old (s ++ "000"%char :: s') base = mpz_set_str old s base.
Proof. exact L_C69_nul. Qed.
Print Assumptions C69_nul.

(** In base 0 the prefix decides. *)
Theorem C69_base0 : forall old s, no_nul s ->
  (forall v, mpz_set_str old s 0 = (v, true) <-> numeral0 s v) /\ (mpz_set_str old s 0 = (old, false) <-> ~ exists v, numeral0 s v).
Proof. exact L_C69_base0. Qed.
Print Assumptions C69_base0.

(** The constructor of mpz_class throws on a string that denotes no number. *)
Theorem C69_constructor : forall base s, 2 <= base <= 62 -> no_nul s ->
  (forall v, mpz_class_str s base = Ok v <-> numeral base s v) /\ (mpz_class_str s base = Err Thrown <-> ~ exists v, numeral base s v).
Proof. exact L_C69_class. Qed.
Print Assumptions C69_constructor.

(** The loop of the scalar multiplication, which runs through get_str(2) from its end, sees the binary digits. *)
Theorem C69_scalar_bits : forall v, map (Ascii.eqb "1") (rev (get_str 2 v)) = zbits v.
Proof. exact L_C69_bits. Qed.
Print Assumptions C69_scalar_bits.

(** The literals in the constructors of fields and curves denote the constants of the model. *)
Theorem C69_literals : built_secp256r1 = Ok secp256r1 /\ built_bn254 = Ok bn254.
Proof. exact L_C69_literals. Qed.
Print Assumptions C69_literals.

Example C69_case : mpz_set_str 7 (txt "  -1F f") 16 = (-511, true) /\ mpz_set_str 7 (txt "1Fg") 16 = (7, false) /\
  get_str 16 (-511) = txt "-1ff" /\ mpz_set_str 7 (txt "- 1") 10 = (7, false) /\ mpz_set_str 7 (txt "0x1f") 0 = (31, true) /\
  mpz_set_str 7 (txt "-0b1 01") 0 = (-5, true) /\ mpz_set_str 7 (txt "019") 0 = (7, false) /\ mpz_set_str 7 (txt "0X") 0 = (0, true) /\
  mpz_class_str (txt "12x") 10 = Err Thrown /\ mpz_set_str 7 (txt "12" ++ "000"%char :: txt "x") 10 = (12, true).
Proof. repeat split. Qed.

(** C70: points from strings. *)
Theorem C70_reads : forall C base sx sy X Y c, 2 <= base <= 62 -> no_nul sx -> no_nul sy ->
  numeral base sx X -> numeral base sy Y -> pt_str C sx sy c base = pt_z C X Y c.
Proof. exact L_C70_valid. Qed.
Print Assumptions C70_reads.

Theorem C70_roundtrip : forall live k base P, 2 <= base <= 62 -> finite_valid live (params k) P ->
  pt_str (params k) (get_str base (fval (px P))) (get_str base (fval (py P))) (pcur P) base = P.
Proof. exact L_C70_roundtrip. Qed.
Print Assumptions C70_roundtrip.

(** A string that denotes no number goes unnoticed: the abscissa becomes 0, ... *)
Theorem C70_bad_x : forall C base sx sy Y c, 2 <= base <= 62 -> no_nul sx -> no_nul sy ->
  ~ (exists X, numeral base sx X) -> numeral base sy Y -> pt_str C sx sy c base = pt_z C 0 Y c.
Proof. exact L_C70_bad_x. Qed.
Print Assumptions C70_bad_x.

(** ... the ordinate becomes the abscissa. *)
Theorem C70_bad_y : forall C base sx sy X c, 2 <= base <= 62 -> no_nul sx -> no_nul sy ->
  numeral base sx X -> ~ (exists Y, numeral base sy Y) -> pt_str C sx sy c base = pt_z C X X c.
Proof. exact L_C70_bad_y. Qed.
Print Assumptions C70_bad_y.

Theorem C70_char_pointers : forall C base sx sy c, pt_cstr C (Some sx) (Some sy) c base = Ok (pt_str C sx sy c base).
Proof. exact L_C70_pointers. Qed.
Print Assumptions C70_char_pointers.

Theorem C70_null : forall C base sx sy c, sx = None \/ sy = None -> pt_cstr C sx sy c base = Err Thrown.
Proof. exact L_C70_null. Qed.
Print Assumptions C70_null.

(** what operator<< prints for a field element is not a numeral: reading it gives 0 *)
Example C70_case : pt_str bn254 (txt "2") (show_fe (fe_new 7 5)) (Some 1) 10 = pt_z bn254 2 2 (Some 1) /\
  pt_str bn254 (show_fe (fe_new 7 5)) (txt "2") (Some 1) 10 = pt_z bn254 0 2 (Some 1) /\
  pt_str bn254 (txt "a") (txt "-2") (Some 1) 16 = pt_z bn254 10 (-2) (Some 1) /\
  pt_cstr bn254 (Some (txt "5" ++ "000"%char :: txt "7")) (Some (txt "2")) (Some 1) 10 = Ok (pt_z bn254 5 2 (Some 1)) /\
  pt_cstr bn254 (Some (txt "5")) None (Some 1) 10 = Err Thrown.
Proof. repeat split. Qed.

(** C71: what is printed determines what was printed. *)
Theorem C71_field : forall a b, show_fe a = show_fe b -> a = b.
Proof. exact L_C71_field. Qed.
Print Assumptions C71_field.

Theorem C71_point : forall live k P Q, valid live (params k) P -> valid live (params k) Q ->
  (show_pt P = show_pt Q <-> den (params k) P = den (params k) Q).
Proof. exact L_C71_point. Qed.
Print Assumptions C71_point.

Theorem C71_any_point : forall P Q, show_pt P = show_pt Q <->
  pinf P = true /\ pinf Q = true \/ pinf P = false /\ pinf Q = false /\ fval (px P) = fval (px Q) /\ fval (py P) = fval (py Q).
Proof. exact show_pt_inj. Qed.
Print Assumptions C71_any_point.

Theorem C71_curve : forall C D, show_curve C = show_curve D <-> curve_eq C D = true.
Proof. exact L_C71_curve_eq. Qed.
Print Assumptions C71_curve.

Example C71_case : show_fe (fe_new 7 12) = txt "5  mod 7" /\ show_pt (pt_inf bn254) = txt "(inf, inf)" /\
  show_pt (pt_z bn254 5 (-1) (Some 1)) = txt "(5,16798108731015832284940804142231733909889187121439069848933715426072753864722)" /\
  show_curve secp256r1 <> show_curve bn254.
Proof. repeat split. rewrite C71_curve. discriminate. Qed.
