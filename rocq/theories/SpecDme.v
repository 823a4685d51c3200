(** Vocabulary for the statements about dual-mode encryption. *)
From Coq Require Import ZArith Bool List.
From Verif Require Import Outcome FieldModel SpecField CurveParams EccModel SpecEcc DmeModel.
Import ListNotations.
Open Scope Z_scope.

Section Vocabulary.
  Variable live : Z -> bool.
  Definition is_valid (P : point) : Prop := valid live CV P.
  Definition finite (P : point) : Prop := finite_valid live CV P.
  (** a scalar of the library *)
  Definition scal (x : fe) : Prop := canon FIELD_n x.
  Definition crs_valid (k : crs_t) : Prop :=
    is_valid (g0 k) /\ is_valid (g1 k) /\ is_valid (h0 k) /\ is_valid (h1 k).
  Definition pk_valid (k : pkey) : Prop := is_valid (pg k) /\ is_valid (ph k).
  Definition ct_valid (c : ctxt) : Prop := is_valid (cu c) /\ is_valid (cmv c).
  (** an encryption object whose curve exists and whose CRS consists of valid points *)
  Definition dme_ok (D : dme) : Prop := (exists c, dcurve D = Some c /\ live c = true) /\ crs_valid (dcrs D).
  (** [P] is a point object standing for k times the generator *)
  Definition multiple (P : point) (k : Z) : Prop := is_valid P /\ den CV P = gmul CV k (ggen CV).
  (** the discrete logarithms of a common reference string *)
  Definition crs_logs (k : crs_t) (a0 a1 b0 b1 : Z) : Prop :=
    multiple (g0 k) a0 /\ multiple (g1 k) a1 /\ multiple (h0 k) b0 /\ multiple (h1 k) b1.
End Vocabulary.

Definition branch (b : branch_t) : Prop := b = 0 \/ b = 1.
(** the point two objects stand for; the curve pointer does not matter *)
Definition same_point (P Q : point) : Prop := den CV P = den CV Q.
Definition same_ctxt (c c' : ctxt) : Prop := same_point (cu c) (cu c') /\ same_point (cmv c) (cmv c').
Definition same_pkey (k k' : pkey) : Prop := same_point (pg k) (pg k') /\ same_point (ph k) (ph k').
Definition same_crs (k k' : crs_t) : Prop :=
  same_point (g0 k) (g0 k') /\ same_point (g1 k) (g1 k') /\ same_point (h0 k) (h0 k') /\ same_point (h1 k) (h1 k').
(** residues modulo the group order *)
Definition order : Z := c_order CV.
Definition draw (r : Z) : Prop := 0 <= r < order.
(** [x] is the abscissa of a curve point *)
Definition on_curve_x (x : Z) : Prop := exists y, equation CV x y.
