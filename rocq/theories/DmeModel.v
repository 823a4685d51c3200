(** Model of dme::DME_DDH and dme::DMHE_DDH, /repo/src/dme/dme.cpp, dmhe.cpp, /repo/includes/dme.hpp, dmhe.hpp.
    Random draws of the curve's generator are explicit arguments, in the order in which the code draws them.
    Structures are copied by value (the user-defined operator= copies every member). *)
From Coq Require Import ZArith Bool List.
From Verif Require Import Outcome FieldModel CurveParams EccModel.
Import ListNotations.
Open Scope Z_scope.

(** dme.hpp:17-20: FIELD_p, FIELD_n, POINT, CURVE are the secp256r1 classes *)
Definition CV : cparams := secp256r1.
Definition FIELD_p : Z := fieldp CV.
Definition FIELD_n : Z := fieldn CV.
(** dme.hpp:15 *)
Definition ENCODING_SHIFT : Z := 10.

(** dme.hpp:22-32, 34-42, 44-52, 59-67, 71-80, 83-94 *)
Record crs_t := mkcrs { g0 : point; g1 : point; h0 : point; h1 : point }.
Record td_messy := mktdm { e0 : fe; e1 : fe }.
Record td_dec := mktdd { ty : fe }.
Record pkey := mkpk { pg : point; ph : point }.
Record keypair := mkkp { kpk : pkey; ksk : fe }.
Record ctxt := mkct { cu : point; cmv : point }.

(** dme.hpp:54 *)
Inductive mode_t := messy | dec.
(** dme.hpp:56, enum branch_t {b0 = 0, b1 = 1}; the underlying integer *)
Definition branch_t := Z.

(** the default-constructed structures *)
Definition crs_default : crs_t := mkcrs (pt_inf CV) (pt_inf CV) (pt_inf CV) (pt_inf CV).
Definition tdm_default : td_messy := mktdm (fe_default FIELD_n) (fe_default FIELD_n).
Definition tdd_default : td_dec := mktdd (fe_default FIELD_n).
Definition pkey_default : pkey := mkpk (pt_inf CV) (pt_inf CV).
Definition ctxt_default : ctxt := mkct (pt_inf CV) (pt_inf CV).

(** dme.hpp:98-111: members curve, mode (indeterminate when not set), td_m, td_d, crs *)
Record dme := mkdme { dcurve : option Z; dmode : option mode_t; tdm : td_messy; tdd : td_dec; dcrs : crs_t }.

(** CRS_DDH::updateCurve, dme.cpp:30-36 *)
Definition set_curve (P : point) (c : option Z) : point := mkpoint (px P) (py P) (pinf P) c.
Definition updateCurve (k : crs_t) (c : option Z) : crs_t :=
  mkcrs (set_curve (g0 k) c) (set_curve (g1 k) c) (set_curve (h0 k) c) (set_curve (h1 k) c).

Section Dme.
  Variables (dbg : bool) (live : Z -> bool).
  Local Notation pmul := (pmul dbg live CV).
  Local Notation padd := (padd dbg live CV).
  Local Notation psub := (psub dbg live CV).
  Local Notation peq := (peq live CV).
  Local Notation randS := (getRandomScalar live CV).
  Local Notation randP := (getRandomPoint dbg live CV).

  (** DME_DDH(mode_t), dme.cpp:139-167 with dme.hpp:103; [c] is the address of the curve it allocates;
      messy mode draws r1 r2 r3 r4, decryption mode draws r1 r2 r3 *)
  Definition dme_new (c : Z) (mu : mode_t) (r1 r2 r3 r4 : Z) : res dme :=
    match mu with
    | messy =>
        do e0 <- randS (Some c) r1;
        do e1 <- randS (Some c) r2;
        do g0 <- randP (Some c) r3;
        do g1 <- randP (Some c) r4;
        do h0 <- pmul g0 e0;
        do h1 <- pmul g1 e1;
        Ok (mkdme (Some c) (Some messy) (mktdm e0 e1) tdd_default (mkcrs g0 g1 h0 h1))
    | dec =>
        do y <- randS (Some c) r1;
        do g0 <- randP (Some c) r2;
        do g1 <- pmul g0 y;
        do e <- randS (Some c) r3;
        do h0 <- pmul g0 e;
        do h1 <- pmul g1 e;
        Ok (mkdme (Some c) (Some dec) tdm_default (mktdd y) (mkcrs g0 g1 h0 h1))
    end.

  (** DME_DDH(), dme.cpp:169-177: draws g0, h0, g1, h1 *)
  Definition dme_new_random (c : Z) (r1 r2 r3 r4 : Z) : res dme :=
    do g0 <- randP (Some c) r1;
    do h0 <- randP (Some c) r2;
    do g1 <- randP (Some c) r3;
    do h1 <- randP (Some c) r4;
    Ok (mkdme (Some c) None tdm_default tdd_default (mkcrs g0 g1 h0 h1)).

  (** DME_DDH(crs_ddh_t), dme.cpp:180-184 *)
  Definition dme_new_crs (c : Z) (k : crs_t) : dme :=
    mkdme (Some c) None tdm_default tdd_default (updateCurve k (Some c)).

  (** KeyGen, dme.cpp:196-217 *)
  Definition KeyGen (D : dme) (branch : branch_t) (r : Z) : res keypair :=
    do sk <- randS (dcurve D) r;
    do pk <-
      (if branch =? 0 then
         do a <- pmul (g0 (dcrs D)) sk; do b <- pmul (h0 (dcrs D)) sk; Ok (mkpk a b)
       else if branch =? 1 then
         do a <- pmul (g1 (dcrs D)) sk; do b <- pmul (h1 (dcrs D)) sk; Ok (mkpk a b)
       else Ok pkey_default);
    Ok (mkkp pk sk).

  (** encode, dme.cpp:220-231.  The loop looks up FIELD_p(res), FIELD_p(res+1), ...; these values have period
      p, so a loop that has not ended after p rounds never ends. *)
  Definition encode_step (c : option Z) (x : Z) : Z + res point :=
    match evaluateP dbg live CV c (fe_new FIELD_p x) with
    | Ok msg => if pinf msg then inl (x + 1) else inr (Ok msg)
    | Err f => inr (Err f)
    end.
  Definition encode (D : dme) (m : Z) : res point :=
    match loop_upto (Z.to_pos FIELD_p) (encode_step (dcurve D)) (m * 2 ^ ENCODING_SHIFT) with
    | inl _ => Err Diverge
    | inr r => r
    end.

  (** decode, dme.cpp:233-240; mpz_div_2exp rounds down *)
  Definition decode (m : point) : Z := fval (px m) / 2 ^ ENCODING_SHIFT.

  (** Enc, dme.cpp:243-268; draws s, t *)
  Definition Enc (D : dme) (pk : pkey) (b : branch_t) (m : point) (r1 r2 : Z) : res ctxt :=
    do s <- randS (dcurve D) r1;
    do t <- randS (dcurve D) r2;
    do gs <- pmul (pg pk) s;
    do ht <- pmul (ph pk) t;
    do v <- padd gs ht;
    if b =? 0 then
      do us <- pmul (g0 (dcrs D)) s; do ut <- pmul (h0 (dcrs D)) t; do u <- padd us ut;
      do mv <- padd v m; Ok (mkct u mv)
    else if b =? 1 then
      do us <- pmul (g1 (dcrs D)) s; do ut <- pmul (h1 (dcrs D)) t; do u <- padd us ut;
      do mv <- padd v m; Ok (mkct u mv)
    else Ok ctxt_default.

  (** Enc on integers, dme.cpp:270-273 *)
  Definition EncZ (D : dme) (pk : pkey) (b : branch_t) (m : Z) (r1 r2 : Z) : res ctxt :=
    do e <- encode D m; Enc D pk b e r1 r2.

  (** EncCRC, dme.cpp:276-280: no return statement *)
  Definition EncCRC (D : dme) (pk : pkey) (b : branch_t) (m : Z) : res ctxt := Err MissingReturn.

  (** Dec and DecDecode, dme.cpp:284-292 *)
  Definition Dec (sk : fe) (c : ctxt) : res point :=
    do us <- pmul (cu c) sk; psub (cmv c) us.
  Definition DecDecode (sk : fe) (c : ctxt) : res Z :=
    do m <- Dec sk c; Ok (decode m).

  (** FindMessy, dme.cpp:295-298 *)
  Definition FindMessy (D : dme) (pk : pkey) : res branch_t :=
    do t <- pmul (pg pk) (e0 (tdm D));
    do b <- peq (ph pk) t;
    Ok (if b then 1 else 0).

  (** TrapKeyGen, dme.cpp:301-306 *)
  Definition TrapKeyGen (D : dme) (r : Z) : res (pkey * fe * fe) :=
    do sk <- randS (dcurve D) r;
    do a <- pmul (g0 (dcrs D)) sk;
    do b <- pmul (h0 (dcrs D)) sk;
    do sk1 <- fe_div dbg FIELD_n sk (ty (tdd D));
    Ok (mkpk a b, sk, sk1).

  (** DMHE_DDH::Eval, dmhe.cpp:6-9 *)
  Definition Eval (ca cb : ctxt) : res ctxt :=
    do u <- padd (cu ca) (cu cb);
    do mv <- padd (cmv ca) (cmv cb);
    Ok (mkct u mv).

  (** the equality operators, dme.cpp:38-45, 60-63, 78-81, 97-100, 114-117; [&&] short-circuits *)
  Definition andthen (a : res bool) (b : res bool) : res bool := do x <- a; if x then b else Ok false.
  Definition crs_eq (a b : crs_t) : res bool :=
    andthen (peq (g0 a) (g0 b)) (andthen (peq (g1 a) (g1 b)) (andthen (peq (h0 a) (h0 b)) (peq (h1 a) (h1 b)))).
  Definition tdm_eq (a b : td_messy) : bool := fe_eq (e0 a) (e0 b) && fe_eq (e1 a) (e1 b).
  Definition tdd_eq (a b : td_dec) : bool := fe_eq (ty a) (ty b).
  Definition pkey_eq (a b : pkey) : res bool := andthen (peq (pg a) (pg b)) (peq (ph a) (ph b)).
  Definition keypair_eq (a b : keypair) : res bool := andthen (pkey_eq (kpk a) (kpk b)) (Ok (fe_eq (ksk a) (ksk b))).
  (** CTXT::operator==, dme.cpp:132-135: both sides of each comparison are members of this object *)
  Definition ctxt_eq (this c : ctxt) : res bool := andthen (peq (cu this) (cu this)) (peq (cmv this) (cmv this)).
End Dme.
