(** Model of ot::OTrecv, OTsndr, DOTprxy, /repo/src/ot/ot.cpp, dot.cpp, /repo/includes/ot.hpp, dot.hpp.
    Arguments passed by value are values here; random draws are explicit arguments. *)
From Coq Require Import ZArith Bool List.
From Verif Require Import Outcome FieldModel CurveParams EccModel DmeModel.
Import ListNotations.
Open Scope Z_scope.

(** std::vector::operator[], unchecked: a negative or too large index is outside the array *)
Definition vat {A} (l : list A) (i : Z) : res A :=
  if i <? 0 then Err OutOfBounds else
  match nth_error l (Z.to_nat i) with Some a => Ok a | None => Err OutOfBounds end.

(** ot.hpp:15-18: members dme, sk, b; [b] has no initialiser *)
Record otrecv := mkrecv { rdme : dme; rsk : fe; rbr : option branch_t }.
(** ot.hpp:37-39: members dme, c *)
Record otsndr := mksndr { sdme : dme; sctx : list ctxt }.

(** OTrecv(mode), OTrecv(crs), ot.hpp:22-23; OTsndr(mode), OTsndr(crs), ot.hpp:42-43: only [dme] is set *)
Definition otrecv_new (D : dme) : otrecv := mkrecv D (fe_default FIELD_n) None.
Definition otsndr_new (D : dme) : otsndr := mksndr D [].

Section Ot.
  Variables (dbg : bool) (live : Z -> bool).

  (** OTrecv::selectMsg, ot.cpp:9-15 *)
  Definition selectMsg (R : otrecv) (b : branch_t) (r : Z) : res (otrecv * pkey) :=
    do kp <- KeyGen dbg live (rdme R) b r;
    Ok (mkrecv (rdme R) (ksk kp) (Some b), kpk kp).

  (** the index expression c[b] of ot.cpp:20, 25 *)
  Definition chosen (R : otrecv) (c : list ctxt) : res ctxt :=
    match rbr R with None => Err Uninit | Some b => vat c b end.
  (** OTrecv::decryptMsg, ot.cpp:18-21 *)
  Definition decryptMsg (R : otrecv) (c : list ctxt) : res point :=
    do ct <- chosen R c; Dec dbg live (rsk R) ct.
  (** OTrecv::decryptMsgDecode, ot.cpp:23-26 *)
  Definition decryptMsgDecode (R : otrecv) (c : list ctxt) : res Z :=
    do ct <- chosen R c; DecDecode dbg live (rsk R) ct.

  (** OTsndr::encMsgs on points, ot.cpp:28-34; draws s0, t0 for the first Enc, s1, t1 for the second *)
  Definition encMsgs (S : otsndr) (pk : pkey) (m0 m1 : point) (s0 t0 s1 t1 : Z) : res (otsndr * list ctxt) :=
    let c := [] in
    do c0 <- Enc dbg live (sdme S) pk 0 m0 s0 t0;
    let c := c ++ [c0] in
    do c1 <- Enc dbg live (sdme S) pk 1 m1 s1 t1;
    let c := c ++ [c1] in
    Ok (mksndr (sdme S) c, c).
  (** OTsndr::encMsgs on integers, ot.cpp:36-42 *)
  Definition encMsgsZ (S : otsndr) (pk : pkey) (m0 m1 : Z) (s0 t0 s1 t1 : Z) : res (otsndr * list ctxt) :=
    let c := [] in
    do c0 <- EncZ dbg live (sdme S) pk 0 m0 s0 t0;
    let c := c ++ [c0] in
    do c1 <- EncZ dbg live (sdme S) pk 1 m1 s1 t1;
    let c := c ++ [c1] in
    Ok (mksndr (sdme S) c, c).

  (** DOTprxy::aggregate, dot.cpp:6-18 (the member [c] is overwritten and returned) *)
  Definition agg_step (c : ctxt * ctxt) (v : list ctxt) : res (ctxt * ctxt) :=
    do v0 <- vat v 0;
    do c0 <- Eval dbg live (fst c) v0;
    do v1 <- vat v 1;
    do c1 <- Eval dbg live (snd c) v1;
    Ok (c0, c1).
  Definition aggregate (c_v : list (list ctxt)) : res (list ctxt) :=
    do v <- vat c_v 0;
    do c0 <- vat v 0;
    do c1 <- vat v 1;
    do c <- foldM agg_step (tl c_v) (c0, c1);
    Ok [fst c; snd c].
End Ot.
