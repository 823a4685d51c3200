(** Model of puda::Puda, /repo/src/puda/puda.cpp, /repo/includes/puda.hpp.
    FIELD1_n, POINT1, POINT2, CURVE1, CURVE2 are all secp256r1 classes (puda.hpp:13-20), i.e. [CV] of DmeModel.
    A msg_t (uint16_t) is an integer in [0, 65536); a timestamp (int) an integer in [-2^31, 2^31). *)
From Coq Require Import ZArith Bool List.
From Verif Require Import Outcome FieldModel CurveParams EccModel DmeModel.
Import ListNotations.
Open Scope Z_scope.

Definition USHRT_MAX : Z := 65535.

(** puda.hpp:22-31 *)
Record pp_t := mkpp { curve1 : Z; curve2 : Z; ppg1 : point; ppg2 : point; pphash : point }.
(** puda.hpp:45-54 *)
Record sk_t := mksk { ska : Z; sktk : fe }.
(** puda.hpp:58-62 *)
Record vk_t := mkvk { vk_1 : point; vk_2 : point }.

(** Puda(), puda.cpp:8-12: [c1], [c2] are the addresses of the two curves *)
Definition puda_new (c1 c2 : Z) : pp_t := mkpp c1 c2 (pt_inf CV) (pt_inf CV) (pt_inf CV).

Section Puda.
  Variables (dbg : bool) (live : Z -> bool).
  Local Notation pmul := (pmul dbg live CV).
  Local Notation pmulz := (pmulz dbg live CV).
  Local Notation padd := (padd dbg live CV).

  (** compute_dlog, puda.cpp:20-28: i runs from 0 while i != USHRT_MAX *)
  Definition dlog_step (pp : pp_t) (c : point) (i : Z) : Z + res Z :=
    match pmulz (ppg1 pp) i with
    | Err f => inr (Err f)
    | Ok R => match peq live CV R c with
              | Err f => inr (Err f)
              | Ok b => if b then inr (Ok i) else inl (i + 1)
              end
    end.
  Definition compute_dlog (pp : pp_t) (c : point) : res Z :=
    match loop_upto (Z.to_pos USHRT_MAX) (dlog_step pp c) 0 with
    | inr r => r
    | inl _ => Ok 0
    end.

  (** one round of the loop of Setup, puda.cpp:45-55; the state is (ekv, skv, ak, tks); draws of ek and tk *)
  Definition setup_step (c1 : Z) (a : Z) (s : list fe * list sk_t * fe * fe) (d : Z * Z) :
      res (list fe * list sk_t * fe * fe) :=
    let '(ekv, skv, ak, tks) := s in
    do ek <- getRandomScalar live CV (Some c1) (fst d);
    do tk <- getRandomScalar live CV (Some c1) (snd d);
    do ak' <- fe_sub_eq dbg ak ek;
    do tks' <- fe_add_eq dbg tks tk;
    Ok (ekv ++ [ek], skv ++ [mksk a tk], ak', tks').
  (** Setup, puda.cpp:30-62: draws of the hash point, of a, and of the keys of each of the n users *)
  Definition Setup (pp : pp_t) (rh ra : Z) (ds : list (Z * Z)) : res (pp_t * (list fe * list sk_t * fe * vk_t)) :=
    do G1 <- getDefaultGen live CV (Some (curve1 pp));
    do G2 <- getDefaultGen live CV (Some (curve2 pp));
    do h <- getRandomPoint dbg live CV (Some (curve1 pp)) rh;
    let pp' := mkpp (curve1 pp) (curve2 pp) G1 G2 h in
    do a <- getRandomScalar live CV (Some (curve1 pp)) ra;
    let a := fval a in
    do s <- foldM (setup_step (curve1 pp) a) ds ([], [], fe_new FIELD_n 0, fe_default FIELD_n);
    let '(ekv, skv, ak, tks) := s in
    do v1 <- pmul G2 tks;
    do v2 <- pmulz G2 a;
    Ok (pp', (ekv, skv, ak, mkvk v1 v2)).

  (** Enc, puda.cpp:65-68 *)
  Definition PEnc (pp : pp_t) (ek : fe) (m t : Z) : res point :=
    do ht <- pmulz (pphash pp) t;
    do x <- pmul ht ek;
    do y <- pmulz (ppg1 pp) m;
    padd x y.
  (** Tag, puda.cpp:71-74 *)
  Definition PTag (pp : pp_t) (sk : sk_t) (m t : Z) : res point :=
    do ht <- pmulz (pphash pp) t;
    do x <- pmul ht (sktk sk);
    do ga <- pmulz (ppg1 pp) (ska sk);
    do y <- pmulz ga m;
    padd x y.
  (** Agg, puda.cpp:76-91 *)
  Definition Agg (pp : pp_t) (ak : fe) (ctxts tags : list point) (t : Z) : res (Z * point) :=
    do c <- foldM padd ctxts (pt_inf CV);
    do tag <- foldM padd tags (pt_inf CV);
    do ht <- pmulz (pphash pp) t;
    do x <- pmul ht ak;
    do c <- padd c x;
    do m <- compute_dlog pp c;
    Ok (m, tag).
  (** Verify, puda.cpp:94-98 *)
  Definition Verify (pp : pp_t) (vk : vk_t) (sum : Z) (tag : point) (t : Z) : bool := true.
End Puda.
