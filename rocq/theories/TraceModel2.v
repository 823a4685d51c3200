(** Which point operations the functions of /repo/src/puda, /repo/src/elgamal, /repo/src/ot and /repo/src/opprf that use secrets
    perform, in order.  Every definition is the one of PudaModel, ElgamalModel, OtModel or OpprfModel with the events of TraceModel
    added; that the events change no outcome is a theorem (C97_outcomes).  The operands of a sum are computed from left to right, as
    everywhere in the model (C++ leaves their order open). *)
From Coq Require Import ZArith Bool List.
From Verif Require Import Outcome FieldModel CurveParams EccModel DmeModel OtModel AesModel OpprfModel PudaModel ElgamalModel TraceModel.
Import ListNotations.
Open Scope Z_scope.

(** a for loop whose body performs operations *)
Fixpoint foldM_t {A S} (f : S -> A -> traced S) (l : list A) (s : S) : traced S :=
  match l with
  | [] => lift (Ok s)
  | a :: l' => tdo s' <- f s a; foldM_t f l' s'
  end.

Section Functions.
  Variables (dbg : bool) (live : Z -> bool).
  Local Notation pmul := (pmul_t dbg live CV).
  Local Notation pmulz := (pmulz_t dbg live CV).
  Local Notation padd := (padd_t dbg live CV).
  Local Notation psub := (psub_t dbg live CV).
  Local Notation randS := (getRandomScalar live CV).
  Local Notation randP := (getRandomPoint_t dbg live CV).

  (** ** src/puda/puda.cpp *)
  (** compute_dlog, puda.cpp:20-28; the state is what was done so far, and i *)
  Definition dlog_step_t (pp : pp_t) (c : point) (s : list event * Z) : (list event * Z) + traced Z :=
    let r := pmulz (ppg1 pp) (snd s) in
    let l := fst s ++ fst r in
    match snd r with
    | Err f => inr (l, Err f)
    | Ok R => match peq live CV R c with
              | Err f => inr (l, Err f)
              | Ok b => if b then inr (l, Ok (snd s)) else inl (l, snd s + 1)
              end
    end.
  Definition compute_dlog_t (pp : pp_t) (c : point) : traced Z :=
    match loop_upto (Z.to_pos USHRT_MAX) (dlog_step_t pp c) ([], 0) with
    | inr r => r
    | inl s => (fst s, Ok 0)
    end.
  (** Enc, puda.cpp:65-68 *)
  Definition PEnc_t (pp : pp_t) (ek : fe) (m t : Z) : traced point :=
    tdo ht <- pmulz (pphash pp) t;
    tdo x <- pmul ht ek;
    tdo y <- pmulz (ppg1 pp) m;
    padd x y.
  (** Tag, puda.cpp:71-74 *)
  Definition PTag_t (pp : pp_t) (sk : sk_t) (m t : Z) : traced point :=
    tdo ht <- pmulz (pphash pp) t;
    tdo x <- pmul ht (sktk sk);
    tdo ga <- pmulz (ppg1 pp) (ska sk);
    tdo y <- pmulz ga m;
    padd x y.
  (** Agg, puda.cpp:76-91 *)
  Definition Agg_t (pp : pp_t) (ak : fe) (ctxts tags : list point) (t : Z) : traced (Z * point) :=
    tdo c <- foldM_t padd ctxts (pt_inf CV);
    tdo tag <- foldM_t padd tags (pt_inf CV);
    tdo ht <- pmulz (pphash pp) t;
    tdo x <- pmul ht ak;
    tdo c <- padd c x;
    tdo m <- compute_dlog_t pp c;
    lift (Ok (m, tag)).

  (** ** src/elgamal/elgamal.cpp *)
  (** encrypt on points, elgamal.cpp:10-17 *)
  Definition eg_encrypt_t (E : elgamal) (pk : point) (msg : point) (r : Z) : traced ctxt :=
    tdo s <- lift (randS (Some (eaddr E)) r);
    tdo u <- pmul (egen E) s;
    tdo t <- pmul pk s;
    tdo mv <- padd t msg;
    lift (Ok (mkct u mv)).
  (** decrypt, elgamal.cpp:19-23 *)
  Definition eg_decrypt_t (sk : fe) (c : ctxt) : traced Z :=
    tdo t <- pmul (cu c) sk;
    tdo P <- psub (cmv c) t;
    lift (Ok (eg_decode P)).

  (** ** src/ot/ot.cpp *)
  (** selectMsg, ot.cpp:9-15 *)
  Definition selectMsg_t (R : otrecv) (b : branch_t) (r : Z) : traced (otrecv * pkey) :=
    tdo kp <- KeyGen_t dbg live (rdme R) b r;
    lift (Ok (mkrecv (rdme R) (ksk kp) (Some b), kpk kp)).
  (** decryptMsg, ot.cpp:18-21 *)
  Definition decryptMsg_t (R : otrecv) (c : list ctxt) : traced point :=
    tdo ct <- lift (chosen R c); Dec_t dbg live (rsk R) ct.
  (** decryptMsgDecode, ot.cpp:23-26, with DecDecode, dme.cpp:289-292 *)
  Definition decryptMsgDecode_t (R : otrecv) (c : list ctxt) : traced Z :=
    tdo ct <- lift (chosen R c); tdo m <- Dec_t dbg live (rsk R) ct; lift (Ok (decode m)).

  (** ** src/opprf/opprf.cpp *)
  Variables (e : env) (iv : list Z).

  (** runOTRound_start, opprf.cpp:166-170 *)
  Definition runOTRound_start_t (C : client) (round : Z) (d : Z) : traced (client * pkey) :=
    match cx C with
    | None => lift (Err Uninit)
    | Some x =>
        tdo s <- lift (shl1 (round - 1));
        let bit := negb (Z.land x s =? 0) in
        tdo r <- selectMsg_t (otr C) (if bit then 1 else 0) d;
        lift (Ok (mkcli (fst r) (ccur C) (cx C) (result C) (key C), snd r))
    end.

  (** the loop of opprf.cpp:181-192 *)
  Fixpoint open_key_t (R : otrecv) (k : Z) (l : list (list ctxt)) : traced (option Z) :=
    match l with
    | [] => lift (Ok None)
    | v :: l' =>
        tdo t <- decryptMsgDecode_t R v;
        tdo t' <- lift (decryptCRC e iv k t);
        if t' =? 0 then open_key_t R k l' else lift (Ok (Some t'))
    end.
  (** runOTRound_end, opprf.cpp:172-202 *)
  Definition runOTRound_end_t (C : client) (round : Z) (c : otctxts) : traced client :=
    tdo k <-
      (if round =? BITS then
         tdo v <- lift (vat (oc c) 0); decryptMsgDecode_t (otr C) v
       else
         tdo r <- open_key_t (otr C) (key C) (oc c);
         match r with
         | Some t => lift (Ok t)
         | None => if dbg then lift (Err AssertFail) else lift (Err Thrown)
         end);
    tdo P <- decryptMsg_t (otr C) (ocprf c);
    tdo R <- padd (result C) P;
    lift (Ok (mkcli (otr C) (ccur C) (cx C) R k)).

  (** the loop body of opprf.cpp:63-92 *)
  Definition prep_row_t (S : server) (j : nat) : traced (inputi * inputi) :=
    let i := Z.of_nat (Datatypes.S j) in
    tdo lt1 <- lift (vat (k_lt S) i); tdo eq1 <- lift (vat (k_eq S) i); tdo gt1 <- lift (vat (k_gt S) i);
    tdo lt0 <- lift (vat (k_lt S) (i - 1)); tdo eq0 <- lift (vat (k_eq S) (i - 1)); tdo gt0 <- lift (vat (k_gt S) (i - 1));
    tdo okj <- lift (vat (ok S) (i - 1));
    if negb (tbit S j) then
      tdo a0 <- lift (encryptCRC e iv lt1 lt0);
      tdo b0 <- lift (encryptCRC e iv eq1 eq0);
      tdo c0 <- lift (encryptCRC e iv gt1 gt0);
      tdo p0 <- pmul (sr S) okj;
      tdo a1 <- lift (encryptCRC e iv lt1 lt0);
      tdo b1 <- lift (encryptCRC e iv eq1 gt0);
      tdo c1 <- lift (encryptCRC e iv gt1 gt0);
      tdo g <- pmulz (ga S) (2 ^ Z.of_nat j);
      tdo q <- pmul (sr S) okj;
      tdo p1 <- padd g q;
      lift (Ok (mki a0 b0 c0 p0, mki a1 b1 c1 p1))
    else
      tdo a0 <- lift (encryptCRC e iv lt1 lt0);
      tdo b0 <- lift (encryptCRC e iv eq1 lt0);
      tdo c0 <- lift (encryptCRC e iv gt1 gt0);
      tdo p0 <- pmul (sr S) okj;
      tdo a1 <- lift (encryptCRC e iv lt1 lt0);
      tdo b1 <- lift (encryptCRC e iv eq1 eq0);
      tdo c1 <- lift (encryptCRC e iv gt1 gt0);
      tdo g <- pmulz (ga S) (2 ^ Z.of_nat j);
      tdo q <- pmul (sr S) okj;
      tdo p1 <- padd g q;
      lift (Ok (mki a0 b0 c0 p0, mki a1 b1 c1 p1)).
  Definition prep_step_t (S : server) (j : nat) : traced server :=
    tdo r <- prep_row_t S j;
    tdo s0 <- lift (vset (Si0 S) (Datatypes.S j) (fst r));
    tdo s1 <- lift (vset (Si1 S) (Datatypes.S j) (snd r));
    lift (Ok (set_rows S s0 s1)).
  (** opprf.cpp:45-61; r * ok[MSG_BITS-1] is computed for Sl0.prf and again for Sl1.prf *)
  Definition prep_top_t (S : server) : traced server :=
    let i := BITS - 1 in
    let j := (MSG_BITS - 1)%nat in
    tdo okt <- lift (vat (ok S) i);
    tdo p0 <- pmul (sr S) okt;
    tdo g <- pmulz (ga S) (2 ^ Z.of_nat j);
    tdo q <- pmul (sr S) okt;
    tdo p1 <- padd g q;
    tdo k0 <- lift (vat (if tbit S j then k_lt S else k_eq S) i);
    tdo k1 <- lift (vat (if tbit S j then k_eq S else k_gt S) i);
    lift (Ok (mksrv (ots S) (scur S) (theta S) (ga S) (kopprf S) (sr S) (gk S) (k_lt S) (k_eq S) (k_gt S) (ok S)
          (mkl k0 p0) (mkl k1 p1) (Si0 S) (Si1 S))).
  (** prepareKeysAndInputs, opprf.cpp:33-93 *)
  Definition prepareKeysAndInputs_t (S : server) (d : prep_draws) : traced server :=
    tdo kp <- randP (scur S) (d_kopprf d);
    tdo r <- randP (scur S) (d_r d);
    tdo oks <- lift (mapM (fun j => randS (scur S) (d_ok d j)) (seq 0 MSG_BITS));
    let S1 := mksrv (ots S) (scur S) (theta S) (ga S) kp r (gk S)
                (k_lt S ++ map (d_lt d) (seq 0 MSG_BITS)) (k_eq S ++ map (d_eq d) (seq 0 MSG_BITS))
                (k_gt S ++ map (d_gt d) (seq 0 MSG_BITS)) (ok S ++ oks) (Sl0 S) (Sl1 S) (Si0 S) (Si1 S) in
    tdo S2 <- prep_top_t S1;
    foldM_t prep_step_t (rev (seq 0 (MSG_BITS - 1))) S2.
End Functions.
