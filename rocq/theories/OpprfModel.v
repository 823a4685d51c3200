(** Model of opprf::OPPRFserver and opprf::OPPRFclient, /repo/src/opprf/opprf.cpp, /repo/includes/opprf.hpp.
    Random draws and shuffles are explicit arguments. The static members of AES are given by [e] and [iv] (AesModel).
    std::array<..., 3> is a list of three elements. Members Enc, getKeyi (declared, never defined) and
    correctDecryption (never called; CounterModel) are left out. *)
From Coq Require Import ZArith Bool List.
From Verif Require Import Outcome FieldModel CurveParams EccModel DmeModel OtModel AesModel.
Import ListNotations.
Open Scope Z_scope.

(** opprf.hpp:13 *)
Definition MSG_BITS : nat := 16.
Definition BITS : Z := Z.of_nat MSG_BITS.

(** opprf.hpp:24-29, 32-39 *)
Record inputl := mkl { lk : Z; lprf : point }.
Record inputi := mki { ilt : Z; ieq : Z; igt : Z; iprf : point }.
Definition inputl_default : inputl := mkl 0 (pt_inf CV).
Definition inputi_default : inputi := mki 0 0 0 (pt_inf CV).

(** opprf.hpp:41-50: ctxt_arr_t, OTCtxts *)
Record otctxts := mkoc { oc : list (list ctxt); ocprf : list ctxt }.

(** opprf.hpp:56-84 *)
Record server := mksrv {
  ots : otsndr; scur : option Z; theta : Z;
  ga : point; kopprf : point; sr : point; gk : point;
  k_lt : list Z; k_eq : list Z; k_gt : list Z; ok : list fe;
  Sl0 : inputl; Sl1 : inputl; Si0 : list inputi; Si1 : list inputi }.

(** opprf.hpp:102-113; [x] has no initialiser *)
Record client := mkcli { otr : otrecv; ccur : option Z; cx : option Z; result : point; key : Z }.

(** the draws of prepareKeysAndInputs; the functions give the draw of round j of its first loop *)
Record prep_draws := mkpd { d_kopprf : Z; d_r : Z; d_lt : nat -> Z; d_eq : nat -> Z; d_gt : nat -> Z; d_ok : nat -> Z }.
(** the draws of one call of encMsgs *)
Record quad := mkq { q_s0 : Z; q_t0 : Z; q_s1 : Z; q_t1 : Z }.

(** v[i] = a on a vector *)
Definition vset {A} (l : list A) (i : nat) (a : A) : res (list A) :=
  if (i <? length l)%nat then Ok (firstn i l ++ a :: skipn (S i) l) else Err OutOfBounds.

(** 1 << k on int: shifting by a negative amount or by 32 and more is undefined; 1 << 31 converts 2^31 to int *)
Definition shl1 (k : Z) : res Z :=
  if (k <? 0) || (31 <? k) then Err SignedOverflow else Ok (if k =? 31 then - 2 ^ 31 else 2 ^ k).

(** std::random_shuffle (libstdc++) on three elements: element 1 is exchanged with element rand() mod 2, then element 2
    with element rand() mod 3; [u], [v] are the values of rand(), which are not negative *)
Definition swap {A} (l : list A) (i j : nat) : list A :=
  match nth_error l i, nth_error l j with
  | Some a, Some b => map (fun m => if (fst m =? i)%nat then b else if (fst m =? j)%nat then a else snd m) (combine (seq 0 (length l)) l)
  | _, _ => l
  end.
Definition shuffle3 {A} (l : list A) (u v : Z) : list A :=
  swap (swap l 1 (Z.to_nat (u mod 2))) 2 (Z.to_nat (v mod 3)).

(** elements stored by Si0.resize(MSG_BITS) on an empty vector *)
Definition fresh_rows : list inputi := repeat inputi_default MSG_BITS.

Section Opprf.
  Variables (dbg : bool) (live : Z -> bool) (e : env) (iv : list Z).
  Local Notation pmul := (pmul dbg live CV).
  Local Notation pmulz := (pmulz dbg live CV).
  Local Notation padd := (padd dbg live CV).
  Local Notation randS := (getRandomScalar live CV).
  Local Notation randP := (getRandomPoint dbg live CV).

  (** OPPRFserver(theta, crs), opprf.cpp:10-18; [c] is the address of the curve allocated by the OT object, [d] the draw
      for gk; the members not mentioned are default-constructed. AES::init() leaves [iv] as it is (AesModel.init). *)
  Definition server_new (c : Z) (th : Z) (k : crs_t) (d : Z) : res server :=
    let o := otsndr_new (dme_new_crs c k) in
    do g <- randP (dcurve (sdme o)) d;
    Ok (mksrv o (dcurve (sdme o)) th (pt_inf CV) (pt_inf CV) (pt_inf CV) g [] [] [] []
          inputl_default inputl_default fresh_rows fresh_rows).

  (** OPPRFclient(crs), opprf.cpp:161-164 *)
  Definition client_new (c : Z) (k : crs_t) : client :=
    let o := otrecv_new (dme_new_crs c k) in
    mkcli o (dcurve (rdme o)) None (pt_inf CV) 0.

  (** setMessage, opprf.hpp:119 *)
  Definition setMessage (C : client) (msg : Z) : client := mkcli (otr C) (ccur C) (Some msg) (result C) (key C).

  (** setSecret, opprf.cpp:25-30; the second component is the caller's point, which is passed by reference *)
  Definition setSecret (S : server) (P : point) : res (server * point) :=
    let P' := set_curve P (scur S) in
    do v <- (if dbg then isValid dbg live CV P' else Ok true);
    do _ <- assert_ dbg v;
    Ok (mksrv (ots S) (scur S) (theta S) P' (kopprf S) (sr S) (gk S) (k_lt S) (k_eq S) (k_gt S) (ok S)
          (Sl0 S) (Sl1 S) (Si0 S) (Si1 S), P').

  (** theta & (1 << j) *)
  Definition tbit (S : server) (j : nat) : bool := negb (Z.land (theta S) (2 ^ Z.of_nat j) =? 0).

  (** one round of the loop of opprf.cpp:63-92, [j] = i-1 *)
  Definition prep_row (S : server) (j : nat) : res (inputi * inputi) :=
    let i := Z.of_nat (Datatypes.S j) in
    do lt1 <- vat (k_lt S) i; do eq1 <- vat (k_eq S) i; do gt1 <- vat (k_gt S) i;
    do lt0 <- vat (k_lt S) (i - 1); do eq0 <- vat (k_eq S) (i - 1); do gt0 <- vat (k_gt S) (i - 1);
    do okj <- vat (ok S) (i - 1);
    if negb (tbit S j) then
      do a0 <- encryptCRC e iv lt1 lt0;
      do b0 <- encryptCRC e iv eq1 eq0;
      do c0 <- encryptCRC e iv gt1 gt0;
      do p0 <- pmul (sr S) okj;
      do a1 <- encryptCRC e iv lt1 lt0;
      do b1 <- encryptCRC e iv eq1 gt0;
      do c1 <- encryptCRC e iv gt1 gt0;
      do g <- pmulz (ga S) (2 ^ Z.of_nat j);
      do q <- pmul (sr S) okj;
      do p1 <- padd g q;
      Ok (mki a0 b0 c0 p0, mki a1 b1 c1 p1)
    else
      do a0 <- encryptCRC e iv lt1 lt0;
      do b0 <- encryptCRC e iv eq1 lt0;
      do c0 <- encryptCRC e iv gt1 gt0;
      do p0 <- pmul (sr S) okj;
      do a1 <- encryptCRC e iv lt1 lt0;
      do b1 <- encryptCRC e iv eq1 eq0;
      do c1 <- encryptCRC e iv gt1 gt0;
      do g <- pmulz (ga S) (2 ^ Z.of_nat j);
      do q <- pmul (sr S) okj;
      do p1 <- padd g q;
      Ok (mki a0 b0 c0 p0, mki a1 b1 c1 p1).

  Definition set_rows (S : server) (r0 r1 : list inputi) : server :=
    mksrv (ots S) (scur S) (theta S) (ga S) (kopprf S) (sr S) (gk S) (k_lt S) (k_eq S) (k_gt S) (ok S) (Sl0 S) (Sl1 S) r0 r1.
  Definition prep_step (S : server) (j : nat) : res server :=
    do r <- prep_row S j;
    do s0 <- vset (Si0 S) (Datatypes.S j) (fst r);
    do s1 <- vset (Si1 S) (Datatypes.S j) (snd r);
    Ok (set_rows S s0 s1).

  (** opprf.cpp:45-61 *)
  Definition prep_top (S : server) : res server :=
    let i := BITS - 1 in
    let j := (MSG_BITS - 1)%nat in
    do okt <- vat (ok S) i;
    do p0 <- pmul (sr S) okt;
    do g <- pmulz (ga S) (2 ^ Z.of_nat j);
    do p1 <- padd g p0;
    do k0 <- vat (if tbit S j then k_lt S else k_eq S) i;
    do k1 <- vat (if tbit S j then k_eq S else k_gt S) i;
    Ok (mksrv (ots S) (scur S) (theta S) (ga S) (kopprf S) (sr S) (gk S) (k_lt S) (k_eq S) (k_gt S) (ok S)
          (mkl k0 p0) (mkl k1 p1) (Si0 S) (Si1 S)).

  (** prepareKeysAndInputs, opprf.cpp:33-93 *)
  Definition prepareKeysAndInputs (S : server) (d : prep_draws) : res server :=
    do kp <- randP (scur S) (d_kopprf d);
    do r <- randP (scur S) (d_r d);
    do oks <- mapM (fun j => randS (scur S) (d_ok d j)) (seq 0 MSG_BITS);
    let S1 := mksrv (ots S) (scur S) (theta S) (ga S) kp r (gk S)
                (k_lt S ++ map (d_lt d) (seq 0 MSG_BITS)) (k_eq S ++ map (d_eq d) (seq 0 MSG_BITS))
                (k_gt S ++ map (d_gt d) (seq 0 MSG_BITS)) (ok S ++ oks) (Sl0 S) (Sl1 S) (Si0 S) (Si1 S) in
    do S2 <- prep_top S1;
    foldM prep_step (rev (seq 0 (MSG_BITS - 1))) S2.

  Definition set_ots (S : server) (o : otsndr) : server :=
    mksrv o (scur S) (theta S) (ga S) (kopprf S) (sr S) (gk S) (k_lt S) (k_eq S) (k_gt S) (ok S) (Sl0 S) (Sl1 S) (Si0 S) (Si1 S).
  Definition encZ (S : server) (pk : pkey) (m0 m1 : Z) (q : quad) : res (server * list ctxt) :=
    do r <- encMsgsZ dbg live (ots S) pk m0 m1 (q_s0 q) (q_t0 q) (q_s1 q) (q_t1 q); Ok (set_ots S (fst r), snd r).
  Definition encP (S : server) (pk : pkey) (m0 m1 : point) (q : quad) : res (server * list ctxt) :=
    do r <- encMsgs dbg live (ots S) pk m0 m1 (q_s0 q) (q_t0 q) (q_s1 q) (q_t1 q); Ok (set_ots S (fst r), snd r).

  (** runOTRound, opprf.cpp:96-114; draws [qa] [qb] [qc] for the three keys, [qp] for the prf, [u] [v] for the shuffle *)
  Definition runOTRound (S : server) (round : Z) (pk : pkey) (qa qb qc qp : quad) (u v : Z) : res (server * otctxts) :=
    if round =? BITS then
      do a <- encZ S pk (lk (Sl0 S)) (lk (Sl1 S)) qa;
      do p <- encP (fst a) pk (lprf (Sl0 S)) (lprf (Sl1 S)) qp;
      Ok (fst p, mkoc [snd a; []; []] (snd p))
    else
      do r0 <- vat (Si0 S) round;
      do r1 <- vat (Si1 S) round;
      do a <- encZ S pk (ilt r0) (ilt r1) qa;
      do b <- encZ (fst a) pk (ieq r0) (ieq r1) qb;
      do c <- encZ (fst b) pk (igt r0) (igt r1) qc;
      do p <- encP (fst c) pk (iprf r0) (iprf r1) qp;
      Ok (fst p, mkoc (shuffle3 [snd a; snd b; snd c] u v) (snd p)).

  (** sendEncryptedMasks, opprf.cpp:116-135; [d] is the draw of the random point *)
  Definition sendEncryptedMasks (S : server) (d u v : Z) : res (list Z) :=
    do ok0 <- vat (ok S) 0;
    do oks <- mapM (fun j => vat (ok S) (Z.of_nat j)) (seq 1 (MSG_BITS - 1));
    do sum <- foldM (fe_add_eq dbg) oks ok0;
    do n <- fe_neg FIELD_n sum;
    do t <- pmul (sr S) n;
    do mask <- padd (kopprf S) t;
    do l0 <- vat (k_lt S) 0;
    do m0 <- getEncodedX dbg live CV mask;
    do c0 <- encryptCRC e iv l0 m0;
    do e0 <- vat (k_eq S) 0;
    do m1 <- getEncodedX dbg live CV mask;
    do c1 <- encryptCRC e iv e0 m1;
    do g0 <- vat (k_gt S) 0;
    do R <- randP (scur S) d;
    do m2 <- getEncodedX dbg live CV R;
    do c2 <- encryptCRC e iv g0 m2;
    Ok (shuffle3 [c0; c1; c2] u v).

  (** clean, opprf.cpp:137-152; Sl0, Sl1, theta, ga and the OT object keep their values *)
  Definition server_clean (S : server) (d : Z) : res server :=
    do g <- randP (scur S) d;
    Ok (mksrv (ots S) (scur S) (theta S) (ga S) (pt_inf CV) (pt_inf CV) g [] [] [] [] (Sl0 S) (Sl1 S) fresh_rows fresh_rows).

  (** runOTRound_start, opprf.cpp:166-170; the bool is converted to branch_t *)
  Definition runOTRound_start (C : client) (round : Z) (d : Z) : res (client * pkey) :=
    match cx C with
    | None => Err Uninit
    | Some x =>
        do s <- shl1 (round - 1);
        let bit := negb (Z.land x s =? 0) in
        do r <- selectMsg dbg live (otr C) (if bit then 1 else 0) d;
        Ok (mkcli (fst r) (ccur C) (cx C) (result C) (key C), snd r)
    end.

  (** the loop of opprf.cpp:181-192: the first ciphertext that opens *)
  Fixpoint open_key (R : otrecv) (k : Z) (l : list (list ctxt)) : res (option Z) :=
    match l with
    | [] => Ok None
    | v :: l' =>
        do t <- decryptMsgDecode dbg live R v;
        do t' <- decryptCRC e iv k t;
        if t' =? 0 then open_key R k l' else Ok (Some t')
    end.

  (** runOTRound_end, opprf.cpp:172-202 *)
  Definition runOTRound_end (C : client) (round : Z) (c : otctxts) : res client :=
    do k <-
      (if round =? BITS then
         do v <- vat (oc c) 0; decryptMsgDecode dbg live (otr C) v
       else
         do r <- open_key (otr C) (key C) (oc c);
         match r with
         | Some t => Ok t
         | None => if dbg then Err AssertFail else Err Thrown
         end);
    do P <- decryptMsg dbg live (otr C) (ocprf c);
    do R <- padd (result C) P;
    Ok (mkcli (otr C) (ccur C) (cx C) R k).

  (** the loop of opprf.cpp:209-218 *)
  Fixpoint open_mask (k : Z) (l : list Z) : res (option Z) :=
    match l with
    | [] => Ok None
    | m :: l' => do t <- decryptCRC e iv k m; if t =? 0 then open_mask k l' else Ok (Some t)
    end.

  (** unmaskResult, opprf.cpp:204-227; [d] is the draw of the point that is overwritten *)
  Definition unmaskResult (C : client) (masks : list Z) (d : Z) : res client :=
    do r <- open_mask (key C) masks;
    match r with
    | None => if dbg then Err AssertFail else Err Thrown
    | Some x =>
        do P <- randP (ccur C) d;
        do mask <- setEncodedX dbg live CV P x;
        do R <- padd (result C) mask;
        Ok (mkcli (otr C) (ccur C) (cx C) R (key C))
    end.

  (** clean, opprf.cpp:230-235 *)
  Definition client_clean (C : client) : client := mkcli (otr C) (ccur C) (cx C) (pt_inf CV) 0.

  (** ** One evaluation, as in testsuit/test_opprf.cpp:46-70 *)
  Record round_draws := mkrd { rd_key : Z; rd_a : quad; rd_b : quad; rd_c : quad; rd_p : quad; rd_u : Z; rd_v : Z }.
  Definition one_round (SC : server * client) (rd : Z * round_draws) : res (server * client) :=
    let round := fst rd in let d := snd rd in
    do c <- runOTRound_start (snd SC) round (rd_key d);
    do s <- runOTRound (fst SC) round (snd c) (rd_a d) (rd_b d) (rd_c d) (rd_p d) (rd_u d) (rd_v d);
    do c' <- runOTRound_end (fst c) round (snd s);
    Ok (fst s, c').
  Definition rounds : list Z := map Z.of_nat (rev (seq 1 MSG_BITS)).
  Record session_draws := mksd { sd_prep : prep_draws; sd_round : Z -> round_draws; sd_random : Z; sd_u : Z; sd_v : Z; sd_mask : Z }.
  Definition session (S : server) (C : client) (d : session_draws) : res (server * client) :=
    do S1 <- prepareKeysAndInputs S (sd_prep d);
    do SC <- foldM one_round (map (fun r => (r, sd_round d r)) rounds) (S1, C);
    do masks <- sendEncryptedMasks (fst SC) (sd_random d) (sd_u d) (sd_v d);
    do C' <- unmaskResult (snd SC) masks (sd_mask d);
    Ok (fst SC, C').
End Opprf.
