(** Model of the byte buffers of the CRC and AES code: what stays allocated, and with which contents. mpz_export allocates
    (src/utilities/utilities.cpp:15-20) and nothing in the repository frees what it returns. The functions below are those of
    CrcModel, AesModel and OpprfModel with a memory passed along.
    Simplifications: only these buffers are tracked. The numbers of GMP, the vectors and the EVP contexts (freed, aes.cpp:84, 139) are
    not; a computation that ends in a fault has no memory afterwards. *)
From Coq Require Import ZArith Bool List.
From Verif Require Import Outcome FieldModel CurveParams EccModel DmeModel OtModel CrcModel AesModel OpprfModel SpecOpprf.
Import ListNotations.
Open Scope Z_scope.

(** an allocated block and the bytes written to it; latest block first *)
Record cell := mkcell { caddr : Z; cbytes : list Z }.
Definition mem := list cell.

(** computations with a memory *)
Definition ST (A : Type) := mem -> res (A * mem).
Definition lift {A} (r : res A) : ST A := fun m => do a <- r; Ok (a, m).
Definition sbind {A B} (a : ST A) (f : A -> ST B) : ST B := fun m => do x <- a m; f (fst x) (snd x).
Notation "'go' x <- a ; b" := (sbind a (fun x => b)) (at level 200, x pattern, a at level 100, b at level 200, right associativity).
Fixpoint foldS {A S} (f : S -> A -> ST S) (l : list A) (s : S) : ST S :=
  match l with
  | [] => lift (Ok s)
  | a :: l' => go s' <- f s a; foldS f l' s'
  end.

Section Heap.
  (** the address malloc gives for a number of bytes *)
  Variable alloc : mem -> nat -> Z.

  (** utils::getRawMpz, utilities.cpp:15-20: the pointer and the bytes behind it; for 0 nothing is allocated and the pointer is null *)
  Definition getRaw_h (n : Z) : ST (Z * list Z) := fun m =>
    let bs := getRawMpz n in
    if Z.of_nat (length bs) =? 0 then Ok ((0, bs), m)
    else let a := alloc m (length bs) in Ok ((a, bs), mkcell a bs :: m).

  (** the block at [a] now holds [bs] *)
  Definition write_h (a : Z) (bs : list Z) : ST unit := fun m =>
    Ok (tt, map (fun c => if caddr c =? a then mkcell a bs else c) m).

  (** appendCRC, includes/crc.hpp:766-778 *)
  Definition appendCRC_h (be : bool) (room : Z -> Z) (n : Z) : ST Z :=
    go r <- getRaw_h n;
    let len := Z.of_nat (length (snd r)) in
    go crc <- lift (calculate_crc32c be {| base := fst r; bytes := snd r |} 0 len);
    if len =? 0 then lift (Err NullDeref)
    else if room len <? len + 4 then lift (Err OutOfBounds)
    else go _ <- write_h (fst r) (snd r ++ obj32 be crc); lift (Ok (setRawMpz (snd r ++ obj32 be crc))).

  (** validateCRC, includes/crc.hpp:780-795 *)
  Definition validateCRC_h (be : bool) (n : Z) : ST bool :=
    go r <- getRaw_h n;
    let len := Z.of_nat (length (snd r)) in
    let m := {| base := fst r; bytes := snd r |} in
    if len =? 0 then lift (Err NullDeref)
    else
      go b0 <- lift (rd m (len - 4)); go b1 <- lift (rd m (len - 3)); go b2 <- lift (rd m (len - 2)); go b3 <- lift (rd m (len - 1));
      let value := Z.lor (Z.lor (Z.lor b0 (Z.shiftl b1 8)) (Z.shiftl b2 16)) (Z.shiftl b3 24) in
      go crc <- lift (calculate_crc32c be m 0 (u64 (len - 4)));
      lift (Ok (crc =? value)).

  (** removeCRC, includes/crc.hpp:797-805 *)
  Definition removeCRC_h (n : Z) : ST Z :=
    go r <- getRaw_h n;
    let len := Z.of_nat (length (snd r)) in
    let count := u64 (len - 4) in
    lift (if len <? count then Err Exhausted else Ok (setRawMpz (firstn (Z.to_nat count) (snd r)))).

  Section Cipher.
    Variables (e : env) (iv : list Z).

    (** AES::encrypt and AES::decrypt, aes.cpp:40-89, 91-143: first the text, then the key is converted *)
    Definition crypt_h (text key : Z) : ST Z :=
      go t <- getRaw_h text;
      go k <- getRaw_h key;
      lift (do kb <- key_block key;
            do v <- iv_block e iv;
            let inl := s32 (Z.of_nat (length (snd t))) in
            if inl <? 0 then Err AssertFail
            else if 128 <? inl then Err OutOfBounds
            else Ok (setRawMpz (ctr e kb v (firstn (Z.to_nat inl) (snd t))))).

    (** AES::encryptCRC, AES::decryptCRC, aes.cpp:145-149, 151-162 *)
    Definition encryptCRC_h (key plaintext : Z) : ST Z :=
      go msg <- appendCRC_h (big_endian_host e) (room e) plaintext; crypt_h msg key.
    Definition decryptCRC_h (key cipher : Z) : ST Z :=
      go m <- crypt_h cipher key;
      go ok <- validateCRC_h (big_endian_host e) m;
      if (ok : bool) then removeCRC_h m else lift (Ok 0).

    (** ** The oblivious PRF: the functions of OpprfModel that call the above *)
    Section Opprf.
      Variables (dbg : bool) (live : Z -> bool).
      Local Notation pmul := (pmul dbg live CV).
      Local Notation pmulz := (pmulz dbg live CV).
      Local Notation padd := (padd dbg live CV).
      Local Notation randS := (getRandomScalar live CV).
      Local Notation randP := (getRandomPoint dbg live CV).

      (** opprf.cpp:63-92 *)
      Definition prep_row_h (S : server) (j : nat) : ST (inputi * inputi) :=
        let i := Z.of_nat (Datatypes.S j) in
        go lt1 <- lift (vat (k_lt S) i); go eq1 <- lift (vat (k_eq S) i); go gt1 <- lift (vat (k_gt S) i);
        go lt0 <- lift (vat (k_lt S) (i - 1)); go eq0 <- lift (vat (k_eq S) (i - 1)); go gt0 <- lift (vat (k_gt S) (i - 1));
        go okj <- lift (vat (ok S) (i - 1));
        if negb (tbit S j) then
          go a0 <- encryptCRC_h lt1 lt0;
          go b0 <- encryptCRC_h eq1 eq0;
          go c0 <- encryptCRC_h gt1 gt0;
          go p0 <- lift (pmul (sr S) okj);
          go a1 <- encryptCRC_h lt1 lt0;
          go b1 <- encryptCRC_h eq1 gt0;
          go c1 <- encryptCRC_h gt1 gt0;
          go g <- lift (pmulz (ga S) (2 ^ Z.of_nat j));
          go q <- lift (pmul (sr S) okj);
          go p1 <- lift (padd g q);
          lift (Ok (mki a0 b0 c0 p0, mki a1 b1 c1 p1))
        else
          go a0 <- encryptCRC_h lt1 lt0;
          go b0 <- encryptCRC_h eq1 lt0;
          go c0 <- encryptCRC_h gt1 gt0;
          go p0 <- lift (pmul (sr S) okj);
          go a1 <- encryptCRC_h lt1 lt0;
          go b1 <- encryptCRC_h eq1 eq0;
          go c1 <- encryptCRC_h gt1 gt0;
          go g <- lift (pmulz (ga S) (2 ^ Z.of_nat j));
          go q <- lift (pmul (sr S) okj);
          go p1 <- lift (padd g q);
          lift (Ok (mki a0 b0 c0 p0, mki a1 b1 c1 p1)).
      Definition prep_step_h (S : server) (j : nat) : ST server :=
        go r <- prep_row_h S j;
        go s0 <- lift (vset (Si0 S) (Datatypes.S j) (fst r));
        go s1 <- lift (vset (Si1 S) (Datatypes.S j) (snd r));
        lift (Ok (set_rows S s0 s1)).

      (** prepareKeysAndInputs, opprf.cpp:33-93 *)
      Definition prepareKeysAndInputs_h (S : server) (d : prep_draws) : ST server :=
        go kp <- lift (randP (scur S) (d_kopprf d));
        go r <- lift (randP (scur S) (d_r d));
        go oks <- lift (mapM (fun j => randS (scur S) (d_ok d j)) (seq 0 MSG_BITS));
        let S1 := mksrv (ots S) (scur S) (theta S) (ga S) kp r (gk S)
                    (k_lt S ++ map (d_lt d) (seq 0 MSG_BITS)) (k_eq S ++ map (d_eq d) (seq 0 MSG_BITS))
                    (k_gt S ++ map (d_gt d) (seq 0 MSG_BITS)) (ok S ++ oks) (Sl0 S) (Sl1 S) (Si0 S) (Si1 S) in
        go S2 <- lift (prep_top dbg live S1);
        foldS prep_step_h (rev (seq 0 (MSG_BITS - 1))) S2.

      (** sendEncryptedMasks, opprf.cpp:116-135 *)
      Definition sendEncryptedMasks_h (S : server) (d u v : Z) : ST (list Z) :=
        go ok0 <- lift (vat (ok S) 0);
        go oks <- lift (mapM (fun j => vat (ok S) (Z.of_nat j)) (seq 1 (MSG_BITS - 1)));
        go sum <- lift (foldM (fe_add_eq dbg) oks ok0);
        go n <- lift (fe_neg FIELD_n sum);
        go t <- lift (pmul (sr S) n);
        go mask <- lift (padd (kopprf S) t);
        go l0 <- lift (vat (k_lt S) 0);
        go m0 <- lift (getEncodedX dbg live CV mask);
        go c0 <- encryptCRC_h l0 m0;
        go e0 <- lift (vat (k_eq S) 0);
        go m1 <- lift (getEncodedX dbg live CV mask);
        go c1 <- encryptCRC_h e0 m1;
        go g0 <- lift (vat (k_gt S) 0);
        go R <- lift (randP (scur S) d);
        go m2 <- lift (getEncodedX dbg live CV R);
        go c2 <- encryptCRC_h g0 m2;
        lift (Ok (shuffle3 [c0; c1; c2] u v)).

      (** the loop of opprf.cpp:181-192 *)
      Fixpoint open_key_h (R : otrecv) (k : Z) (l : list (list ctxt)) : ST (option Z) :=
        match l with
        | [] => lift (Ok None)
        | v :: l' =>
            go t <- lift (decryptMsgDecode dbg live R v);
            go t' <- decryptCRC_h k t;
            if t' =? 0 then open_key_h R k l' else lift (Ok (Some t'))
        end.

      (** runOTRound_end, opprf.cpp:172-202 *)
      Definition runOTRound_end_h (C : client) (round : Z) (c : otctxts) : ST client :=
        go k <-
          (if round =? BITS then
             go v <- lift (vat (oc c) 0); lift (decryptMsgDecode dbg live (otr C) v)
           else
             go r <- open_key_h (otr C) (key C) (oc c);
             match r with
             | Some t => lift (Ok t)
             | None => lift (if dbg then Err AssertFail else Err Thrown)
             end);
        go P <- lift (decryptMsg dbg live (otr C) (ocprf c));
        go R <- lift (padd (result C) P);
        lift (Ok (mkcli (otr C) (ccur C) (cx C) R k)).

      (** the loop of opprf.cpp:209-218 *)
      Fixpoint open_mask_h (k : Z) (l : list Z) : ST (option Z) :=
        match l with
        | [] => lift (Ok None)
        | x :: l' => go t <- decryptCRC_h k x; if t =? 0 then open_mask_h k l' else lift (Ok (Some t))
        end.

      (** unmaskResult, opprf.cpp:204-227 *)
      Definition unmaskResult_h (C : client) (masks : list Z) (d : Z) : ST client :=
        go r <- open_mask_h (key C) masks;
        match r with
        | None => lift (if dbg then Err AssertFail else Err Thrown)
        | Some x =>
            go P <- lift (randP (ccur C) d);
            go mask <- lift (setEncodedX dbg live CV P x);
            go R <- lift (padd (result C) mask);
            lift (Ok (mkcli (otr C) (ccur C) (cx C) R (key C)))
        end.

      (** one call on a server and a client (SpecOpprf.happens); clean() on either side touches none of the buffers,
          opprf.cpp:137-152, 230-235 *)
      Definition happens_h (SC : server * client) (v : event) : ST (server * client) :=
        let (S, C) := SC in
        match v with
        | EPrepare d => go S' <- prepareKeysAndInputs_h S d; lift (Ok (S', C))
        | EServe round pk qa qb qc qp u w => go r <- lift (runOTRound dbg live S round pk qa qb qc qp u w); lift (Ok (fst r, C))
        | EMasks d u w => go _ <- sendEncryptedMasks_h S d u w; lift (Ok (S, C))
        | ECleanServer d => go S' <- lift (server_clean dbg live S d); lift (Ok (S', C))
        | EMessage x => lift (Ok (S, setMessage C x))
        | EStart round d => go r <- lift (runOTRound_start dbg live C round d); lift (Ok (S, fst r))
        | EFinish round c => go C' <- runOTRound_end_h C round c; lift (Ok (S, C'))
        | EUnmask ms d => go C' <- unmaskResult_h C ms d; lift (Ok (S, C'))
        | ECleanClient => lift (Ok (S, client_clean C))
        end.
      Definition history_h (l : list event) (SC : server * client) : ST (server * client) := foldS happens_h l SC.
    End Opprf.
  End Cipher.
End Heap.
