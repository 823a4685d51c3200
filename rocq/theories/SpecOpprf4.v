(** Vocabulary for the statements about the order of the ciphertexts in the oblivious PRF. *)
From Coq Require Import ZArith Bool List.
From Verif Require Import Outcome FieldModel CurveParams EccModel SpecEcc DmeModel SpecDme OtModel SpecOt AesModel OpprfModel SpecOpprf SpecOpprf2.
Import ListNotations.
Open Scope Z_scope.

Section Vocabulary.
  Variables (dbg : bool) (live : Z -> bool) (e : env) (iv : list Z).

  (** the index of the first ciphertext of a round that passes the check under the key [k] *)
  Fixpoint first_row (R : otrecv) (k : Z) (l : list (list ctxt)) : res nat :=
    match l with
    | [] => Ok O
    | v :: l' =>
        do t <- decryptMsgDecode dbg live R v;
        do t' <- decryptCRC e iv k t;
        if t' =? 0 then do p <- first_row R k l'; Ok (S p) else Ok O
    end.
  (** ... the same for the masks *)
  Fixpoint first_mask (k : Z) (l : list Z) : res nat :=
    match l with
    | [] => Ok O
    | m :: l' => do t <- decryptCRC e iv k m; if t =? 0 then do p <- first_mask k l'; Ok (S p) else Ok O
    end.
  (** the indices a client with the given draws meets in a transcript, round 15 to round 1; round 16 has a single ciphertext *)
  Fixpoint rows_opened (C : client) (l : list (Z * round_draws)) (t : list (pkey * otctxts)) : res (list nat * client) :=
    match l, t with
    | (round, d) :: l', (_, c) :: t' =>
        do s <- runOTRound_start dbg live C round (rd_key d);
        do p <- (if round =? BITS then Ok [] else do p <- first_row (otr (fst s)) (key (fst s)) (oc c); Ok [p]);
        do C' <- runOTRound_end dbg live e iv (fst s) round c;
        do r <- rows_opened C' l' t';
        Ok (p ++ fst r, snd r)
    | _, _ => Ok ([], C)
    end.
  (** ... and in the masks *)
  Definition places (C : client) (d : session_draws) (t : transcript) : res (list nat) :=
    do r <- rows_opened C (schedule d) (tr_rounds t);
    do p <- first_mask (key (snd r)) (tr_masks t);
    Ok (fst r ++ [p]).
End Vocabulary.

(** 15, ..., 1, 0 *)
Definition levels : list nat := rev (seq 0 16).
(** the values of rand() that decide the order of the three ciphertexts of round 15 to round 1 and of the masks *)
Definition shuffles (d : session_draws) : list (Z * Z) :=
  map (fun r => (rd_u (sd_round d (Z.of_nat r)), rd_v (sd_round d (Z.of_nat r)))) (rev (seq 1 15)) ++ [(sd_u d, sd_v d)].
(** which of the letters, written down as smaller, equal, greater and then shuffled, is at an index *)
Definition letter_at (uv : Z * Z) (p : nat) : option comparison := nth_error (shuffle3 [Lt; Eq; Gt] (fst uv) (snd uv)) p.
Definition letters (d : session_draws) (ps : list nat) : list (option comparison) :=
  map (fun z => letter_at (fst z) (snd z)) (combine (shuffles d) ps).
