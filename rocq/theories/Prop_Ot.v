(** Properties C35, C36 and C68: oblivious transfer (src/ot). *)
From Coq Require Import ZArith Bool List Lia.
From Verif Require Import Outcome FieldModel SpecField CurveParams EccModel SpecEcc DmeModel SpecDme OtModel SpecOt OtProofs OtProofs2.
Import ListNotations.
Open Scope Z_scope.

(** C35: after any history of the receiver the transfer delivers the message of the branch selected last
    (the last three lines say when the proviso holds). *)
Theorem C35_delivers : forall dbg live D h R pk b r S m0 m1 s0 t0 s1 t1, dme_ok live D ->
  recv_run dbg live (otrecv_new D, None) h = Ok (R, Some pk) -> last_selection h = Some (Select b r) -> branch b ->
  dme_ok live (sdme S) -> same_crs (dcrs (sdme S)) (dcrs D) -> is_valid live m0 -> is_valid live m1 ->
  exists S' c0 c1 us, encMsgs dbg live S pk m0 m1 s0 t0 s1 t1 = Ok (S', [c0; c1]) /\
    let c := if b =? 0 then c0 else c1 in let m := if b =? 0 then m0 else m1 in
    pmul dbg live CV (cu c) (rsk R) = Ok us /\
    (pinf us = false -> pinf (cmv c) = false -> yields live CV (decryptMsg dbg live R [c0; c1]) (den CV m)) /\
    (forall a e k, multiple live (crs_g b (dcrs D)) a -> multiple live (crs_h b (dcrs D)) e -> multiple live m k ->
       let w := r * ((if b =? 0 then s0 else s1) * a + (if b =? 0 then t0 else t1) * e) in
       (pinf us = true <-> (order | w)) /\ (pinf (cmv c) = true <-> (order | w + k))).
Proof. exact L_C35. Qed.
Print Assumptions C35_delivers.

(** The integer interface. *)
Theorem C35_integer : forall dbg live D h R pk b r S m0 m1 s0 t0 s1 t1, dme_ok live D ->
  recv_run dbg live (otrecv_new D, None) h = Ok (R, Some pk) -> last_selection h = Some (Select b r) -> branch b ->
  dme_ok live (sdme S) -> same_crs (dcrs (sdme S)) (dcrs D) ->
  exists S' c0 c1 us P0 P1, encMsgsZ dbg live S pk m0 m1 s0 t0 s1 t1 = Ok (S', [c0; c1]) /\
    encode dbg live (sdme S) m0 = Ok P0 /\ encode dbg live (sdme S) m1 = Ok P1 /\
    let c := if b =? 0 then c0 else c1 in
    pmul dbg live CV (cu c) (rsk R) = Ok us /\
    (pinf us = false -> pinf (cmv c) = false ->
     decryptMsgDecode dbg live R [c0; c1] = Ok (decode (if b =? 0 then P0 else P1))).
Proof. exact L_C35_integer. Qed.
Print Assumptions C35_integer.

(** A receiver that never selected a branch reads an uninitialised one. *)
Theorem C35_before_selection : forall dbg live D h s c,
  recv_run dbg live (otrecv_new D, None) h = Ok s -> last_selection h = None ->
  decryptMsg dbg live (fst s) c = Err Uninit /\ decryptMsgDecode dbg live (fst s) c = Err Uninit.
Proof. exact L_C35_uninit. Qed.
Print Assumptions C35_before_selection.

(** The message of the other branch stays perfectly hidden when the CRS is messy. *)
Theorem C35_other_hidden : forall dbg live c r1 r2 r3 r4 D h R pk b r S m m' s t, live c = true ->
  ~ (order | r1 - r2) -> ~ (order | r3) -> ~ (order | r4) -> ~ (order | r) ->
  dme_new dbg live c messy r1 r2 r3 r4 = Ok D -> branch b ->
  recv_run dbg live (otrecv_new D, None) h = Ok (R, Some pk) -> last_selection h = Some (Select b r) ->
  dme_ok live (sdme S) -> same_crs (dcrs (sdme S)) (dcrs D) -> is_valid live m -> is_valid live m' ->
  exists ct s' t', Enc dbg live (sdme S) pk (1 - b) m s t = Ok ct /\ draw s' /\ draw t' /\
    (exists ct', Enc dbg live (sdme S) pk (1 - b) m' s' t' = Ok ct' /\ same_ctxt ct' ct) /\
    (forall s2 t2, draw s2 -> draw t2 ->
      (exists ct', Enc dbg live (sdme S) pk (1 - b) m' s2 t2 = Ok ct' /\ same_ctxt ct' ct) -> s2 = s' /\ t2 = t').
Proof. exact L_C35_hidden. Qed.
Print Assumptions C35_other_hidden.

(** select 1, then select 0, then receive from a sender that got the CRS *)
Example C35_case : forall dbg live c c', live c = true -> live c' = true ->
  exists D R pk S' c0 c1, dme_new dbg live c messy 2 3 1 2 = Ok D /\
    recv_run dbg live (otrecv_new D, None) [Select 1 5; Select 0 2] = Ok (R, Some pk) /\
    encMsgs dbg live (otsndr_new (dme_new_crs c' (dcrs D))) pk (gen CV c') (pt_inf CV) 1 1 3 4 = Ok (S', [c0; c1]) /\
    yields live CV (decryptMsg dbg live R [c0; c1]) (ggen CV).
Proof. exact L_C35_case. Qed.

(** C36: decrypting the aggregate of any positive number of senders gives the sum of their messages. *)
Theorem C36_aggregate : forall dbg live D R0 h R pk b r xs, dme_ok live D -> R0 = otrecv_new D ->
  recv_run dbg live (R0, None) h = Ok (R, Some pk) -> last_selection h = Some (Select b r) -> branch b ->
  xs <> [] -> Forall (sender_ok live D) xs ->
  exists vs c0 c1 us, mapM (send dbg live pk) xs = Ok vs /\ aggregate dbg live vs = Ok [c0; c1] /\
    let c := if b =? 0 then c0 else c1 in
    pmul dbg live CV (cu c) (rsk R) = Ok us /\
    (pinf us = false -> pinf (cmv c) = false ->
     yields live CV (decryptMsg dbg live R [c0; c1]) (total (map (snd_msg b) xs))) /\
    (forall a e ks, multiple live (crs_g b (dcrs D)) a -> multiple live (crs_h b (dcrs D)) e ->
       Forall2 (multiple live) (map (snd_msg b) xs) ks ->
       let w := r * (sumz (map (snd_s b) xs) * a + sumz (map (snd_t b) xs) * e) in
       (pinf us = true <-> (order | w)) /\ (pinf (cmv c) = true <-> (order | w + sumz ks))).
Proof. exact L_C36. Qed.
Print Assumptions C36_aggregate.

Theorem C36_empty : forall dbg live, aggregate dbg live [] = Err OutOfBounds.
Proof. exact L_C36_empty. Qed.
Print Assumptions C36_empty.

Theorem C36_short : forall dbg live v vs, (length v < 2)%nat -> aggregate dbg live (v :: vs) = Err OutOfBounds.
Proof. exact L_C36_short. Qed.
Print Assumptions C36_short.

(** three senders *)
Example C36_case : forall dbg live c c', live c = true -> live c' = true ->
  exists D R pk vs c0 c1, dme_new dbg live c messy 2 3 1 2 = Ok D /\
    recv_run dbg live (otrecv_new D, None) [Select 1 5; Select 0 2] = Ok (R, Some pk) /\
    mapM (send dbg live pk) (map (fun i => mksender (otsndr_new (dme_new_crs c' (dcrs D))) (gen CV c') (pt_inf CV) i 1 i 2) [1; 2; 3]) = Ok vs /\
    aggregate dbg live vs = Ok [c0; c1] /\
    yields live CV (decryptMsg dbg live R [c0; c1]) (total [gen CV c'; gen CV c'; gen CV c']).
Proof. exact L_C36_case. Qed.

(** C68: whoever made a messy CRS learns the branch of any receiver that uses it, after any history ... *)
Theorem C68_sender_learns : forall dbg live c r1 r2 r3 r4 D D' h R pk b r, live c = true ->
  ~ (order | r1 - r2) -> ~ (order | r4) -> ~ (order | r) ->
  dme_new dbg live c messy r1 r2 r3 r4 = Ok D -> dme_ok live D' -> same_crs (dcrs D') (dcrs D) -> branch b ->
  recv_run dbg live (otrecv_new D', None) h = Ok (R, Some pk) -> last_selection h = Some (Select b r) ->
  FindMessy dbg live D pk = Ok (1 - b).
Proof. exact L_C68_sender. Qed.
Print Assumptions C68_sender_learns.

(** ... and whoever made a decryption-mode CRS reads both messages of any sender that uses it, with a
    public key that honest receivers of either branch could have published. *)
Theorem C68_receiver_reads : forall dbg live c r1 r2 r3 r4 D r pk sk0 sk1 S m0 m1 s0 t0 s1 t1, live c = true -> ~ (order | r1) ->
  dme_new dbg live c dec r1 r2 r3 r4 = Ok D -> TrapKeyGen dbg live D r = Ok (pk, sk0, sk1) ->
  dme_ok live (sdme S) -> same_crs (dcrs (sdme S)) (dcrs D) -> is_valid live m0 -> is_valid live m1 ->
  (forall b, branch b -> exists r' kp, KeyGen dbg live D b r' = Ok kp /\ same_pkey (kpk kp) pk) /\
  exists S' c0 c1 us0 us1, encMsgs dbg live S pk m0 m1 s0 t0 s1 t1 = Ok (S', [c0; c1]) /\
    pmul dbg live CV (cu c0) sk0 = Ok us0 /\ pmul dbg live CV (cu c1) sk1 = Ok us1 /\
    (pinf us0 = false -> pinf (cmv c0) = false -> yields live CV (Dec dbg live sk0 c0) (den CV m0)) /\
    (pinf us1 = false -> pinf (cmv c1) = false -> yields live CV (Dec dbg live sk1 c1) (den CV m1)) /\
    (pinf us0 = true <-> (order | r * (r2 * (s0 + t0 * r3)))) /\
    (pinf us1 = true <-> (order | r * (r2 * (s1 + t1 * r3)))) /\
    (forall k, multiple live m0 k -> (pinf (cmv c0) = true <-> (order | r * (r2 * (s0 + t0 * r3)) + k))) /\
    (forall k, multiple live m1 k -> (pinf (cmv c1) = true <-> (order | r * (r2 * (s1 + t1 * r3)) + k))).
Proof. exact L_C68_receiver. Qed.
Print Assumptions C68_receiver_reads.

(** a receiver that got the CRS selects 1, then 0: the creator sees that 1 is the messy branch *)
Example C68_sender_case : forall dbg live c c', live c = true -> live c' = true ->
  exists D R pk, dme_new dbg live c messy 2 3 1 2 = Ok D /\
    recv_run dbg live (otrecv_new (dme_new_crs c' (dcrs D)), None) [Select 1 5; Select 0 2] = Ok (R, Some pk) /\
    FindMessy dbg live D pk = Ok 1.
Proof. exact L_C68_sender_case. Qed.

(** both messages of a sender that got the CRS *)
Example C68_receiver_case : forall dbg live c c', live c = true -> live c' = true ->
  exists D pk sk0 sk1 S' c0 c1, dme_new dbg live c dec 2 1 3 0 = Ok D /\ TrapKeyGen dbg live D 4 = Ok (pk, sk0, sk1) /\
    encMsgs dbg live (otsndr_new (dme_new_crs c' (dcrs D))) pk (gen CV c') (pt_inf CV) 1 1 3 4 = Ok (S', [c0; c1]) /\
    yields live CV (Dec dbg live sk0 c0) (ggen CV) /\ yields live CV (Dec dbg live sk1 c1) None.
Proof. exact L_C68_receiver_case. Qed.
