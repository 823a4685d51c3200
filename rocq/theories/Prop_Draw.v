(** Property C90: how many draws make decryption fail (src/dme, src/ot, src/elgamal). *)
From Coq Require Import ZArith Bool List Lia.
From Verif Require Import Outcome FieldModel SpecField CurveParams EccModel SpecEcc DmeModel SpecDme OtModel SpecOt SpecDraw ElgamalModel SpecElgamal DrawProofs.
Import ListNotations.
Open Scope Z_scope.

(** C90. With a nonzero key, for every first draw of Enc exactly two values of the second spoil the ciphertext of a finite point, and one
    that of infinity. *)
Theorem C90_decrypts : forall dbg live D b r s m, dme_ok live D -> branch b -> finite live (crs_h b (dcrs D)) -> ~ (order | r) ->
  is_valid live m ->
  exists t0 t1, draw t0 /\ draw t1 /\ (t0 = t1 <-> pinf m = true) /\
    forall t, draw t -> exists kp c, KeyGen dbg live D b r = Ok kp /\ Enc dbg live D (kpk kp) b m s t = Ok c /\
      (yields live CV (Dec dbg live (ksk kp) c) (den CV m) <-> t <> t0 /\ t <> t1).
Proof. exact L_C90_dme. Qed.
Print Assumptions C90_decrypts.

(** The key 0 decrypts nothing. *)
Theorem C90_zero_key : forall dbg live D b r s t m, dme_ok live D -> branch b -> (order | r) -> is_valid live m ->
  exists kp c, KeyGen dbg live D b r = Ok kp /\ Enc dbg live D (kpk kp) b m s t = Ok c /\
    ~ yields live CV (Dec dbg live (ksk kp) c) (den CV m).
Proof. exact L_C90_key. Qed.
Print Assumptions C90_zero_key.

(** The reference string is finite exactly when no draw used for it is 0. *)
Theorem C90_reference : forall dbg live c mu r1 r2 r3 r4, live c = true ->
  exists D, dme_new dbg live c mu r1 r2 r3 r4 = Ok D /\
    (finite live (g0 (dcrs D)) /\ finite live (g1 (dcrs D)) /\ finite live (h0 (dcrs D)) /\ finite live (h1 (dcrs D)) <->
     ~ (order | r1) /\ ~ (order | r2) /\ ~ (order | r3) /\ (mu = messy -> ~ (order | r4))).
Proof. exact L_C90_crs. Qed.
Print Assumptions C90_reference.

(** exponents 2, 3, g0 = G, h0 = 2G, key 2, message G, draws 1 and -1/2 *)
Example C90_decrypts_case : forall dbg live c, live c = true ->
  exists D kp ct, dme_new dbg live c messy 2 3 1 2 = Ok D /\ dme_ok live D /\ finite live (crs_h 0 (dcrs D)) /\ ~ (order | 2) /\
    KeyGen dbg live D 0 2 = Ok kp /\ Enc dbg live D (kpk kp) 0 (gen CV c) 1 ((order - 1) / 2) = Ok ct /\
    ~ yields live CV (Dec dbg live (ksk kp) ct) (ggen CV).
Proof. exact case90_dme. Qed.

(** The same for a transfer after any history of the receiver; [t] is the second draw of the branch selected ... *)
Theorem C90_transfer : forall dbg live D h R pk b r S m0 m1 s0 s1 u, dme_ok live D -> finite live (crs_h b (dcrs D)) ->
  recv_run dbg live (otrecv_new D, None) h = Ok (R, Some pk) -> last_selection h = Some (Select b r) -> branch b -> ~ (order | r) ->
  dme_ok live (sdme S) -> same_crs (dcrs (sdme S)) (dcrs D) -> is_valid live m0 -> is_valid live m1 ->
  let m := if b =? 0 then m0 else m1 in
  exists t0 t1, draw t0 /\ draw t1 /\ (t0 = t1 <-> pinf m = true) /\
    forall t, draw t ->
      exists S' cs, encMsgs dbg live S pk m0 m1 s0 (if b =? 0 then t else u) s1 (if b =? 0 then u else t) = Ok (S', cs) /\
        (yields live CV (decryptMsg dbg live R cs) (den CV m) <-> t <> t0 /\ t <> t1).
Proof. exact L_C90_ot. Qed.
Print Assumptions C90_transfer.

(** ... and for the aggregate of any number of senders, in the draw of any one of them. *)
Theorem C90_aggregate : forall dbg live D h R pk b r xs1 x xs2, dme_ok live D -> finite live (crs_h b (dcrs D)) ->
  recv_run dbg live (otrecv_new D, None) h = Ok (R, Some pk) -> last_selection h = Some (Select b r) -> branch b -> ~ (order | r) ->
  Forall (sender_ok live D) (xs1 ++ x :: xs2) ->
  let all t := xs1 ++ with_draw b x t :: xs2 in let m := total (map (snd_msg b) (xs1 ++ x :: xs2)) in
  exists t0 t1, draw t0 /\ draw t1 /\ (t0 = t1 <-> m = None) /\
    forall t, draw t -> exists vs cs, mapM (send dbg live pk) (all t) = Ok vs /\ aggregate dbg live vs = Ok cs /\
      (yields live CV (decryptMsg dbg live R cs) m <-> t <> t0 /\ t <> t1).
Proof. exact L_C90_dot. Qed.
Print Assumptions C90_aggregate.

(** a receiver that selected 1, then 0, and a sender that got its reference string *)
Example C90_transfer_case : forall dbg live c c', live c = true -> live c' = true ->
  exists D R pk, dme_new dbg live c messy 2 3 1 2 = Ok D /\ dme_ok live D /\ finite live (crs_h 0 (dcrs D)) /\ ~ (order | 2) /\
    recv_run dbg live (otrecv_new D, None) [Select 1 5; Select 0 2] = Ok (R, Some pk) /\
    last_selection [Select 1 5; Select 0 2] = Some (Select 0 2) /\
    sender_ok live D (mksender (otsndr_new (dme_new_crs c' (dcrs D))) (gen CV c') (pt_inf CV) 1 1 1 2).
Proof. exact case90_transfer. Qed.

(** ElGamal: the draw 0, and with asserts one more, which is 0 for infinity. *)
Theorem C90_elgamal : forall dbg live E sk pk P, elgamal_ok live E -> scal sk -> multiple live pk (fval sk) -> fval sk <> 0 ->
  is_valid live P ->
  exists r1, draw r1 /\ (r1 = 0 <-> pinf P = true) /\
    forall r, draw r -> exists c, eg_encrypt dbg live E pk P r = Ok c /\
      (dbg = true -> (eg_decrypt dbg live sk c = Ok (fval (px P) / 1048576) <-> r <> 0 /\ r <> r1)) /\
      (dbg = false -> r <> 0 -> eg_decrypt dbg live sk c = Ok (fval (px P) / 1048576)).
Proof. exact L_C90_elgamal. Qed.
Print Assumptions C90_elgamal.

(** key 3, message G, draw -1/3 *)
Example C90_elgamal_case : forall live a, live a = true ->
  exists pk c, pmulz true live CV (gen CV a) 3 = Ok pk /\ fval (fe_new FIELD_n 3) <> 0 /\
    eg_encrypt true live (eg_new a) pk (gen CV a) ((order - 1) / 3) = Ok c /\ eg_decrypt true live (fe_new FIELD_n 3) c = Err NullDeref.
Proof. exact case90_elgamal. Qed.
