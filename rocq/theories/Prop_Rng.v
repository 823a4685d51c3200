(** Property C57: the generators are never seeded. The behaviour of GMP and libc is arbitrary. *)
From Coq Require Import ZArith Bool List Lia.
From Verif Require Import Outcome FieldModel CurveParams EccModel DmeModel SpecDme OtModel AesModel OpprfModel ShamirModel RngModel SpecRng RngProofs.
Import ListNotations.
Open Scope Z_scope.

(** C57: two processes that make calls of the same shapes draw the same values, call by call, whatever their clocks, process
    ids and entropy, and whatever keys, messages, branches and objects the calls are given. *)
Theorem C57_independence_refuted : forall dbg live e iv G L gmp0 libc0 z_range z_bits libc_rand w w' p p', same_shape p p' ->
  map (fun x => snd (fst x)) (process dbg live e iv G L z_range z_bits libc_rand (start G L gmp0 libc0 w) p) =
  map (fun x => snd (fst x)) (process dbg live e iv G L z_range z_bits libc_rand (start G L gmp0 libc0 w') p').
Proof. exact L_C57_same. Qed.
Print Assumptions C57_independence_refuted.

(** The three generators do not influence each other: what one of them has given so far depends only on what it was
    asked. *)
Theorem C57_each_generator : forall G L gmp0 libc0 z_range z_bits libc_rand w w' s l l' more, asked s l' = asked s l ++ more ->
  exists rest, from s l' (fst (draws G L z_range z_bits libc_rand (start G L gmp0 libc0 w') l')) =
    from s l (fst (draws G L z_range z_bits libc_rand (start G L gmp0 libc0 w) l)) ++ rest.
Proof. exact L_C57_source. Qed.
Print Assumptions C57_each_generator.

(** the first four requests, interleaved or not *)
Example C57_each_generator_case :
  asked SCurve [Range 10; Bits 8; Range 10; Rand] = asked SCurve [Rand; Range 10; Range 10] ++ [] /\
  from SCurve [Range 10; Bits 8; Range 10; Rand]
    (fst (draws Z Z count_range count_bits count_rand (start Z Z 5 7 (mkout 1 2 3)) [Range 10; Bits 8; Range 10; Rand])) = [5; 6].
Proof. split; reflexivity. Qed.

(** The values are those that the library's generators give from their default states, one after the other ... *)
Theorem C57_stream : forall G L gmp0 libc0 z_range z_bits libc_rand w l,
  from SCurve l (fst (draws G L z_range z_bits libc_rand (start G L gmp0 libc0 w) l)) = stream z_range gmp0 (map parameter (asked SCurve l)) /\
  from SUtils l (fst (draws G L z_range z_bits libc_rand (start G L gmp0 libc0 w) l)) = stream z_bits gmp0 (map parameter (asked SUtils l)) /\
  from SLibc l (fst (draws G L z_range z_bits libc_rand (start G L gmp0 libc0 w) l)) =
    stream (fun s _ => libc_rand s) libc0 (map parameter (asked SLibc l)).
Proof. exact L_C57_stream. Qed.
Print Assumptions C57_stream.

(** ... and a call uses nothing but its draws: appending more values changes no result. *)
Theorem C57_enough : forall dbg live e iv c v w, length v = length (requests c) ->
  answer dbg live e iv c v = answer dbg live e iv c (v ++ w).
Proof. exact L_C57_enough. Qed.
Print Assumptions C57_enough.

(** a decryption-mode string takes the first three values of a generator that counts from 5, the next key the fourth *)
Example C57_enough_case : forall dbg live e iv w c D b,
  map (fun x => snd (fst x)) (process dbg live e iv Z Z count_range count_bits count_rand (start Z Z 5 7 w) [CDme c dec; CKeyGen D b]) =
    [[5; 6; 7]; [8]] /\
  stream count_range 5 (map parameter (asked SCurve (requests (CDme c dec) ++ requests (CKeyGen D b)))) = [5; 6; 7; 8].
Proof. intros. split; reflexivity. Qed.

(** Key generation: the secret keys of two processes are equal. *)
Theorem C57_secret_keys : forall dbg live e iv G L gmp0 libc0 z_range z_bits libc_rand w w' p p' i D b D' b' v v' kp kp',
  same_shape p p' ->
  nth_error (process dbg live e iv G L z_range z_bits libc_rand (start G L gmp0 libc0 w) p) i =
    Some (CKeyGen D b, v, Ok (VKeys kp)) ->
  nth_error (process dbg live e iv G L z_range z_bits libc_rand (start G L gmp0 libc0 w') p') i =
    Some (CKeyGen D' b', v', Ok (VKeys kp')) ->
  ksk kp = ksk kp'.
Proof. exact L_C57_secret. Qed.
Print Assumptions C57_secret_keys.

(** Oblivious transfer: whoever knows the CRS and the shapes of the calls finds the receiver's branch by repeating them. *)
Theorem C57_branch_revealed : forall dbg live e iv G L gmp0 libc0 z_range z_bits libc_rand w w' p p' i R R' b b' v v' R1 pk R1' pk',
  same_shape p p' ->
  nth_error (process dbg live e iv G L z_range z_bits libc_rand (start G L gmp0 libc0 w) p) i =
    Some (CSelect R b, v, Ok (VRecv (R1, pk))) ->
  nth_error (process dbg live e iv G L z_range z_bits libc_rand (start G L gmp0 libc0 w') p') i =
    Some (CSelect R' b', v', Ok (VRecv (R1', pk'))) ->
  dme_ok live (rdme R) -> dme_ok live (rdme R') -> same_crs (dcrs (rdme R')) (dcrs (rdme R)) -> branch b -> branch b' ->
  ~ same_point (g0 (dcrs (rdme R))) (g1 (dcrs (rdme R))) -> ~ (order | nth 0 v 0) ->
  (same_pkey pk pk' <-> b = b').
Proof. exact L_C57_branch. Qed.
Print Assumptions C57_branch_revealed.

(** Encryption: a guess at the message is confirmed by encrypting it in another process. *)
Theorem C57_message_recognised : forall dbg live e iv G L gmp0 libc0 z_range z_bits libc_rand w w' p p' i D D' pk b m m' v v' c c',
  same_shape p p' ->
  nth_error (process dbg live e iv G L z_range z_bits libc_rand (start G L gmp0 libc0 w) p) i =
    Some (CEnc D pk b m, v, Ok (VCtxt c)) ->
  nth_error (process dbg live e iv G L z_range z_bits libc_rand (start G L gmp0 libc0 w') p') i =
    Some (CEnc D' pk b m', v', Ok (VCtxt c')) ->
  dme_ok live D -> dme_ok live D' -> same_crs (dcrs D') (dcrs D) -> branch b -> pk_valid live pk ->
  is_valid live m -> is_valid live m' ->
  (same_ctxt c c' <-> same_point m m').
Proof. exact L_C57_message. Qed.
Print Assumptions C57_message_recognised.

(** two receivers, one on each branch, with a generator that counts from 5 *)
Example C57_case : forall dbg live e iv w w' c, live c = true ->
  let run := fun (o : outside) p => process dbg live e iv Z Z count_range count_bits count_rand (start Z Z 5 7 o) p in
  exists R R1 pk R1' pk', dme_ok live (rdme R) /\ ~ same_point (g0 (dcrs (rdme R))) (g1 (dcrs (rdme R))) /\
    nth_error (run w [CSelect R 0]) 0 = Some (CSelect R 0, [5], Ok (VRecv (R1, pk))) /\
    nth_error (run w' [CSelect R 1]) 0 = Some (CSelect R 1, [5], Ok (VRecv (R1', pk'))) /\
    same_shape [CSelect R 0] [CSelect R 1] /\ ~ (order | 5) /\ rsk R1 = rsk R1'.
Proof. exact L_C57_case. Qed.
