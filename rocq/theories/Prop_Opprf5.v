(** Property C91: what the client of the oblivious PRF learns when the block function may be any function (src/opprf/opprf.cpp).
    [masked f e] is [e] with the bytes [f k b] added to the block [b] under the key [k]; [unseen] are the keys the client does not get;
    [same_view] compares all messages of the server and of the client; [mask_log d Eq] is the logarithm of the mask that an input above
    the threshold is given; [same_size] says that two masks are finite and have the same number of bytes. *)
From Coq Require Import ZArith Bool List Lia.
From Verif Require Import Outcome FieldModel SpecField CurveParams EccModel SpecEcc DmeModel SpecDme OtModel SpecOt CrcModel SpecCrc AesModel SpecAes.
From Verif Require Import OpprfModel SpecOpprf SpecOpprf2 SpecOpprf5 AesProofs3 OpprfProofs12 OpprfCase OpprfCase2 OpprfCase5 Prop_Aes.
Import ListNotations.
Open Scope Z_scope.

(** C91. Two servers with any thresholds on the same side of the input and any secrets. For every block function and all draws of the
    first there are a block function that differs only under keys the client does not get, and draws of the second, with which the client
    sees the same messages, finds the same key and computes the same result. Below the threshold the second server's PRF key is the one
    that gives the same value; above it the masks must have the same number of bytes. *)
Theorem C91_client_view : forall dbg live iv v S S' C a a' a0 a1 b0 b1 x d k', server_ready live S a -> server_ready live S' a' ->
  sdme (ots S') = sdme (ots S) ->
  dme_ok live (rdme (otr C)) -> same_crs (dcrs (rdme (otr C))) (dcrs (sdme (ots S))) ->
  crs_logs live (dcrs (sdme (ots S))) a0 a1 b0 b1 -> ~ (order | a0 * b1 - a1 * b0) ->
  0 <= x < 2 ^ 16 -> session_range d -> distinct_keys (sd_prep d) ->
  ~ (order | d_r (sd_prep d)) -> (forall r, 1 <= r <= 16 -> ~ (order | rd_key (sd_round d r))) ->
  (x <= theta S <-> x <= theta S') -> draw k' ->
  (x <= theta S -> (order | k' + x * a' - (d_kopprf (sd_prep d) + x * a))) ->
  (theta S < x -> same_size dbg live (mask_log d Eq) (k' + x * a' - x * a - sum_to (d_ok (sd_prep d)) 16 * d_r (sd_prep d))) ->
  exists f, (forall k b, length (f k b) = 16%nat /\ Forall byte (f k b)) /\
    (forall k b, ~ unseen (sd_prep d) (theta S) x k -> f k b = repeat 0 16) /\
    forall e t, aes_ready e iv -> iv_block e iv = Ok v -> talk dbg live e iv S (setMessage C x) d = Ok t ->
    exists d' t', d_kopprf (sd_prep d') = k' /\ same_client_draws d d' /\ session_range d' /\
      talk dbg live (masked f e) iv S' (setMessage C x) d' = Ok t' /\ same_view t t' /\
      (forall crs D, good_draws dbg live e iv crs D (theta S) a x d -> good_draws dbg live (masked f e) iv crs D (theta S') a' x d') /\
      (client_ready live (setMessage C x) x ->
       good_draws dbg live e iv (dcrs (rdme (otr C))) (sdme (ots S)) (theta S) a x d ->
       exists C1 C1', offline dbg live e iv (setMessage C x) d t = Ok C1 /\ offline dbg live (masked f e) iv (setMessage C x) d' t' = Ok C1' /\
         key C1' = key C1 /\ den CV (result C1') = den CV (result C1)).
Proof. exact L_C91. Qed.
Print Assumptions C91_client_view.

(** The change of the block function is a bijection: made twice it is undone. Where [f] is 0 it changes nothing. *)
Theorem C91_masked : forall f e, (forall k b, length (f k b) = 16%nat /\ Forall byte (f k b)) -> block_cipher (block e) ->
  block_cipher (block (masked f e)) /\ (forall k b, block (masked f (masked f e)) k b = block e k b) /\
  forall k b, f k b = repeat 0 16 -> block (masked f e) k b = block e k b.
Proof. exact masked_twice. Qed.
Print Assumptions C91_masked.

(** input 5: threshold 9 and secret 3*G against threshold 6 and secret 7*G *)
Example C91_case_low : forall dbg live c0 c1 c2, live c0 = true -> live c1 = true -> live c2 = true ->
  exists D Q Q' S0 S S0' S' f t d' t' C1 C1', dme_new dbg live c0 messy 2 3 1 2 = Ok D /\ getRandomPoint dbg live CV (Some c0) 3 = Ok Q /\
    getRandomPoint dbg live CV (Some c0) 7 = Ok Q' /\
    server_new dbg live c1 9 (dcrs D) 1 = Ok S0 /\ setSecret dbg live S0 Q = Ok (S, set_curve Q (Some c1)) /\
    server_new dbg live c1 6 (dcrs D) 1 = Ok S0' /\ setSecret dbg live S0' Q' = Ok (S', set_curve Q' (Some c1)) /\
    let C := setMessage (client_new c2 (dcrs D)) 5 in
    (forall k b, ~ unseen far_prep 9 5 k -> f k b = repeat 0 16) /\
    talk dbg live small iv0 S C (far 5) = Ok t /\ talk dbg live (masked f small) iv0 S' C d' = Ok t' /\ same_view t t' /\
    same_client_draws (far 5) d' /\ session_range d' /\ d_kopprf (sd_prep d') = order - 3 /\
    offline dbg live small iv0 C (far 5) t = Ok C1 /\ offline dbg live (masked f small) iv0 C d' t' = Ok C1' /\
    key C1' = key C1 /\ den CV (result C1') = den CV (result C1).
Proof.
  intros. apply case91; [assumption|assumption|assumption|left; reflexivity|lia|lia|vm_compute; split; [discriminate|reflexivity]| |lia].
  intros _. exists 1. lia.
Qed.

(** input 12: threshold 9 and secret 3*G against threshold 3 and secret 7*G *)
Example C91_case_high : forall dbg live c0 c1 c2, live c0 = true -> live c1 = true -> live c2 = true ->
  exists D Q Q' S0 S S0' S' f t d' t' C1 C1', dme_new dbg live c0 messy 2 3 1 2 = Ok D /\ getRandomPoint dbg live CV (Some c0) 3 = Ok Q /\
    getRandomPoint dbg live CV (Some c0) 7 = Ok Q' /\
    server_new dbg live c1 9 (dcrs D) 1 = Ok S0 /\ setSecret dbg live S0 Q = Ok (S, set_curve Q (Some c1)) /\
    server_new dbg live c1 3 (dcrs D) 1 = Ok S0' /\ setSecret dbg live S0' Q' = Ok (S', set_curve Q' (Some c1)) /\
    let C := setMessage (client_new c2 (dcrs D)) 12 in
    (forall k b, ~ unseen far_prep 9 12 k -> f k b = repeat 0 16) /\
    talk dbg live small iv0 S C (far 12) = Ok t /\ talk dbg live (masked f small) iv0 S' C d' = Ok t' /\ same_view t t' /\
    same_client_draws (far 12) d' /\ session_range d' /\ d_kopprf (sd_prep d') = order - 33 /\
    offline dbg live small iv0 C (far 12) t = Ok C1 /\ offline dbg live (masked f small) iv0 C d' t' = Ok C1' /\
    key C1' = key C1 /\ den CV (result C1') = den CV (result C1).
Proof.
  intros. apply case91; [assumption|assumption|assumption|right; reflexivity|lia|lia|vm_compute; split; [discriminate|reflexivity]|lia|].
  intros _. exists 1. lia.
Qed.
