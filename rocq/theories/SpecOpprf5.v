(** Vocabulary for the statements about what a client learns when the block cipher may be any function. *)
From Coq Require Import ZArith Bool List.
From Verif Require Import Outcome FieldModel CurveParams EccModel SpecEcc DmeModel SpecDme OtModel SpecOt CrcModel SpecCrc AesModel SpecAes OpprfModel SpecOpprf SpecOpprf2.
Import ListNotations.
Open Scope Z_scope.

(** the same surroundings with another block function: the bytes [f k b] are added to the block [b] under the key [k] *)
Definition masked (f : list Z -> list Z -> list Z) (e : env) : env :=
  {| big_endian_host := big_endian_host e; room := room e; heap := heap e;
     block := fun k b => xor_bytes (block e k b) (f k b); after_iv := after_iv e |}.

(** the sixteen bytes of a key that a client with input [x] does not get from a server with threshold [th] *)
Definition unseen (p : prep_draws) (th x : Z) (k : list Z) : Prop :=
  exists s j, (j < 16)%nat /\ s <> prefix_cmp x th j /\ k = getRawMpz (level_key p s j).

(** all 48 keys differ *)
Definition distinct_keys (p : prep_draws) : Prop :=
  forall s j s' j', (j < 16)%nat -> (j' < 16)%nat -> level_key p s j = level_key p s' j' -> s = s' /\ j = j'.

(** draws in the ranges of the generators *)
Definition quad_range (q : quad) : Prop := draw (q_s0 q) /\ draw (q_t0 q) /\ draw (q_s1 q) /\ draw (q_t1 q).
Record session_range (d : session_draws) : Prop := {
  sg_prep : draw (d_kopprf (sd_prep d)) /\ draw (d_r (sd_prep d));
  sg_ok : forall j, (j < 16)%nat -> draw (d_ok (sd_prep d) j);
  sg_keys : forall s j, (j < 16)%nat -> 2 ^ 120 <= level_key (sd_prep d) s j < 2 ^ 128;
  sg_round : forall r, 1 <= r <= 16 -> let q := sd_round d r in
    draw (rd_key q) /\ quad_range (rd_a q) /\ quad_range (rd_b q) /\ quad_range (rd_c q) /\ quad_range (rd_p q) /\
    0 <= rd_u q < 2 ^ 31 /\ 0 <= rd_v q < 2 ^ 31;
  sg_rest : draw (sd_random d) /\ draw (sd_mask d) /\ 0 <= sd_u d < 2 ^ 31 /\ 0 <= sd_v d < 2 ^ 31 }.

(** the client's own draws are the same *)
Definition same_client_draws (d d' : session_draws) : Prop :=
  (forall r, 1 <= r <= 16 -> rd_key (sd_round d' r) = rd_key (sd_round d r)) /\ sd_mask d' = sd_mask d.

(** transcripts that differ at most in the curve objects the points of the ciphertexts refer to *)
Definition same_messages (m m' : pkey * otctxts) : Prop :=
  fst m = fst m' /\ Forall2 (Forall2 same_ctxt) (oc (snd m)) (oc (snd m')) /\ Forall2 same_ctxt (ocprf (snd m)) (ocprf (snd m')).
Definition same_view (t t' : transcript) : Prop :=
  Forall2 same_messages (tr_rounds t) (tr_rounds t') /\ tr_masks t = tr_masks t'.

(** the masks with these logarithms are finite and have the same number of bytes, which is not 0 *)
Definition same_size (dbg : bool) (live : Z -> bool) (z z' : Z) : Prop :=
  ~ (order | z) /\ ~ (order | z') /\
  forall P P' m m', multiple live P z -> multiple live P' z' -> getEncodedX dbg live CV P = Ok m -> getEncodedX dbg live CV P' = Ok m' ->
    0 < nbytes m /\ nbytes m = nbytes m'.
