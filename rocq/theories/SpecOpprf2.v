(** Vocabulary for the statements about what the parties of the oblivious PRF, and others, learn. *)
From Coq Require Import ZArith Bool List.
From Verif Require Import Outcome FieldModel CurveParams EccModel SpecEcc DmeModel SpecDme OtModel SpecOt AesModel OpprfModel SpecOpprf.
Import ListNotations.
Open Scope Z_scope.

(** what passes between a server and a client in one evaluation: a public key and its answer per round, then the masks *)
Record transcript := mktr { tr_rounds : list (pkey * otctxts); tr_masks : list Z }.

Section Vocabulary.
  Variables (dbg : bool) (live : Z -> bool) (e : env) (iv : list Z).

  Fixpoint exchanges (S : server) (C : client) (l : list (Z * round_draws)) : res (server * list (pkey * otctxts)) :=
    match l with
    | [] => Ok (S, [])
    | (round, d) :: l' =>
        do c <- runOTRound_start dbg live C round (rd_key d);
        do s <- runOTRound dbg live S round (snd c) (rd_a d) (rd_b d) (rd_c d) (rd_p d) (rd_u d) (rd_v d);
        do r <- exchanges (fst s) (fst c) l';
        Ok (fst r, (snd c, snd s) :: snd r)
    end.
  Definition schedule (d : session_draws) : list (Z * round_draws) := map (fun r => (r, sd_round d r)) rounds.
  (** the transcript of an evaluation *)
  Definition talk (S : server) (C : client) (d : session_draws) : res transcript :=
    do S1 <- prepareKeysAndInputs dbg live e iv S (sd_prep d);
    do r <- exchanges S1 C (schedule d);
    do ms <- sendEncryptedMasks dbg live e iv (fst r) (sd_random d) (sd_u d) (sd_v d);
    Ok (mktr (snd r) ms).

  (** what a client with the given draws makes of a transcript, without any server *)
  Fixpoint replay (C : client) (l : list (Z * round_draws)) (t : list (pkey * otctxts)) : res client :=
    match l, t with
    | (round, d) :: l', (_, c) :: t' =>
        do s <- runOTRound_start dbg live C round (rd_key d);
        do C' <- runOTRound_end dbg live e iv (fst s) round c;
        replay C' l' t'
    | _, _ => Ok C
    end.
  Definition offline (C : client) (d : session_draws) (t : transcript) : res client :=
    do C' <- replay C (schedule d) (tr_rounds t);
    unmaskResult dbg live e iv C' (tr_masks t) (sd_mask d).

  (** an evaluation against what prepareKeysAndInputs left *)
  Definition evaluate (S : server) (C : client) (d : session_draws) : res (server * client) :=
    do SC <- foldM (one_round dbg live e iv) (schedule d) (S, C);
    do masks <- sendEncryptedMasks dbg live e iv (fst SC) (sd_random d) (sd_u d) (sd_v d);
    do C' <- unmaskResult dbg live e iv (snd SC) masks (sd_mask d);
    Ok (fst SC, C').
End Vocabulary.

(** the same draws with other secret keys of the client, by round *)
Definition with_keys (d : session_draws) (f : Z -> Z) : session_draws :=
  mksd (sd_prep d)
    (fun r => let q := sd_round d r in mkrd (f r) (rd_a q) (rd_b q) (rd_c q) (rd_p q) (rd_u q) (rd_v q))
    (sd_random d) (sd_u d) (sd_v d) (sd_mask d).

(** the branch a client with input [x] selects in a round *)
Definition round_bit (x round : Z) : Z := bit x (Z.to_nat (round - 1)).
(** secret keys for which inputs [x] and [x'] publish the same under a CRS whose branches differ by the factor [y] *)
Definition interchange (y x x' : Z) (f f' : Z -> Z) : Prop :=
  forall r, 1 <= r <= 16 -> (order | f' r * y ^ round_bit x' r - f r * y ^ round_bit x r).

(** what someone in between may turn the ciphertext [c] into: the same first point, the second one moved by [k] times the
    generator; all points are finite *)
Definition shift_ctxt (live : Z -> bool) (k : Z) (c c' : ctxt) : Prop :=
  cu c' = cu c /\ finite live (cu c) /\ finite live (cmv c) /\ finite live (cmv c') /\
  den CV (cmv c') = gadd CV (den CV (cmv c)) (gmul CV k (ggen CV)).
(** ... the messages of one round, where only the ciphertexts of the PRF value are touched *)
Definition shift_round (live : Z -> bool) (k : Z) (m m' : pkey * otctxts) : Prop :=
  oc (snd m') = oc (snd m) /\ Forall2 (shift_ctxt live k) (ocprf (snd m)) (ocprf (snd m')).
(** ... a transcript, by [ks] round by round *)
Inductive shift_rounds (live : Z -> bool) : list Z -> list (pkey * otctxts) -> list (pkey * otctxts) -> Prop :=
| shift_end : shift_rounds live [] [] []
| shift_more k ks m m' t t' : shift_round live k m m' -> shift_rounds live ks t t' -> shift_rounds live (k :: ks) (m :: t) (m' :: t').
Definition total (ks : list Z) : Z := fold_right Z.add 0 ks.

(** the input that a list of branches, most significant first, stands for *)
Definition number (bs : list Z) : Z := fold_left (fun z b => 2 * z + b) bs 0.

(** transcripts that differ at most in the curve objects the points of the PRF ciphertexts refer to *)
Definition same_round (m m' : pkey * otctxts) : Prop :=
  fst m = fst m' /\ oc (snd m) = oc (snd m') /\ Forall2 same_ctxt (ocprf (snd m)) (ocprf (snd m')).
Definition same_transcript (t t' : transcript) : Prop :=
  Forall2 same_round (tr_rounds t) (tr_rounds t') /\ tr_masks t = tr_masks t'.

(** what a client with input [x] is to learn nothing about: the draws of the PRF point, of the scalars of the rounds and of
    the ciphertexts the client did not ask for; [agree_on] says that all other draws coincide *)
Record agree_on (x : Z) (d d' : session_draws) : Prop := {
  ag_r : d_r (sd_prep d') = d_r (sd_prep d);
  ag_keys : forall s j, level_key (sd_prep d') s j = level_key (sd_prep d) s j;
  ag_key : forall r, 1 <= r <= 16 -> rd_key (sd_round d' r) = rd_key (sd_round d r);
  ag_letters : forall r, 1 <= r <= 16 -> rd_a (sd_round d' r) = rd_a (sd_round d r) /\ rd_b (sd_round d' r) = rd_b (sd_round d r) /\
    rd_c (sd_round d' r) = rd_c (sd_round d r);
  ag_prf : forall r, 1 <= r <= 16 -> q_s (round_bit x r) (rd_p (sd_round d' r)) = q_s (round_bit x r) (rd_p (sd_round d r)) /\
    q_t (round_bit x r) (rd_p (sd_round d' r)) = q_t (round_bit x r) (rd_p (sd_round d r));
  ag_shuffle : forall r, 1 <= r <= 16 -> rd_u (sd_round d' r) = rd_u (sd_round d r) /\ rd_v (sd_round d' r) = rd_v (sd_round d r);
  ag_rest : sd_random d' = sd_random d /\ sd_u d' = sd_u d /\ sd_v d' = sd_v d /\ sd_mask d' = sd_mask d }.
(** the hidden draws are in the range of the generator *)
Definition hidden_range (x : Z) (d : session_draws) : Prop :=
  draw (d_kopprf (sd_prep d)) /\ (forall j, (j < 16)%nat -> draw (d_ok (sd_prep d) j)) /\
  forall r, 1 <= r <= 16 -> draw (q_s (1 - round_bit x r) (rd_p (sd_round d r))) /\ draw (q_t (1 - round_bit x r) (rd_p (sd_round d r))).
(** ... and are the same *)
Definition same_hidden (x : Z) (d d' : session_draws) : Prop :=
  d_kopprf (sd_prep d) = d_kopprf (sd_prep d') /\ (forall j, (j < 16)%nat -> d_ok (sd_prep d) j = d_ok (sd_prep d') j) /\
  forall r, 1 <= r <= 16 -> q_s (1 - round_bit x r) (rd_p (sd_round d r)) = q_s (1 - round_bit x r) (rd_p (sd_round d' r)) /\
    q_t (1 - round_bit x r) (rd_p (sd_round d r)) = q_t (1 - round_bit x r) (rd_p (sd_round d' r)).
(** the value of the PRF at [x] for the secret [P] *)
Definition prf_value (d : session_draws) (P : point) (x : Z) := gadd CV (gmul CV (d_kopprf (sd_prep d)) (ggen CV)) (gmul CV x (den CV P)).
