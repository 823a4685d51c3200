(** Vocabulary for any number of evaluations of the oblivious PRF with a client that sends any public keys it likes. *)
From Coq Require Import ZArith Bool List.
From Verif Require Import Outcome FieldModel CurveParams EccModel SpecEcc DmeModel SpecDme OtModel AesModel OpprfModel SpecOpprf SpecCount SpecDdh SpecDdh3 SpecIdeal.
Import ListNotations.
Open Scope Z_scope.

(** what the client sees of the answer to a key *)
Definition reply : Type := list (list (elt * elt)) * list (elt * elt).
Definition reply_of (o : otctxts) : reply := (map (map view) (oc o), map view (ocprf o)).
(** what it sees of an evaluation: sixteen replies and the masks *)
Definition sight : Type := list reply * list Z.

(** four draws of one transfer *)
Definition fourth : Type := Z * Z * Z * Z.
Definition to_quad (q : fourth) : quad := let '(s0, t0, s1, t1) := q in mkq s0 t0 s1 t1.
(** the draws that belong to a round: the scalar that hides its share, and those of its transfers *)
Definition nonces : Type := Z * (fourth * fourth * fourth * fourth).
Definition in_range (w : nonces) : Prop := let '(o, (qa, qb, qc, qp)) := w in draw o /\ (four qa /\ four qb /\ four qc /\ four qp).
(** the draws of an evaluation: round 16 first, then the PRF key *)
Definition fits (z : list nonces * Z) : Prop := length (fst z) = 16%nat /\ Forall in_range (fst z) /\ draw (snd z).
(** p with these scalars and this PRF key *)
Definition with_shares (p : prep_draws) (k : Z) (ws : list nonces) : prep_draws :=
  mkpd k (d_r p) (d_lt p) (d_eq p) (d_gt p) (fun j => nth (15 - j) (map fst ws) 0).

Section Client.
  Variables (dbg : bool) (live : Z -> bool) (e : env) (iv : list Z).
  (** rounds n, n-1, ..., 1; K makes the next public key of the replies so far *)
  Fixpoint asks (S : server) (K : list reply -> pkey) (d : session_draws) (n : nat) (ws : list nonces) (h : list reply) : res (server * list reply) :=
    match n, ws with
    | Datatypes.S m, (_, (qa, qb, qc, qp)) :: ws' =>
        let r := Z.of_nat n in
        do x <- runOTRound dbg live S r (K h) (to_quad qa) (to_quad qb) (to_quad qc) (to_quad qp) (rd_u (sd_round d r)) (rd_v (sd_round d r));
        asks (fst x) K d m ws' (h ++ [reply_of (snd x)])
    | _, _ => Ok (S, h)
    end.
  (** one evaluation, as in testsuit/test_opprf.cpp:46-70, with the keys of K; g is the draw of clean. The AES keys, the scalar r, the
      shuffles and the random mask are those of d. *)
  Definition evaluated (S : server) (K : list reply -> pkey) (d : session_draws) (g : Z) (z : list nonces * Z) : res (server * sight) :=
    do S1 <- prepareKeysAndInputs dbg live e iv S (with_shares (sd_prep d) (snd z) (fst z));
    do x <- asks S1 K d 16 (fst z) [];
    do ms <- sendEncryptedMasks dbg live e iv (fst x) (sd_random d) (sd_u d) (sd_v d);
    do S2 <- server_clean dbg live (fst x) g;
    Ok (S2, (snd x, ms)).
  (** any number of evaluations; keys and the other draws may depend on all that was seen before *)
  Fixpoint evaluations (S : server) (K : list sight -> list reply -> pkey) (E : list sight -> session_draws * Z) (l : list (list nonces * Z)) (H : list sight) : res (list sight) :=
    match l with
    | [] => Ok H
    | z :: l' =>
        do x <- evaluated S (K H) (fst (E H)) (snd (E H)) z;
        evaluations (fst x) K E l' (H ++ [snd x])
    end.
  (** in how many ways n evaluations end with sights that A says yes to *)
  Definition convinced (run : list (list nonces * Z) -> res (list sight)) (n : nat) (A : list sight -> bool) (N : Z) : Prop :=
    how_many (fun l => length l = n /\ Forall fits l /\ exists H, run l = Ok H /\ A H = true) N.
End Client.
