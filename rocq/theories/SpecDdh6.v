(** Vocabulary for the reductions to the decisional Diffie-Hellman problem: someone who listens to an evaluation of the
    oblivious PRF. *)
From Coq Require Import ZArith Bool List.
From Verif Require Import Outcome FieldModel CurveParams EccModel SpecEcc ECOrder DmeModel SpecDme OtModel AesModel OpprfModel SpecOpprf SpecOpprf2 SpecCount SpecDdh SpecDdh2 SpecDdh3 SpecDdh4.
Import ListNotations.
Open Scope Z_scope.

(** the conversation of an evaluation at x: in each round a key, then two or four pairs of ciphertexts *)
Definition round_steps (x r : Z) : list step := Key (round_bit x r) :: if r =? BITS then [Pair; Pair] else [Pair; Pair; Pair; Pair].
Definition script (x : Z) : list step := flat_map (round_steps x) rounds.

(** draws of a conversation dealt to the rounds; shuffles are taken from d *)
Definition quad_of (l : list Z) : quad := mkq (nth 0 l 0) (nth 1 l 0) (nth 2 l 0) (nth 3 l 0).
Fixpoint deal (d : session_draws) (rs : list Z) (ds : list (list Z)) : list (Z * round_draws) :=
  match rs with
  | [] => []
  | r :: rs' =>
      let u := rd_u (sd_round d r) in let v := rd_v (sd_round d r) in
      if r =? BITS then
        match ds with [k] :: a :: p :: ds' => (r, mkrd k (quad_of a) (quad_of []) (quad_of []) (quad_of p) u v) :: deal d rs' ds' | _ => [] end
      else
        match ds with [k] :: a :: b :: c :: p :: ds' => (r, mkrd k (quad_of a) (quad_of b) (quad_of c) (quad_of p) u v) :: deal d rs' ds' | _ => [] end
  end.
(** d with the draws of the transfers replaced *)
Definition look (l : list (Z * round_draws)) (r : Z) : round_draws :=
  match find (fun p => fst p =? r) l with Some p => snd p | None => mkrd 0 (quad_of []) (quad_of []) (quad_of []) (quad_of []) 0 0 end.
Definition dealt (d : session_draws) (ds : list (list Z)) : session_draws :=
  mksd (sd_prep d) (look (deal d rounds ds)) (sd_random d) (sd_u d) (sd_v d) (sd_mask d).

(** what is heard of a round: the key, three lists of ciphertexts, and the ciphertexts of the PRF *)
Definition sound : Type := (elt * elt) * (list (list (elt * elt)) * list (elt * elt)).
Definition wire (m : pkey * otctxts) : sound := (elts (fst m), (map (map view) (oc (snd m)), map view (ocprf (snd m)))).
(** the same from the items of a conversation *)
Fixpoint arrange (d : session_draws) (rs : list Z) (h : heard) : list sound :=
  match rs with
  | [] => []
  | r :: rs' =>
      if r =? BITS then
        match h with [k] :: a :: p :: h' => (k, ([a; []; []], p)) :: arrange d rs' h' | _ => [] end
      else
        match h with [k] :: a :: b :: c :: p :: h' => (k, (shuffle3 [a; b; c] (rd_u (sd_round d r)) (rd_v (sd_round d r)), p)) :: arrange d rs' h' | _ => [] end
  end.

(** threshold, secret and all draws but those of the transfers may depend on the coin, which A sees *)
Record setting (T : Type) := mkset { s_theta : T -> Z; s_gk : T -> Z; s_secret : T -> point; s_draws : T -> session_draws }.
Arguments s_theta {T} _ _. Arguments s_gk {T} _ _. Arguments s_secret {T} _ _. Arguments s_draws {T} _ _. Arguments mkset {T} _ _ _ _.

Section Games.
  Variables (dbg : bool) (live : Z -> bool) (e : env) (iv : list Z).

  (** a server with threshold th and secret P, from the constructor to just before the evaluation *)
  Definition serves (c : Z) (k : crs_t) (th g : Z) (P : point) : res server :=
    do V <- server_new dbg live c th k g; do r <- setSecret dbg live V P; Ok (fst r).
  (** what does not involve the string: preparing, and the masks at the end *)
  Definition offstage (c th g : Z) (P : point) (d : session_draws) : res (server * list Z) :=
    do V <- serves c crs_default th g P;
    do V1 <- prepareKeysAndInputs dbg live e iv V (sd_prep d);
    do ms <- sendEncryptedMasks dbg live e iv V1 (sd_random d) (sd_u d) (sd_v d);
    Ok (V1, ms).

  (** the string is that of DME_DDH() on curve c; the client copies it to c1, the server to c2 *)
  Definition wire_guess (c c1 c2 x : Z) {T} (s : setting T) (coin : T -> Prop) (A : T -> four -> list sound -> list Z -> bool) (N : Z) : Prop :=
    how_many (fun '(t, r1, r2, r3, r4, ds) => coin t /\ draw r1 /\ draw r2 /\ draw r3 /\ draw r4 /\ shaped (script x) ds /\
      exists D S tr, dme_new_random dbg live c r1 r2 r3 r4 = Ok D /\ serves c2 (dcrs D) (s_theta s t) (s_gk s t) (s_secret s t) = Ok S /\
        talk dbg live e iv S (setMessage (client_new c1 (dcrs D)) x) (dealt (s_draws s t) ds) = Ok tr /\
        A t (crs_view (dcrs D)) (map wire (tr_rounds tr)) (tr_masks tr) = true) N.

  (** the pairs of messages of the server, step by step; there is none where a key is sent *)
  Definition point_of (c m : Z) : point := match encode dbg live (dme_new_crs c crs_default) m with Ok P => P | Err _ => pt_inf CV end.
  Definition no_message : point * point := (pt_inf CV, pt_inf CV).
  Definition round_says (c : Z) (S : server) (r : Z) : list (point * point) :=
    no_message ::
    if r =? BITS then [(point_of c (lk (Sl0 S)), point_of c (lk (Sl1 S))); (lprf (Sl0 S), lprf (Sl1 S))]
    else
      let r0 := nth (Z.to_nat r) (Si0 S) inputi_default in let r1 := nth (Z.to_nat r) (Si1 S) inputi_default in
      [(point_of c (ilt r0), point_of c (ilt r1)); (point_of c (ieq r0), point_of c (ieq r1)); (point_of c (igt r0), point_of c (igt r1)); (iprf r0, iprf r1)].
  Definition says (c : Z) {T} (s : setting T) (t : T) (k : four) (h : heard) : point * point :=
    match offstage c (s_theta s t) (s_gk s t) (s_secret s t) (s_draws s t) with
    | Ok (V, _) => nth (length h) (flat_map (round_says c V) rounds) no_message
    | Err _ => no_message
    end.
  (** A on a conversation *)
  Definition hears (c : Z) {T} (s : setting T) (A : T -> four -> list sound -> list Z -> bool) (t : T) (k : four) (h : heard) : bool :=
    match offstage c (s_theta s t) (s_gk s t) (s_secret s t) (s_draws s t) with
    | Ok (_, ms) => A t k (arrange (s_draws s t) rounds h) ms
    | Err _ => false
    end.
  (** the server's own work succeeds, and the points it has for the client are on the curve *)
  Definition all_set (c : Z) {T} (s : setting T) (t : T) : Prop :=
    exists S ms, offstage c (s_theta s t) (s_gk s t) (s_secret s t) (s_draws s t) = Ok (S, ms) /\ rows_valid live S.
End Games.
