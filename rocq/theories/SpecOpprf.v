(** Vocabulary for the statements about the oblivious programmable PRF. *)
From Coq Require Import ZArith Bool List.
From Verif Require Import Outcome FieldModel CurveParams EccModel SpecEcc DmeModel SpecDme OtModel SpecOt CrcModel SpecCrc AesModel SpecAes OpprfModel.
Import ListNotations.
Open Scope Z_scope.

(** bit [j] of a number *)
Definition bit (z : Z) (j : nat) : Z := (z / 2 ^ Z.of_nat j) mod 2.

(** how the numbers compare when their lowest [j] bits are dropped *)
Definition prefix_cmp (x th : Z) (j : nat) : comparison := (x / 2 ^ Z.of_nat j) ?= (th / 2 ^ Z.of_nat j).

(** the key of a letter at a level *)
Definition level_key (d : prep_draws) (s : comparison) (j : nat) : Z :=
  match s with Lt => d_lt d j | Eq => d_eq d j | Gt => d_gt d j end.

Definition same_letter (s s' : comparison) : bool :=
  match s, s' with Lt, Lt | Eq, Eq | Gt, Gt => true | _, _ => false end.

(** where a comparison stands after one more bit *)
Definition refine (s : comparison) (b t : Z) : comparison := match s with Eq => b ?= t | _ => s end.

(** the integer survives the encoding as a curve point (C32) *)
Definition encodable (m : Z) : Prop :=
  0 <= m /\ exists i, 0 <= i < 1024 /\ 1024 * m + i < FIELD_p /\ on_curve_x (1024 * m + i).

Definition q_s (b : Z) (q : quad) : Z := if b =? 0 then q_s0 q else q_s1 q.
Definition q_t (b : Z) (q : quad) : Z := if b =? 0 then q_t0 q else q_t1 q.

(** the sum of f 0, ..., f (n-1) *)
Fixpoint sum_to (f : nat -> Z) (n : nat) : Z := match n with O => 0 | S m => sum_to f m + f m end.

Section Vocabulary.
  Variables (dbg : bool) (live : Z -> bool) (e : env) (iv : list Z).

  (** the proviso of C35 for branch [b], receiver draw [r], sender draws [q], and a message that is [k] times the
      generator: neither point of the decryption is the point at infinity *)
  Definition ot_ok (crs : crs_t) (b r : Z) (q : quad) (k : Z) : Prop :=
    forall a h, multiple live (crs_g b crs) a -> multiple live (crs_h b crs) h ->
    let w := r * (q_s b q * a + q_t b q * h) in ~ (order | w) /\ ~ (order | w + k).
  (** the same for an integer message *)
  Definition ot_ok_int (crs : crs_t) (D : dme) (b r : Z) (q : quad) (m : Z) : Prop :=
    forall P k, encode dbg live D m = Ok P -> multiple live P k -> ot_ok crs b r q k.

  (** a server before prepareKeysAndInputs, with secret [a] times the generator *)
  Record server_ready (S : server) (a : Z) : Prop := {
    sr_ots : dme_ok live (sdme (ots S));
    sr_cur : scur S = dcurve (sdme (ots S));
    sr_theta : 0 <= theta S < 2 ^ 16;
    sr_ga : multiple live (ga S) a;
    sr_keys : k_lt S = [] /\ k_eq S = [] /\ k_gt S = [] /\ ok S = [];
    sr_rows : length (Si0 S) = 16%nat /\ length (Si1 S) = 16%nat }.

  (** a client whose input is [x] *)
  Record client_ready (C : client) (x : Z) : Prop := {
    cr_otr : dme_ok live (rdme (otr C));
    cr_cur : ccur C = dcurve (rdme (otr C));
    cr_x : cx C = Some x /\ 0 <= x < 2 ^ 16;
    cr_result : is_valid live (result C) }.

  (** the quadruple of draws used for the ciphertext of a letter *)
  Definition letter_quad (s : comparison) (d : round_draws) : quad :=
    match s with Lt => rd_a d | Eq => rd_b d | Gt => rd_c d end.

  (** the discrete logarithm of the mask for the letter *)
  Definition mask_log (d : session_draws) (s : comparison) : Z :=
    let p := sd_prep d in
    match s with Gt => sd_random d | _ => d_kopprf p - sum_to (d_ok p) 16 * d_r p end.

  (** the discrete logarithm of what an evaluation adds to the client's result *)
  Definition outcome_log (d : session_draws) (th a x : Z) : Z :=
    let p := sd_prep d in
    x * a + match x ?= th with
            | Gt => sum_to (d_ok p) 16 * d_r p + sd_random d
            | _ => d_kopprf p
            end.

  (** Draws for which nothing degenerates when a server with threshold [th] and secret [a] meets a client with input [x]. *)
  Record good_draws (crs : crs_t) (D : dme) (th a x : Z) (d : session_draws) : Prop := {
    (* sixteen-byte keys *)
    gd_keys : forall s j, (j < 16)%nat -> 2 ^ 120 <= level_key (sd_prep d) s j < 2 ^ 128;
    (* what the selected branch carries is encodable, opens under the client's key if it is meant for it and fails the
       check otherwise *)
    gd_top : encodable (level_key (sd_prep d) (prefix_cmp x th 15) 15);
    gd_link : forall j, (j < 15)%nat -> forall s c,
      encryptCRC e iv (level_key (sd_prep d) s (S j)) (level_key (sd_prep d) (refine s (bit x j) (bit th j)) j) = Ok c ->
      encodable c /\
      decryptCRC e iv (level_key (sd_prep d) (prefix_cmp x th (S j)) (S j)) c =
        Ok (if same_letter s (prefix_cmp x th (S j)) then level_key (sd_prep d) (prefix_cmp x th j) j else 0);
    (* the same for the masks, which are finite *)
    gd_mask : forall s, ~ (order | mask_log d s) /\
      forall P m, multiple live P (mask_log d s) -> getEncodedX dbg live CV P = Ok m ->
      exists c, encryptCRC e iv (level_key (sd_prep d) s 0) m = Ok c /\
        decryptCRC e iv (level_key (sd_prep d) (x ?= th) 0) c = Ok (if same_letter s (x ?= th) then m else 0);
    (* the point that unmaskResult overwrites is finite, so that it has a curve *)
    gd_unmask : ~ (order | sd_mask d);
    (* the oblivious transfers are not degenerate on the selected branch *)
    gd_ot_top : let r := sd_round d 16 in
      ot_ok_int crs D (bit x 15) (rd_key r) (rd_a r) (level_key (sd_prep d) (prefix_cmp x th 15) 15);
    gd_ot_link : forall j, (j < 15)%nat -> forall s c, let r := sd_round d (Z.of_nat (S j)) in
      encryptCRC e iv (level_key (sd_prep d) s (S j)) (level_key (sd_prep d) (refine s (bit x j) (bit th j)) j) = Ok c ->
      ot_ok_int crs D (bit x j) (rd_key r) (letter_quad s r) c;
    gd_ot_prf : forall j, (j < 16)%nat -> let r := sd_round d (Z.of_nat (S j)) in
      ot_ok crs (bit x j) (rd_key r) (rd_p r) (bit x j * 2 ^ Z.of_nat j * a + d_ok (sd_prep d) j * d_r (sd_prep d)) }.

  (** surroundings in which sixteen-byte numbers can be encrypted with a check *)
  Record aes_ready : Prop := {
    ar_block : block_cipher (block e);
    ar_host : big_endian_host e = false;
    ar_iv : exists v, iv_block e iv = Ok v;
    ar_room : 20 <= room e 16 }.

  (** every point the server may transfer is on the curve *)
  Definition rows_valid (S : server) : Prop :=
    is_valid live (lprf (Sl0 S)) /\ is_valid live (lprf (Sl1 S)) /\
    Forall (fun r => is_valid live (iprf r)) (Si0 S) /\ Forall (fun r => is_valid live (iprf r)) (Si1 S).

  (** ** Histories of calls on a server and a client *)
  Inductive event :=
  | EPrepare (d : prep_draws)
  | EServe (round : Z) (pk : pkey) (qa qb qc qp : quad) (u v : Z)
  | EMasks (d u v : Z)
  | ECleanServer (d : Z)
  | EMessage (x : Z)
  | EStart (round d : Z)
  | EFinish (round : Z) (c : otctxts)
  | EUnmask (masks : list Z) (d : Z)
  | ECleanClient.

  Definition happens (SC : server * client) (v : event) : res (server * client) :=
    let (S, C) := SC in
    match v with
    | EPrepare d => do S' <- prepareKeysAndInputs dbg live e iv S d; Ok (S', C)
    | EServe round pk qa qb qc qp u v => do r <- runOTRound dbg live S round pk qa qb qc qp u v; Ok (fst r, C)
    | EMasks d u v => do _ <- sendEncryptedMasks dbg live e iv S d u v; Ok (S, C)
    | ECleanServer d => do S' <- server_clean dbg live S d; Ok (S', C)
    | EMessage x => Ok (S, setMessage C x)
    | EStart round d => do r <- runOTRound_start dbg live C round d; Ok (S, fst r)
    | EFinish round c => do C' <- runOTRound_end dbg live e iv C round c; Ok (S, C')
    | EUnmask ms d => do C' <- unmaskResult dbg live e iv C ms d; Ok (S, C')
    | ECleanClient => Ok (S, client_clean C)
    end.
  (** evaluations one after the other; the server is cleaned after each, the client is not *)
  Definition eval_log (th a : Z) (v : Z * session_draws * Z) : Z := let '(x, d, _) := v in outcome_log d th a x.
  Fixpoint evaluations (l : list (Z * session_draws * Z)) (S : server) (C : client) : res (server * client) :=
    match l with
    | [] => Ok (S, C)
    | (x, d, g) :: l' =>
        do SC <- session dbg live e iv S (setMessage C x) d;
        do S' <- server_clean dbg live (fst SC) g;
        evaluations l' S' (snd SC)
    end.
  Definition history (l : list event) (SC : server * client) : res (server * client) := foldM happens l SC.
End Vocabulary.

(** two computations that fail in the same way or give related results *)
Definition alike {A B} (R : A -> B -> Prop) (r : res A) (r' : res B) : Prop :=
  match r, r' with Ok a, Ok b => R a b | Err f, Err g => f = g | _, _ => False end.

(** the outcome of an evaluation: what the client holds, and the server's PRF point *)
Definition same_outcome (r r' : server * client) : Prop :=
  result (snd r) = result (snd r') /\ key (snd r) = key (snd r') /\ kopprf (fst r) = kopprf (fst r').

(** the draws of [d2], with the keys and scalars of [d1] *)
Definition keep_keys (d1 d2 : prep_draws) : prep_draws :=
  mkpd (d_kopprf d2) (d_r d2) (d_lt d1) (d_eq d1) (d_gt d1) (d_ok d1).
Definition with_prep (d : session_draws) (p : prep_draws) : session_draws :=
  mksd p (sd_round d) (sd_random d) (sd_u d) (sd_v d) (sd_mask d).

(** a server as its constructor leaves it, possibly with a secret set *)
Definition fresh_server (S : server) : Prop :=
  k_lt S = [] /\ k_eq S = [] /\ k_gt S = [] /\ ok S = [] /\ Si0 S = fresh_rows /\ Si1 S = fresh_rows.

(** a CRS of finite points on the curve, whatever curve object they refer to *)
Definition crs_finite (k : crs_t) : Prop :=
  finite all_alive (g0 k) /\ finite all_alive (g1 k) /\ finite all_alive (h0 k) /\ finite all_alive (h1 k).

(** the same draws with other values of rand() in the shuffles *)
Definition reshuffle (d : session_draws) (fu fv : Z -> Z) (u v : Z) : session_draws :=
  mksd (sd_prep d)
    (fun r => let q := sd_round d r in mkrd (rd_key q) (rd_a q) (rd_b q) (rd_c q) (rd_p q) (fu r) (fv r))
    (sd_random d) u v (sd_mask d).
