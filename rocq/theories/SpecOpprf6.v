(** Vocabulary for the statements about any history of calls on one server of the oblivious PRF. *)
From Coq Require Import ZArith Bool List.
From Verif Require Import Outcome FieldModel ZpField ECGroup ECOrder CurveParams EccModel SpecEcc DmeModel SpecDme OtModel SpecOt CrcModel SpecCrc AesModel SpecAes OpprfModel SpecOpprf.
Import ListNotations.
Open Scope Z_scope.

(** What counts of the preparations so far: after clean() nothing; otherwise the keys and scalars of the first preparation since
    then and the points of the last one. *)
Definition effect (st : option prep_draws) (v : event) : option prep_draws :=
  match v with
  | EPrepare d => Some (match st with None => d | Some p => keep_keys p d end)
  | ECleanServer _ => None
  | _ => st
  end.
Definition effective (l : list event) : option prep_draws := fold_left effect l None.

(** The multiple of the generator is finite, has a nonzero abscissa, and malloc's block for its code has room for the four bytes of the
    check (src/crc.cpp writes them without asking for room, see C47). *)
Definition visible (e : env) (k : Z) : Prop :=
  match gmul CV k (ggen CV) with
  | Some (X, _) => let x := val (c_prime CV) X in
      x <> 0 /\ forall m, m = 2 * x \/ m = 2 * x + 1 -> nbytes m + 4 <= room e (nbytes m)
  | None => False
  end.

(** the logarithm of the mask *)
Definition mask_of_prep (p : prep_draws) : Z := d_kopprf p - sum_to (d_ok p) 16 * d_r p.

(** A call that a server in the state [st] can answer. Only the first preparation after clean() needs keys of sixteen bytes. *)
Definition proper (e : env) (live : Z -> bool) (st : option prep_draws) (v : event) : Prop :=
  match v with
  | EPrepare d => st = None -> forall s j, (j < 16)%nat -> 2 ^ 120 <= level_key d s j < 2 ^ 128
  | EServe round pk _ _ _ _ _ _ => 0 <= round <= 16 /\ pk_valid live pk
  | EMasks d _ _ => exists p, st = Some p /\ visible e (mask_of_prep p) /\ visible e d
  | ECleanServer _ | EMessage _ | ECleanClient => True
  | EStart _ _ | EFinish _ _ | EUnmask _ _ => False
  end.
Fixpoint proper_history (e : env) (live : Z -> bool) (st : option prep_draws) (l : list event) : Prop :=
  match l with [] => True | v :: l' => proper e live st v /\ proper_history e live (effect st v) l' end.

(** ** Asking for a round again *)
(** the point that branch [b] of a round transfers *)
Definition share (S : server) (round b : Z) : point :=
  if round =? 16 then lprf (if b =? 0 then Sl0 S else Sl1 S)
  else match nth_error (if b =? 0 then Si0 S else Si1 S) (Z.to_nat round) with Some r => iprf r | None => pt_inf CV end.

Definition is_prepare (v : event) : Prop := match v with EPrepare _ => True | _ => False end.
(** the round has something to transfer: some preparation at all for round 16, one since the last clean() for the others *)
Definition loaded (l : list event) (round : Z) : Prop :=
  if round =? 16 then exists v, In v l /\ is_prepare v else effective l <> None.
(** a call that leaves the round as it is *)
Definition quiet (round : Z) (v : event) : Prop :=
  match v with EPrepare _ => False | ECleanServer _ => round = 16 | _ => True end.

(** the inverse of 2^k modulo the order *)
Definition halve (k : Z) : Z := ((order + 1) / 2) ^ k.

(** the client continues with the key of another *)
Definition with_key (C : client) (k : Z) : client := mkcli (otr C) (ccur C) (cx C) (result C) k.

(** the masks of these draws open under the key of the letter [s0], and only the one meant for it *)
Definition masks_open (dbg : bool) (live : Z -> bool) (e : env) (iv : list Z) (d : session_draws) (s0 : comparison) : Prop :=
  forall s, ~ (order | mask_log d s) /\
    forall P m, multiple live P (mask_log d s) -> getEncodedX dbg live CV P = Ok m ->
    exists c, encryptCRC e iv (level_key (sd_prep d) s 0) m = Ok c /\
      decryptCRC e iv (level_key (sd_prep d) s0 0) c = Ok (if same_letter s s0 then m else 0).
