(** Vocabulary for the statements about oblivious transfer. *)
From Coq Require Import ZArith Bool List.
From Verif Require Import Outcome FieldModel ECGroup ECOrder CurveParams EccModel SpecEcc DmeModel SpecDme OtModel.
Import ListNotations.
Open Scope Z_scope.

(** what a receiver may be asked to do, in any order *)
Inductive rop := Select (b : branch_t) (r : Z) | Decrypt (c : list ctxt) | DecryptDecode (c : list ctxt).

(** a history of a receiver; the second component is the public key published last *)
Fixpoint recv_run (dbg : bool) (live : Z -> bool) (s : otrecv * option pkey) (h : list rop) : res (otrecv * option pkey) :=
  match h with
  | [] => Ok s
  | Select b r :: h' => do x <- selectMsg dbg live (fst s) b r; recv_run dbg live (fst x, Some (snd x)) h'
  | Decrypt c :: h' => do _ <- decryptMsg dbg live (fst s) c; recv_run dbg live s h'
  | DecryptDecode c :: h' => do _ <- decryptMsgDecode dbg live (fst s) c; recv_run dbg live s h'
  end.

(** the last selection of a history *)
Definition is_select (o : rop) : bool := match o with Select _ _ => true | _ => false end.
Definition last_selection (h : list rop) : option rop := find is_select (rev h).

(** the group sum of the points *)
Definition total (ps : list point) : ept (c_prime CV) := fold_right (fun P e => gadd CV (den CV P) e) None ps.

(** one sender of the distributed transfer: its object, its two messages, its draws *)
Record sender := mksender { snd_o : otsndr; snd_m0 : point; snd_m1 : point; snd_s0 : Z; snd_t0 : Z; snd_s1 : Z; snd_t1 : Z }.
Definition send (dbg : bool) (live : Z -> bool) (pk : pkey) (x : sender) : res (list ctxt) :=
  do y <- encMsgs dbg live (snd_o x) pk (snd_m0 x) (snd_m1 x) (snd_s0 x) (snd_t0 x) (snd_s1 x) (snd_t1 x); Ok (snd y).
Definition snd_msg (b : branch_t) (x : sender) : point := if b =? 0 then snd_m0 x else snd_m1 x.
Definition sender_ok (live : Z -> bool) (D : dme) (x : sender) : Prop :=
  dme_ok live (sdme (snd_o x)) /\ same_crs (dcrs (sdme (snd_o x))) (dcrs D) /\
  is_valid live (snd_m0 x) /\ is_valid live (snd_m1 x).
(** the draws of a sender on branch [b] *)
Definition snd_s (b : branch_t) (x : sender) : Z := if b =? 0 then snd_s0 x else snd_s1 x.
Definition snd_t (b : branch_t) (x : sender) : Z := if b =? 0 then snd_t0 x else snd_t1 x.
Definition sumz (l : list Z) : Z := fold_right Z.add 0 l.
(** the branch-[b] half of a CRS *)
Definition crs_g (b : branch_t) (k : crs_t) : point := if b =? 0 then g0 k else g1 k.
Definition crs_h (b : branch_t) (k : crs_t) : point := if b =? 0 then h0 k else h1 k.
