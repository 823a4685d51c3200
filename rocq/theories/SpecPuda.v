(** Vocabulary for the statements about private data aggregation. *)
From Coq Require Import ZArith Bool List.
From Verif Require Import Outcome FieldModel ECGroup ECOrder CurveParams EccModel SpecEcc DmeModel SpecDme SpecOt PudaModel.
Import ListNotations.
Open Scope Z_scope.

(** a uint16_t *)
Definition u16 (m : Z) : Prop := 0 <= m < 65536.

(** a run of the scheme: every user encrypts and tags one message at time t, then the aggregator aggregates *)
Record outcome := mkout { o_pp : pp_t; o_vk : vk_t; o_ctxts : list point; o_tags : list point; o_sum : Z; o_tag : point }.
Definition session (dbg : bool) (live : Z -> bool) (c1 c2 rh ra : Z) (ds : list (Z * Z)) (ms : list Z) (t : Z) : res outcome :=
  do s <- Setup dbg live (puda_new c1 c2) rh ra ds;
  let '(pp, (ekv, skv, ak, vk)) := s in
  do cs <- mapM (fun x => PEnc dbg live pp (fst x) (snd x) t) (combine ekv ms);
  do ts <- mapM (fun x => PTag dbg live pp (fst x) (snd x) t) (combine skv ms);
  do r <- Agg dbg live pp ak cs ts t;
  Ok (mkout pp vk cs ts (fst r) (snd r)).

(** Computations open to anyone who sees ciphertexts or tags, from the operators of the library. *)
Section Attacks.
  Variables (dbg : bool) (live : Z -> bool).
  (** from the ciphertext [c] of a known message [m]; [w] inverts its timestamp modulo the order *)
  Definition key_point (pp : pp_t) (c : point) (m w : Z) : res point :=
    do x <- pmulz dbg live CV (ppg1 pp) (- m);
    do y <- padd dbg live CV c x;
    pmulz dbg live CV y w.
  Definition open_with (pp : pp_t) (K c : point) (t : Z) : res Z :=
    do x <- pmulz dbg live CV K (- t);
    do y <- padd dbg live CV c x;
    compute_dlog dbg live pp y.
  (** a combination of two tags *)
  Definition combine_tags (T1 T2 : point) (x y : Z) : res point :=
    do a <- pmulz dbg live CV T1 x;
    do b <- pmulz dbg live CV T2 y;
    padd dbg live CV a b.
End Attacks.

(** an int *)
Definition int32 (t : Z) : Prop := - 2 ^ 31 <= t < 2 ^ 31.
