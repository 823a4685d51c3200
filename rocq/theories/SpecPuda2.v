(** Vocabulary for what the aggregator of private data aggregation sees. *)
From Coq Require Import ZArith Bool List.
From Verif Require Import Outcome FieldModel CurveParams EccModel DmeModel SpecDme SpecOt PudaModel.
Import ListNotations.
Open Scope Z_scope.

(** parameters, aggregation key and verification key, and one ciphertext and one tag of every user *)
Record view_t := mkview { v_pp : pp_t; v_ak : fe; v_vk : vk_t; v_ctxts : list point; v_tags : list point }.
Definition view (dbg : bool) (live : Z -> bool) (c1 c2 rh ra : Z) (ds : list (Z * Z)) (ms : list Z) (t : Z) : res view_t :=
  do s <- Setup dbg live (puda_new c1 c2) rh ra ds;
  let '(pp, (ekv, skv, ak, vk)) := s in
  do cs <- mapM (fun x => PEnc dbg live pp (fst x) (snd x) t) (combine ekv ms);
  do ts <- mapM (fun x => PTag dbg live pp (fst x) (snd x) t) (combine skv ms);
  Ok (mkview pp ak vk cs ts).
Definition same_view (v v' : view_t) : Prop :=
  v_pp v = v_pp v' /\ v_ak v = v_ak v' /\
  same_point (vk_1 (v_vk v)) (vk_1 (v_vk v')) /\ same_point (vk_2 (v_vk v)) (vk_2 (v_vk v')) /\
  Forall2 same_point (v_ctxts v) (v_ctxts v') /\ Forall2 same_point (v_tags v) (v_tags v').

(** reduced draws of the two keys of a user *)
Definition draws (d : Z * Z) : Prop := 0 <= fst d < order /\ 0 <= snd d < order.

(** [t2 * A - t1 * B], by the operators of the library *)
Definition cross (dbg : bool) (live : Z -> bool) (A B : point) (t1 t2 : Z) : res point :=
  do x <- pmulz dbg live CV A t2;
  do y <- pmulz dbg live CV B (- t1);
  padd dbg live CV x y.
