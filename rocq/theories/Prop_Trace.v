(** Property C84: which point operations are performed depends on the scalars (includes/ecc_template.hpp, src/dme/dme.cpp).
    [pmul_t] and the others are the functions of the model with their events; [observed] is what an onlooker who tells
    doublings from additions makes of the events. *)
From Coq Require Import ZArith Bool List.
From Verif Require Import Outcome FieldModel SpecField CurveParams EccModel SpecEcc DmeModel SpecDme TraceModel SpecTrace EccProofs EccThms TraceProofs Prop_Ecc.
Import ListNotations.
Open Scope Z_scope.

(** Recording the events changes no outcome. *)
Theorem C84_outcomes : forall dbg live k P Q s D b r r' kp m sk c, let C := params k in
  snd (padd_t dbg live C P Q) = padd dbg live C P Q /\ snd (psub_t dbg live C P Q) = psub dbg live C P Q /\
  snd (pmul_t dbg live C P s) = pmul dbg live C P s /\
  snd (getRandomPoint_t dbg live C (dcurve D) r) = getRandomPoint dbg live C (dcurve D) r /\
  snd (KeyGen_t dbg live D b r) = KeyGen dbg live D b r /\
  snd (Enc_t dbg live D kp b m r r') = Enc dbg live D kp b m r r' /\ snd (Dec_t dbg live sk c) = Dec dbg live sk c.
Proof.
  exact (fun dbg live k P Q s D b r r' kp m sk c => conj (padd_snd dbg live (params k) P Q) (conj (psub_snd dbg live (params k) P Q)
    (conj (pmul_snd dbg live (params k) P s) (conj (random_snd dbg live (params k) (dcurve D) r) (conj (KeyGen_snd dbg live D b r)
    (conj (Enc_snd dbg live D kp b m r r') (Dec_snd dbg live sk c))))))).
Qed.
Print Assumptions C84_outcomes.

(** C84. P*s doubles log2(s) times and adds once for every binary digit 1 of s (the first time to the point at infinity); the
    sequence of doublings and additions is s. *)
Theorem C84_scalar : forall k dbg live P s, let C := params k in finite_valid live C P -> canon (fieldn C) s ->
  exists l, pmul_t dbg live C P s = (Multiply :: l ++ [Done], pmul dbg live C P s) /\
    observed (Multiply :: l ++ [Done]) = [fval s] /\
    occurrences Double l = Z.log2 (fval s) /\ occurrences Opposite l = 0 /\
    forall k, fval s < 2 ^ Z.of_nat k -> occurrences Copy l + occurrences Chord l = ones k (fval s) /\
      occurrences Copy l = Z.min 1 (ones k (fval s)).
Proof. exact (fun k dbg live => L_C84_scalar dbg live (params k) (good_params k)). Qed.
Print Assumptions C84_scalar.

(** The discrete logarithm of a random point is read off its creation. *)
Theorem C84_random : forall k dbg live c r, let C := params k in live c = true ->
  observed (fst (getRandomPoint_t dbg live C (Some c) r)) = [r mod c_order C].
Proof. exact L_C84_random. Qed.
Print Assumptions C84_random.

(** A secret key is read off its creation and off its use. *)
Theorem C84_keys : forall dbg live D b r kp, KeyGen dbg live D b r = Ok kp -> branch b ->
  finite live (g0 (dcrs D)) -> finite live (g1 (dcrs D)) -> finite live (h0 (dcrs D)) -> finite live (h1 (dcrs D)) ->
  observed (fst (KeyGen_t dbg live D b r)) = [fval (ksk kp); fval (ksk kp)].
Proof. exact L_C84_keys. Qed.
Print Assumptions C84_keys.

Theorem C84_decrypt : forall dbg live sk c, finite live (cu c) -> scal sk -> observed (fst (Dec_t dbg live sk c)) = [fval sk].
Proof. exact L_C84_decrypt. Qed.
Print Assumptions C84_decrypt.

(** A message is read off its encryption, with the public key and no secret. *)
Theorem C84_encrypt : forall dbg live D pk b m r1 r2 c, Enc dbg live D pk b m r1 r2 = Ok c -> branch b -> is_valid live m ->
  finite live (g0 (dcrs D)) -> finite live (g1 (dcrs D)) -> finite live (h0 (dcrs D)) -> finite live (h1 (dcrs D)) ->
  finite live (pg pk) -> finite live (ph pk) ->
  exists s t, observed (fst (Enc_t dbg live D pk b m r1 r2)) = [s; t; s; t] /\
    den CV m = gadd CV (den CV (cmv c)) (gneg CV (gadd CV (gmul CV s (den CV (pg pk))) (gmul CV t (den CV (ph pk))))).
Proof. exact L_C84_encrypt. Qed.
Print Assumptions C84_encrypt.

(** 11 = 1011 in binary; one decryption with the key 6 *)
Example C84_case : fst (pmul_t false all_alive bn254 (gen bn254 1) (mkfe 11 (fieldn bn254))) =
    [Multiply; Copy; Double; Chord; Double; Double; Chord; Done] /\
  observed [Multiply; Copy; Double; Chord; Double; Double; Chord; Done] = [11] /\
  observed (fst (Dec_t true all_alive (mkfe 6 FIELD_n) (mkct (gen CV 1) (gen CV 1)))) = [6].
Proof.
  split; [|split; [reflexivity|]].
  - rewrite (pmul_steps false all_alive bn254 (good_params Bn254)); [reflexivity|exact (gen_valid Bn254 all_alive 1 eq_refl)|].
    split; vm_compute; [discriminate|reflexivity].
  - apply (C84_decrypt true all_alive (mkfe 6 FIELD_n)); [exact (gen_valid Secp256r1 all_alive 1 eq_refl)|].
    split; [reflexivity|split; vm_compute; [discriminate|reflexivity]].
Qed.
