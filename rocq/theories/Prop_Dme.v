(** Properties C26-C34, C66 and C67: dual-mode encryption (src/dme). *)
From Coq Require Import ZArith Bool List Lia.
From Verif Require Import Outcome FieldModel SpecField CurveParams EccModel SpecEcc DmeModel SpecDme DmeProofs DmeProofs2.
Import ListNotations.
Open Scope Z_scope.

(** The encryption objects of the library satisfy the hypothesis [dme_ok] below. *)
Theorem C26_constructors : forall dbg live c mu r1 r2 r3 r4, live c = true ->
  (exists D, dme_new dbg live c mu r1 r2 r3 r4 = Ok D /\ dme_ok live D) /\
  (exists D, dme_new_random dbg live c r1 r2 r3 r4 = Ok D /\ dme_ok live D).
Proof. exact L_new_ok. Qed.
Print Assumptions C26_constructors.

(** Receiving a CRS of finite points (whose curve may be gone) keeps the points. *)
Theorem C26_received_crs : forall live c k, live c = true -> finite all_alive (g0 k) -> finite all_alive (g1 k) ->
  finite all_alive (h0 k) -> finite all_alive (h1 k) ->
  dme_ok live (dme_new_crs c k) /\ same_crs (dcrs (dme_new_crs c k)) k.
Proof. exact L_new_crs. Qed.
Print Assumptions C26_received_crs.

(** C26: decryption inverts encryption on the branch the key was generated for. *)
Theorem C26_decrypts : forall dbg live D b r s t m, dme_ok live D -> branch b -> is_valid live m ->
  exists kp c us, KeyGen dbg live D b r = Ok kp /\ Enc dbg live D (kpk kp) b m s t = Ok c /\
    pmul dbg live CV (cu c) (ksk kp) = Ok us /\ pk_valid live (kpk kp) /\ ct_valid live c /\
    (pinf us = false -> pinf (cmv c) = false -> yields live CV (Dec dbg live (ksk kp) c) (den CV m)).
Proof. exact L_C26. Qed.
Print Assumptions C26_decrypts.

(** When the proviso fails, in terms of the discrete logarithms of the CRS and of the message. *)
Theorem C26_condition : forall dbg live D b r s t m a0 a1 b0 b1 k, dme_ok live D -> branch b ->
  multiple live (g0 (dcrs D)) a0 -> multiple live (g1 (dcrs D)) a1 ->
  multiple live (h0 (dcrs D)) b0 -> multiple live (h1 (dcrs D)) b1 -> multiple live m k ->
  exists kp c us, KeyGen dbg live D b r = Ok kp /\ Enc dbg live D (kpk kp) b m s t = Ok c /\
    pmul dbg live CV (cu c) (ksk kp) = Ok us /\
    let w := if b =? 0 then s * a0 + t * b0 else s * a1 + t * b1 in
    (pinf us = true <-> (order | r * w)) /\ (pinf (cmv c) = true <-> (order | r * w + k)).
Proof. exact L_C26_condition. Qed.
Print Assumptions C26_condition.

(** The integer interface: what comes out is what decoding the encoded integer gives (see C32). *)
Theorem C26_integer : forall dbg live D b r m s t, dme_ok live D -> branch b ->
  exists kp c us R, KeyGen dbg live D b r = Ok kp /\ encode dbg live D m = Ok R /\
    EncZ dbg live D (kpk kp) b m s t = Ok c /\ pmul dbg live CV (cu c) (ksk kp) = Ok us /\
    (pinf us = false -> pinf (cmv c) = false -> DecDecode dbg live (ksk kp) c = Ok (decode R)).
Proof. exact L_C26_integer. Qed.
Print Assumptions C26_integer.

(** exponents 2, 3, g0 = G, g1 = 2G, secret 2, message G, draws 1, 1 *)
Example C26_case : forall dbg live c, live c = true ->
  exists D kp ct us, dme_new dbg live c messy 2 3 1 2 = Ok D /\ KeyGen dbg live D 0 2 = Ok kp /\
    Enc dbg live D (kpk kp) 0 (gen CV c) 1 1 = Ok ct /\ pmul dbg live CV (cu ct) (ksk kp) = Ok us /\
    pinf us = false /\ pinf (cmv ct) = false /\ yields live CV (Dec dbg live (ksk kp) ct) (ggen CV).
Proof. exact L_C26_case. Qed.

(** C27: the proviso is necessary. *)
Theorem C27_degenerate : forall dbg live D b r s t m kp c us,
  dme_ok live D -> branch b -> is_valid live m ->
  KeyGen dbg live D b r = Ok kp -> Enc dbg live D (kpk kp) b m s t = Ok c ->
  pmul dbg live CV (cu c) (ksk kp) = Ok us ->
  (pinf us = true <-> (order | r) \/ pinf (cu c) = true) /\
  (pinf us = true \/ pinf (cmv c) = true ->
   if dbg then Dec dbg live (ksk kp) c = Err NullDeref
   else exists R, Dec dbg live (ksk kp) c = Ok R /\ ~ (is_valid live R /\ same_point R m)).
Proof. exact L_C27. Qed.
Print Assumptions C27_degenerate.

(** secret key 0: the ciphertext decrypts to something else *)
Example C27_case : forall dbg live c, live c = true ->
  exists D kp ct, dme_new dbg live c messy 2 3 1 2 = Ok D /\ KeyGen dbg live D 0 0 = Ok kp /\
    Enc dbg live D (kpk kp) 0 (gen CV c) 1 1 = Ok ct /\
    if dbg then Dec dbg live (ksk kp) ct = Err NullDeref
    else exists R, Dec dbg live (ksk kp) ct = Ok R /\ ~ (is_valid live R /\ same_point R (gen CV c)).
Proof. exact L_C27_case. Qed.

(** C28: FindMessy names the branch the key was not generated for. *)
Theorem C28_find_messy : forall dbg live c r1 r2 r3 r4 b r, live c = true -> branch b ->
  ~ (order | r1 - r2) -> ~ (order | r3) -> ~ (order | r4) -> ~ (order | r) ->
  exists D kp, dme_new dbg live c messy r1 r2 r3 r4 = Ok D /\ KeyGen dbg live D b r = Ok kp /\
    FindMessy dbg live D (kpk kp) = Ok (1 - b).
Proof. exact L_C28. Qed.
Print Assumptions C28_find_messy.

Example C28_case : forall dbg live c, live c = true ->
  exists D kp, dme_new dbg live c messy 2 3 1 2 = Ok D /\ KeyGen dbg live D 0 2 = Ok kp /\
    FindMessy dbg live D (kpk kp) = Ok 1.
Proof. exact L_C28_case. Qed.

(** C29: on the branch FindMessy names, every ciphertext of m is a ciphertext of m' under exactly one
    pair of draws. *)
Theorem C29_hides : forall dbg live c r1 r2 r3 r4 D pk b m m' s t, live c = true ->
  ~ (order | r1 - r2) -> ~ (order | r3) -> ~ (order | r4) ->
  dme_new dbg live c messy r1 r2 r3 r4 = Ok D ->
  pk_valid live pk -> FindMessy dbg live D pk = Ok b -> (b = 1 -> pinf (pg pk) = false) ->
  is_valid live m -> is_valid live m' ->
  exists ct s' t', Enc dbg live D pk b m s t = Ok ct /\ draw s' /\ draw t' /\
    (exists ct', Enc dbg live D pk b m' s' t' = Ok ct' /\ same_ctxt ct' ct) /\
    (forall s2 t2, draw s2 -> draw t2 ->
      (exists ct', Enc dbg live D pk b m' s2 t2 = Ok ct' /\ same_ctxt ct' ct) -> s2 = s' /\ t2 = t').
Proof. exact L_C29. Qed.
Print Assumptions C29_hides.

(** Without the proviso on g it fails: for the key of two infinities FindMessy answers 1, but encryption
    on branch 1 leaves the message in the clear. *)
Theorem C29_infinite_key_refuted : forall dbg live c r1 r2 r3 r4 m s t, live c = true -> is_valid live m ->
  exists D ct, dme_new dbg live c messy r1 r2 r3 r4 = Ok D /\
    pk_valid live pkey_default /\ FindMessy dbg live D pkey_default = Ok 1 /\
    Enc dbg live D pkey_default 1 m s t = Ok ct /\ same_point (cmv ct) m.
Proof. exact L_C29_infinity. Qed.
Print Assumptions C29_infinite_key_refuted.

(** a branch-0 key on branch 1, messages G and infinity *)
Example C29_case : forall dbg live c, live c = true ->
  exists D kp, dme_new dbg live c messy 2 3 1 2 = Ok D /\ KeyGen dbg live D 0 2 = Ok kp /\
    pk_valid live (kpk kp) /\ FindMessy dbg live D (kpk kp) = Ok 1 /\ pinf (pg (kpk kp)) = false /\
    ~ (order | 2 - 3) /\ ~ (order | 1) /\ ~ (order | 2) /\
    is_valid live (gen CV c) /\ is_valid live (pt_inf CV).
Proof. exact L_C29_case. Qed.

(** C30: in decryption mode the two trapdoor keys open the two branches. *)
Theorem C30_trapdoor : forall dbg live c r1 r2 r3 r4 r b m s t, live c = true -> ~ (order | r1) -> branch b -> is_valid live m ->
  exists D pk sk0 sk1 ct us, dme_new dbg live c dec r1 r2 r3 r4 = Ok D /\ TrapKeyGen dbg live D r = Ok (pk, sk0, sk1) /\
    Enc dbg live D pk b m s t = Ok ct /\
    let sk := if b =? 0 then sk0 else sk1 in
    pmul dbg live CV (cu ct) sk = Ok us /\
    (pinf us = false -> pinf (cmv ct) = false -> yields live CV (Dec dbg live sk ct) (den CV m)) /\
    let w := r * (r2 * (s + t * r3)) in
    (pinf us = true <-> (order | w)) /\
    (forall k, multiple live m k -> (pinf (cmv ct) = true <-> (order | w + k))).
Proof. exact L_C30. Qed.
Print Assumptions C30_trapdoor.

Theorem C30_zero_trapdoor : forall dbg live c r1 r2 r3 r4 r, live c = true -> (order | r1) ->
  exists D, dme_new dbg live c dec r1 r2 r3 r4 = Ok D /\ TrapKeyGen dbg live D r = Err NoInverse.
Proof. exact L_C30_zero. Qed.
Print Assumptions C30_zero_trapdoor.

(** trapdoor 2, secret 4, branch 1 *)
Example C30_case : forall dbg live c, live c = true ->
  exists D pk sk0 sk1 ct, dme_new dbg live c dec 2 1 3 0 = Ok D /\ TrapKeyGen dbg live D 4 = Ok (pk, sk0, sk1) /\
    Enc dbg live D pk 1 (gen CV c) 1 1 = Ok ct /\ yields live CV (Dec dbg live sk1 ct) (ggen CV).
Proof. exact L_C30_case. Qed.

(** C31: in decryption mode a public key carries no information about its branch. *)
Theorem C31_hides_branch : forall dbg live c r1 r2 r3 r4 D b r kp, live c = true ->
  ~ (order | r1) -> ~ (order | r2) -> branch b ->
  dme_new dbg live c dec r1 r2 r3 r4 = Ok D -> KeyGen dbg live D b r = Ok kp ->
  exists r', draw r' /\
    (exists kp', KeyGen dbg live D (1 - b) r' = Ok kp' /\ same_pkey (kpk kp') (kpk kp)) /\
    (forall r2, draw r2 ->
      (exists kp', KeyGen dbg live D (1 - b) r2 = Ok kp' /\ same_pkey (kpk kp') (kpk kp)) -> r2 = r').
Proof. exact L_C31. Qed.
Print Assumptions C31_hides_branch.

(** trapdoor 2: secret 4 on branch 0 and secret 2 on branch 1 have the same public key *)
Example C31_case : forall dbg live c, live c = true ->
  exists D k0 k1, dme_new dbg live c dec 2 1 3 0 = Ok D /\ KeyGen dbg live D 0 4 = Ok k0 /\
    KeyGen dbg live D 1 2 = Ok k1 /\ same_pkey (kpk k1) (kpk k0).
Proof. exact L_C31_case. Qed.

(** C32: encode finds the first abscissa from 1024 m on, and always finds one. *)
Theorem C32_encode : forall dbg live c D m, dcurve D = Some c -> live c = true ->
  exists i R, 0 <= i < FIELD_p /\ encode dbg live D m = Ok R /\ finite live R /\ pcur R = Some c /\
    fval (px R) = (1024 * m + i) mod FIELD_p /\ on_curve_x (1024 * m + i) /\
    (forall j, 0 <= j < i -> ~ on_curve_x (1024 * m + j)).
Proof. exact L_C32_encode. Qed.
Print Assumptions C32_encode.

Theorem C32_roundtrip : forall dbg live c D m R, dcurve D = Some c -> live c = true -> encode dbg live D m = Ok R ->
  (decode R = m <-> 0 <= m /\ exists i, 0 <= i < 1024 /\ 1024 * m + i < FIELD_p /\ on_curve_x (1024 * m + i)).
Proof. exact L_C32_roundtrip. Qed.
Print Assumptions C32_roundtrip.

(** 0 round-trips: the abscissa 0 is on secp256r1 *)
Example C32_case : on_curve_x 0.
Proof.
  exists 46263761741508638697010950048709651021688891777877937875096931459006746039284. vm_compute. reflexivity.
Qed.

(** C33: homomorphic evaluation. *)
Theorem C33_eval : forall dbg live D b r m1 m2 s1 t1 s2 t2, dme_ok live D -> branch b -> is_valid live m1 -> is_valid live m2 ->
  exists kp c1 c2 ct us, KeyGen dbg live D b r = Ok kp /\ Enc dbg live D (kpk kp) b m1 s1 t1 = Ok c1 /\
    Enc dbg live D (kpk kp) b m2 s2 t2 = Ok c2 /\ Eval dbg live c1 c2 = Ok ct /\
    pmul dbg live CV (cu ct) (ksk kp) = Ok us /\
    (pinf us = false -> pinf (cmv ct) = false ->
     yields live CV (Dec dbg live (ksk kp) ct) (gadd CV (den CV m1) (den CV m2))) /\
    (forall a e k1 k2, multiple live (if b =? 0 then g0 (dcrs D) else g1 (dcrs D)) a ->
       multiple live (if b =? 0 then h0 (dcrs D) else h1 (dcrs D)) e -> multiple live m1 k1 -> multiple live m2 k2 ->
       let w := r * ((s1 + s2) * a + (t1 + t2) * e) in
       (pinf us = true <-> (order | w)) /\ (pinf (cmv ct) = true <-> (order | w + (k1 + k2)))).
Proof. exact L_C33. Qed.
Print Assumptions C33_eval.

Example C33_case : forall dbg live c, live c = true ->
  exists D kp c1 c2 ct, dme_new dbg live c messy 2 3 1 2 = Ok D /\ KeyGen dbg live D 0 1 = Ok kp /\
    Enc dbg live D (kpk kp) 0 (gen CV c) 1 1 = Ok c1 /\ Enc dbg live D (kpk kp) 0 (gen CV c) 2 0 = Ok c2 /\
    Eval dbg live c1 c2 = Ok ct /\ yields live CV (Dec dbg live (ksk kp) ct) (gmul CV 2 (ggen CV)).
Proof. exact L_C33_case. Qed.

(** C34: == on ciphertexts is always true. *)
Theorem C34_ciphertext_equality_vacuous : forall live c c', ct_valid live c -> ctxt_eq live c c' = Ok true.
Proof. exact L_C34_ctxt. Qed.
Print Assumptions C34_ciphertext_equality_vacuous.

(** The claim that equal ciphertexts have equal components is false. *)
Theorem C34_ciphertext_equality_refuted : forall live c, live c = true ->
  let x := mkct (gen CV c) (pt_inf CV) in let y := mkct (pt_inf CV) (gen CV c) in
  ct_valid live x /\ ct_valid live y /\ ctxt_eq live x y = Ok true /\ ~ same_ctxt x y.
Proof. exact L_C34_refuted. Qed.
Print Assumptions C34_ciphertext_equality_refuted.

Theorem C34_public_key : forall live a b, pk_valid live a -> pk_valid live b ->
  exists x, pkey_eq live a b = Ok x /\ (x = true <-> same_pkey a b).
Proof. exact L_C34_pkey. Qed.
Print Assumptions C34_public_key.

Theorem C34_key_pair : forall live a b, pk_valid live (kpk a) -> pk_valid live (kpk b) -> scal (ksk a) -> scal (ksk b) ->
  exists x, keypair_eq live a b = Ok x /\ (x = true <-> same_pkey (kpk a) (kpk b) /\ ksk a = ksk b).
Proof. exact L_C34_keypair. Qed.
Print Assumptions C34_key_pair.

Theorem C34_crs : forall live a b, crs_valid live a -> crs_valid live b ->
  exists x, crs_eq live a b = Ok x /\ (x = true <-> same_crs a b).
Proof. exact L_C34_crs. Qed.
Print Assumptions C34_crs.

Theorem C34_trapdoors : forall a b a' b', scal (e0 a) -> scal (e0 b) -> scal (e1 a) -> scal (e1 b) -> scal (ty a') -> scal (ty b') ->
  (tdm_eq a b = true <-> a = b) /\ (tdd_eq a' b' = true <-> a' = b').
Proof. exact L_C34_td. Qed.
Print Assumptions C34_trapdoors.

Example C34_case : let g := gen CV 7 in
  pkey_eq all_alive (mkpk g g) (mkpk g g) = Ok true /\ pkey_eq all_alive (mkpk g g) (mkpk g (pt_inf CV)) = Ok false.
Proof. vm_compute. split; reflexivity. Qed.

(** C66: a ciphertext for the other branch decrypts to the message plus r(s(a_b - a_b') + t(b_b - b_b')) times
    the generator, in the discrete logarithms of the CRS; this is the message only when that factor vanishes. *)
Theorem C66_other_branch : forall dbg live D b r s t m a0 a1 b0 b1 k,
  dme_ok live D -> branch b -> crs_logs live (dcrs D) a0 a1 b0 b1 -> multiple live m k ->
  exists kp c us, KeyGen dbg live D b r = Ok kp /\ Enc dbg live D (kpk kp) (1 - b) m s t = Ok c /\
    pmul dbg live CV (cu c) (ksk kp) = Ok us /\
    let e := if b =? 0 then r * (s * (a0 - a1) + t * (b0 - b1)) else r * (s * (a1 - a0) + t * (b1 - b0)) in
    let w := if b =? 0 then s * a1 + t * b1 else s * a0 + t * b0 in
    (pinf us = true <-> (order | r * w)) /\ (pinf (cmv c) = true <-> (order | r * w + e + k)) /\
    (pinf us = false -> pinf (cmv c) = false ->
     exists R, Dec dbg live (ksk kp) c = Ok R /\ multiple live R (k + e) /\ (same_point R m <-> (order | e))).
Proof. exact L_C66. Qed.
Print Assumptions C66_other_branch.

(** a branch-0 key reads -9 G out of a branch-1 ciphertext of G *)
Example C66_case : forall dbg live c, live c = true ->
  exists D kp ct R, dme_new dbg live c messy 2 3 1 2 = Ok D /\ KeyGen dbg live D 0 2 = Ok kp /\
    Enc dbg live D (kpk kp) 1 (gen CV c) 1 1 = Ok ct /\ Dec dbg live (ksk kp) ct = Ok R /\
    multiple live R (-9) /\ ~ same_point R (gen CV c).
Proof. exact L_C66_case. Qed.

(** C67: for any CRS with finite g0 and g1, a key of one branch is also a key of the other exactly when
    the CRS is a Diffie-Hellman quadruple ... *)
Theorem C67_two_branches : forall dbg live D b r kp a0 a1 b0 b1,
  dme_ok live D -> branch b -> crs_logs live (dcrs D) a0 a1 b0 b1 ->
  ~ (order | a0) -> ~ (order | a1) -> ~ (order | r) -> KeyGen dbg live D b r = Ok kp ->
  ((exists r' kp', KeyGen dbg live D (1 - b) r' = Ok kp' /\ same_pkey (kpk kp') (kpk kp)) <-> (order | a0 * b1 - a1 * b0)).
Proof. exact L_C67_key. Qed.
Print Assumptions C67_two_branches.

(** ... and otherwise what is sent on the other branch is perfectly hidden, whoever made the CRS. *)
Theorem C67_hides : forall dbg live D b r kp a0 a1 b0 b1 m m' s t,
  dme_ok live D -> branch b -> crs_logs live (dcrs D) a0 a1 b0 b1 ->
  ~ (order | a0) -> ~ (order | a1) -> ~ (order | r) -> ~ (order | a0 * b1 - a1 * b0) ->
  KeyGen dbg live D b r = Ok kp -> is_valid live m -> is_valid live m' ->
  exists ct s' t', Enc dbg live D (kpk kp) (1 - b) m s t = Ok ct /\ draw s' /\ draw t' /\
    (exists ct', Enc dbg live D (kpk kp) (1 - b) m' s' t' = Ok ct' /\ same_ctxt ct' ct) /\
    (forall s2 t2, draw s2 -> draw t2 ->
      (exists ct', Enc dbg live D (kpk kp) (1 - b) m' s2 t2 = Ok ct' /\ same_ctxt ct' ct) -> s2 = s' /\ t2 = t').
Proof. exact L_C67_hides. Qed.
Print Assumptions C67_hides.

(** the CRS of the randomised constructor *)
Example C67_case : forall dbg live c, live c = true ->
  exists D kp, dme_new_random dbg live c 1 2 3 4 = Ok D /\ dme_ok live D /\ crs_logs live (dcrs D) 1 3 2 4 /\
    KeyGen dbg live D 0 2 = Ok kp /\ ~ (order | 1) /\ ~ (order | 3) /\ ~ (order | 2) /\ ~ (order | 1 * 4 - 3 * 2) /\
    ~ (exists r' kp', KeyGen dbg live D 1 r' = Ok kp' /\ same_pkey (kpk kp') (kpk kp)).
Proof. exact L_C67_case. Qed.
