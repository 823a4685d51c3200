(** Property C96: asserts have no effect but to stop (all of includes and src, and the test programs). [spared F d r]: the outcome [d] of
    the build with asserts is the outcome [r] of the build without, or a fault of [F]. *)
From Coq Require Import ZArith Bool List.
From Verif Require Import Outcome FieldModel CurveParams EccModel ShamirModel DmeModel OtModel ElgamalModel PudaModel CrcModel AesModel OpprfModel
  TestModel HistModel SpecEcc SpecErase EraseProofs EccThms Prop_Ecc.
Import ListNotations.
Open Scope Z_scope.

(** C96. Field operations and sequences of compound operators *)
Theorem C96_fields : forall q x y s l,
  spared moduli (fe_add true q x y) (fe_add false q x y) /\ spared moduli (fe_add_eq true x y) (fe_add_eq false x y) /\
  spared moduli (fe_sub true q x y) (fe_sub false q x y) /\ spared moduli (fe_sub_eq true x y) (fe_sub_eq false x y) /\
  spared moduli (fe_mul true q x y) (fe_mul false q x y) /\ spared moduli (fe_mul_eq true x y) (fe_mul_eq false x y) /\
  spared moduli (fe_div true q x y) (fe_div false q x y) /\ spared moduli (fe_div_eq true q x y) (fe_div_eq false q x y) /\
  spared moduli (exec_all true q s l) (exec_all false q s l).
Proof.
  exact (fun q x y s l => conj (sp_add q x y) (conj (sp_add_eq x y) (conj (sp_sub q x y) (conj (sp_sub_eq x y) (conj (sp_mul q x y)
    (conj (sp_mul_eq x y) (conj (sp_div q x y) (conj (sp_div_eq q x y) (sp_exec_all q s l))))))))).
Qed.
Print Assumptions C96_fields.

(** Points, on any curve parameters, and programs over points. *)
Theorem C96_points : forall live C P Q s a c x d,
  spared curves (padd true live C P Q) (padd false live C P Q) /\ spared curves (psub true live C P Q) (psub false live C P Q) /\
  spared curves (pmul true live C P s) (pmul false live C P s) /\ spared curves (pmulz true live C P a) (pmulz false live C P a) /\
  spared moduli (pdouble true live C P) (pdouble false live C P) /\ spared moduli (isValid true live C P) (isValid false live C P) /\
  spared moduli (evaluateP true live C c x) (evaluateP false live C c x) /\
  spared moduli (evaluatePneg true live C c x) (evaluatePneg false live C c x) /\
  spared moduli (evaluatePy2 true live C c x) (evaluatePy2 false live C c x) /\
  spared moduli (getEncodedX true live C P) (getEncodedX false live C P) /\
  spared moduli (setEncodedX true live C P a) (setEncodedX false live C P a) /\
  spared curves (getRandomPoint true live C c d) (getRandomPoint false live C c d).
Proof.
  exact (fun live C P Q s a c x d => conj (sp_padd live C P Q) (conj (sp_psub live C P Q) (conj (sp_pmul live C P s) (conj (sp_pmulz live C P a)
    (conj (sp_double live C P) (conj (sp_valid live C P) (conj (sp_evaluateP live C c x) (conj (sp_evaluatePneg live C c x)
    (conj (sp_py2 live C c x) (conj (sp_getEncodedX live C P) (conj (sp_setEncodedX live C P a) (sp_getRandomPoint live C c d)))))))))))).
Qed.
Print Assumptions C96_points.

Theorem C96_programs : forall C l s, spared curves (hexec_all true C l s) (hexec_all false C l s).
Proof. exact sp_hexec_all. Qed.
Print Assumptions C96_programs.

(** Secret sharing *)
Theorem C96_shamir : forall cap rnd t n secret shares,
  spared moduli (getShares true cap rnd t n secret) (getShares false cap rnd t n secret) /\
  spared moduli (reconSecret true shares) (reconSecret false shares).
Proof. exact (fun cap rnd t n secret shares => conj (sp_getShares cap rnd t n secret) (sp_reconSecret shares)). Qed.
Print Assumptions C96_shamir.

(** Dual-mode encryption *)
Theorem C96_dme : forall live c mu r1 r2 r3 r4 D b pk m z sk ct ct',
  spared curves (dme_new true live c mu r1 r2 r3 r4) (dme_new false live c mu r1 r2 r3 r4) /\
  spared curves (dme_new_random true live c r1 r2 r3 r4) (dme_new_random false live c r1 r2 r3 r4) /\
  spared curves (KeyGen true live D b r1) (KeyGen false live D b r1) /\
  spared moduli (encode true live D z) (encode false live D z) /\
  spared curves (Enc true live D pk b m r1 r2) (Enc false live D pk b m r1 r2) /\
  spared curves (EncZ true live D pk b z r1 r2) (EncZ false live D pk b z r1 r2) /\
  spared curves (Dec true live sk ct) (Dec false live sk ct) /\ spared curves (DecDecode true live sk ct) (DecDecode false live sk ct) /\
  spared curves (FindMessy true live D pk) (FindMessy false live D pk) /\
  spared curves (TrapKeyGen true live D r1) (TrapKeyGen false live D r1) /\
  spared curves (Eval true live ct ct') (Eval false live ct ct').
Proof.
  exact (fun live c mu r1 r2 r3 r4 D b pk m z sk ct ct' => conj (sp_dme_new live c mu r1 r2 r3 r4) (conj (sp_dme_new_random live c r1 r2 r3 r4)
    (conj (sp_KeyGen live D b r1) (conj (sp_encode live D z) (conj (sp_Enc live D pk b m r1 r2) (conj (sp_EncZ live D pk b z r1 r2)
    (conj (sp_Dec live sk ct) (conj (sp_DecDecode live sk ct) (conj (sp_FindMessy live D pk) (conj (sp_TrapKeyGen live D r1) (sp_Eval live ct ct'))))))))))).
Qed.
Print Assumptions C96_dme.

(** Oblivious transfer *)
Theorem C96_ot : forall live R S b r c pk m0 m1 z0 z1 s0 t0 s1 t1 cv,
  spared curves (selectMsg true live R b r) (selectMsg false live R b r) /\
  spared curves (decryptMsg true live R c) (decryptMsg false live R c) /\
  spared curves (decryptMsgDecode true live R c) (decryptMsgDecode false live R c) /\
  spared curves (encMsgs true live S pk m0 m1 s0 t0 s1 t1) (encMsgs false live S pk m0 m1 s0 t0 s1 t1) /\
  spared curves (encMsgsZ true live S pk z0 z1 s0 t0 s1 t1) (encMsgsZ false live S pk z0 z1 s0 t0 s1 t1) /\
  spared curves (aggregate true live cv) (aggregate false live cv).
Proof.
  exact (fun live R S b r c pk m0 m1 z0 z1 s0 t0 s1 t1 cv => conj (sp_selectMsg live R b r) (conj (sp_decryptMsg live R c) (conj (sp_decryptMsgDecode live R c)
    (conj (sp_encMsgs live S pk m0 m1 s0 t0 s1 t1) (conj (sp_encMsgsZ live S pk z0 z1 s0 t0 s1 t1) (sp_aggregate live cv)))))).
Qed.
Print Assumptions C96_ot.

(** ElGamal *)
Theorem C96_elgamal : forall live E pk m z r sk c,
  spared curves (keyGen true live E r) (keyGen false live E r) /\
  spared curves (eg_encrypt true live E pk m r) (eg_encrypt false live E pk m r) /\
  spared curves (eg_encryptZ true live E pk z r) (eg_encryptZ false live E pk z r) /\
  spared curves (eg_decrypt true live sk c) (eg_decrypt false live sk c) /\
  spared moduli (eg_encode true live E z) (eg_encode false live E z).
Proof.
  exact (fun live E pk m z r sk c => conj (sp_keyGen live E r) (conj (sp_eg_encrypt live E pk m r) (conj (sp_eg_encryptZ live E pk z r)
    (conj (sp_eg_decrypt live sk c) (sp_eg_encode live E z))))).
Qed.
Print Assumptions C96_elgamal.

(** Aggregation *)
Theorem C96_puda : forall live pp rh ra ds ek sk m t ak cs tags P,
  spared curves (Setup true live pp rh ra ds) (Setup false live pp rh ra ds) /\
  spared curves (PEnc true live pp ek m t) (PEnc false live pp ek m t) /\ spared curves (PTag true live pp sk m t) (PTag false live pp sk m t) /\
  spared curves (Agg true live pp ak cs tags t) (Agg false live pp ak cs tags t) /\
  spared curves (compute_dlog true live pp P) (compute_dlog false live pp P).
Proof.
  exact (fun live pp rh ra ds ek sk m t ak cs tags P => conj (sp_Setup live pp rh ra ds) (conj (sp_PEnc live pp ek m t) (conj (sp_PTag live pp sk m t)
    (conj (sp_Agg live pp ak cs tags t) (sp_compute_dlog live pp P))))).
Qed.
Print Assumptions C96_puda.

(** Oblivious PRF. The assert of setSecret calls isValid, which divides by the moduli of the point. Where no ciphertext opens, asserts
    stop and the other build throws. *)
Theorem C96_opprf : forall live e iv c th k S C P d sd round pk qa qb qc qp u v r ct masks,
  spared curves (server_new true live c th k r) (server_new false live c th k r) /\
  spared validity (setSecret true live S P) (setSecret false live S P) /\
  spared curves (prepareKeysAndInputs true live e iv S d) (prepareKeysAndInputs false live e iv S d) /\
  spared curves (runOTRound true live S round pk qa qb qc qp u v) (runOTRound false live S round pk qa qb qc qp u v) /\
  spared curves (sendEncryptedMasks true live e iv S r u v) (sendEncryptedMasks false live e iv S r u v) /\
  spared curves (server_clean true live S r) (server_clean false live S r) /\
  spared curves (runOTRound_start true live C round r) (runOTRound_start false live C round r) /\
  spared curves (runOTRound_end true live e iv C round ct) (runOTRound_end false live e iv C round ct) /\
  spared curves (unmaskResult true live e iv C masks r) (unmaskResult false live e iv C masks r) /\
  spared curves (session true live e iv S C sd) (session false live e iv S C sd).
Proof.
  exact (fun live e iv c th k S C P d sd round pk qa qb qc qp u v r ct masks => conj (sp_server_new live c th k r) (conj (sp_setSecret live S P)
    (conj (sp_prepare live e iv S d) (conj (sp_runOTRound live S round pk qa qb qc qp u v) (conj (sp_masks live e iv S r u v) (conj (sp_server_clean live S r)
    (conj (sp_start live C round r) (conj (sp_end live e iv C round ct) (conj (sp_unmask live e iv C masks r) (sp_session live e iv S C sd)))))))))).
Qed.
Print Assumptions C96_opprf.

(** The test programs *)
Theorem C96_tests : forall live c r1 r2 cap rnd c2 rh ra dp cm cd cc dd b1 b2 b3 b4 b5 b6 b7 od e p,
  spared moduli (main_fields true) (main_fields false) /\ spared curves (main_ecc true live c r1 r2) (main_ecc false live c r1 r2) /\
  spared moduli (main_shamirss true cap rnd) (main_shamirss false cap rnd) /\
  spared curves (main_puda true live c c2 rh ra dp) (main_puda false live c c2 rh ra dp) /\
  spared curves (main_dme true live cm cd cc dd) (main_dme false live cm cd cc dd) /\
  spared curves (main_ot true live b1 b2 b3 b4 b5 b6 b7 od) (main_ot false live b1 b2 b3 b4 b5 b6 b7 od) /\
  spared validity (main_opprf true e live b1 b2 b3 b4 p) (main_opprf false e live b1 b2 b3 b4 p).
Proof.
  exact (fun live c r1 r2 cap rnd c2 rh ra dp cm cd cc dd b1 b2 b3 b4 b5 b6 b7 od e p => conj sp_main_fields (conj (sp_main_ecc live c r1 r2)
    (conj (sp_main_shamirss cap rnd) (conj (sp_main_puda live c c2 rh ra dp) (conj (sp_main_dme live cm cd cc dd)
    (conj (sp_main_ot live b1 b2 b3 b4 b5 b6 b7 od) (sp_main_opprf live e b1 b2 b3 b4 p))))))).
Qed.
Print Assumptions C96_tests.

(** The asserts do stop: a value without them, a fault with them. *)
Example C96_case :
  fe_add true 7 (mkfe 3 7) (mkfe 4 5) = Err AssertFail /\ fe_add false 7 (mkfe 3 7) (mkfe 4 5) = Ok (mkfe 0 7) /\
  psub true all_alive bn254 (pt_inf bn254) (gen bn254 1) = Err NullDeref /\
  (exists R, psub false all_alive bn254 (pt_inf bn254) (gen bn254 1) = Ok R) /\
  padd true (Z.eqb 1) bn254 (gen bn254 1) (mirror bn254 (gen bn254 2)) = Err UseAfterFree /\
  padd false (Z.eqb 1) bn254 (gen bn254 1) (mirror bn254 (gen bn254 2)) = Ok (pt_inf bn254) /\
  (let S := mksrv (otsndr_new (dme_new_crs 1 crs_default)) (Some 1) 0 (pt_inf CV) (pt_inf CV) (pt_inf CV) (pt_inf CV) [] [] [] [] inputl_default inputl_default [] [] in
   let P := mkpoint (mkfe 1 (fieldp CV)) (mkfe 1 (fieldp CV)) false None in
   setSecret true all_alive S P = Err AssertFail /\ exists r, setSecret false all_alive S P = Ok r).
Proof. repeat split; try (vm_compute; reflexivity); eexists; vm_compute; reflexivity. Qed.
