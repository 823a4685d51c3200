(** Property C97: what the sequences of point operations of the protocols tell (src/puda, src/elgamal, src/ot, src/opprf), read as
    in C84: [observed] is what an onlooker who tells doublings from additions makes of the events. *)
From Coq Require Import ZArith Bool List Lia.
From Verif Require Import Outcome FieldModel SpecField ECGroup ECOrder CurveParams EccModel SpecEcc DmeModel SpecDme OtModel SpecOt AesModel OpprfModel SpecOpprf OpprfProofs OpprfProofs2 OpprfProofs3 OpprfCase PudaModel SpecPuda ElgamalModel SpecElgamal TraceModel SpecTrace TraceModel2 SpecTrace2 DmeProofs OtProofs TraceProofs2 Prop_Ecc Prop_Aes.
Import ListNotations.
Open Scope Z_scope.

(** Recording the events changes no outcome. *)
Theorem C97_outcomes : forall dbg live e iv pp ek sk ts cs m t E pk P r s c R b l v cl round oc S d,
  snd (compute_dlog_t dbg live pp P) = compute_dlog dbg live pp P /\
  snd (PEnc_t dbg live pp ek m t) = PEnc dbg live pp ek m t /\ snd (PTag_t dbg live pp sk m t) = PTag dbg live pp sk m t /\
  snd (Agg_t dbg live pp ek cs ts t) = Agg dbg live pp ek cs ts t /\
  snd (eg_encrypt_t dbg live E pk P r) = eg_encrypt dbg live E pk P r /\ snd (eg_decrypt_t dbg live s c) = eg_decrypt dbg live s c /\
  snd (selectMsg_t dbg live R b r) = selectMsg dbg live R b r /\
  snd (decryptMsg_t dbg live R l) = decryptMsg dbg live R l /\ snd (decryptMsgDecode_t dbg live R l) = decryptMsgDecode dbg live R l /\
  snd (runOTRound_start_t dbg live cl round r) = runOTRound_start dbg live cl round r /\
  snd (open_key_t dbg live e iv R r v) = open_key dbg live e iv R r v /\
  snd (runOTRound_end_t dbg live e iv cl round oc) = runOTRound_end dbg live e iv cl round oc /\
  snd (prepareKeysAndInputs_t dbg live e iv S d) = prepareKeysAndInputs dbg live e iv S d.
Proof.
  exact (fun dbg live e iv pp ek sk ts cs m t E pk P r s c R b l v cl round oc S d =>
    conj (dlog_snd dbg live pp P) (conj (PEnc_snd dbg live pp ek m t) (conj (PTag_snd dbg live pp sk m t) (conj (Agg_snd dbg live pp ek cs ts t)
    (conj (eg_encrypt_snd dbg live E pk P r) (conj (eg_decrypt_snd dbg live s c) (conj (selectMsg_snd dbg live R b r)
    (conj (decryptMsg_snd dbg live R l) (conj (decryptMsgDecode_snd dbg live R l) (conj (start_snd dbg live cl round r)
    (conj (open_key_snd dbg live e iv R r v) (conj (end_snd dbg live e iv cl round oc) (prepare_snd dbg live e iv S d))))))))))))).
Qed.
Print Assumptions C97_outcomes.

(** A user's key and message are read off the encryption and off the tag. *)
Theorem C97_encrypt : forall dbg live pp ek m t, finite live (ppg1 pp) -> finite live (pphash pp) -> scal ek ->
  observed (fst (PEnc_t dbg live pp ek m t)) = [t mod order; if t mod order =? 0 then 0 else fval ek; m mod order].
Proof. exact L_C97_enc. Qed.
Print Assumptions C97_encrypt.

Theorem C97_tag : forall dbg live pp sk m t, finite live (ppg1 pp) -> finite live (pphash pp) -> scal (sktk sk) ->
  observed (fst (PTag_t dbg live pp sk m t)) =
    [t mod order; if t mod order =? 0 then 0 else fval (sktk sk); ska sk mod order; if ska sk mod order =? 0 then 0 else m mod order].
Proof. exact L_C97_tag. Qed.
Print Assumptions C97_tag.

(** The aggregator tries 0, 1, 2, ... up to the sum: the number of multiplications is the sum and 3, or, for a sum of 65534 and more, 65537. *)
Theorem C97_aggregate : forall dbg live pp ak cs ts zs rh t, multiple live (ppg1 pp) 1 -> multiple live (pphash pp) rh -> ~ (order | rh) -> scal ak ->
  Forall2 (multiple live) cs zs -> Forall (is_valid live) ts ->
  observed (fst (Agg_t dbg live pp ak cs ts t)) = [t mod order; if t mod order =? 0 then 0 else fval ak] ++
    map Z.of_nat (seq 0 (Datatypes.S (Z.to_nat (Z.min ((sumz zs + fval ak * (t * rh)) mod order) 65534)))).
Proof. exact L_C97_agg. Qed.
Print Assumptions C97_aggregate.

(** ElGamal: the message of an encryption, with the public key only; the secret key. *)
Theorem C97_elgamal : forall dbg live E pk m r c, elgamal_ok live E -> finite live pk -> is_valid live m -> eg_encrypt dbg live E pk m r = Ok c ->
  exists s, observed (fst (eg_encrypt_t dbg live E pk m r)) = [s; s] /\
    den CV m = gadd CV (den CV (cmv c)) (gneg CV (gmul CV s (den CV pk))).
Proof. exact L_C97_eg_encrypt. Qed.
Print Assumptions C97_elgamal.

Theorem C97_elgamal_key : forall dbg live sk c m, finite live (cu c) -> scal sk -> eg_decrypt dbg live sk c = Ok m ->
  observed (fst (eg_decrypt_t dbg live sk c)) = [fval sk].
Proof. exact L_C97_eg_decrypt. Qed.
Print Assumptions C97_elgamal_key.

(** The receiver of a transfer performs the same operations for both choices; ... *)
Theorem C97_choice : forall dbg live D r kp kp', crs_usable live (dcrs D) -> KeyGen dbg live D 0 r = Ok kp -> KeyGen dbg live D 1 r = Ok kp' ->
  fst (KeyGen_t dbg live D 0 r) = fst (KeyGen_t dbg live D 1 r).
Proof. exact L_C97_choice. Qed.
Print Assumptions C97_choice.

(** ... so a client starts a round with the same operations whatever its input and the round are. *)
Theorem C97_client : forall dbg live C x x' round round' d o o', crs_usable live (dcrs (rdme (otr C))) ->
  runOTRound_start dbg live (setMessage C x) round d = Ok o -> runOTRound_start dbg live (setMessage C x') round' d = Ok o' ->
  fst (runOTRound_start_t dbg live (setMessage C x) round d) = fst (runOTRound_start_t dbg live (setMessage C x') round' d).
Proof. exact L_C97_client. Qed.
Print Assumptions C97_client.

(** At the end of a round the number of multiplications is the place of the pair of ciphertexts that opened, which the server
    put there. *)
Theorem C97_place : forall dbg live e iv C round c C' pre v post a cp, round <> BITS -> oc c = pre ++ v :: post ->
  Forall (fun w => opens_to dbg live e iv (otr C) (key C) w 0) pre -> opens_to dbg live e iv (otr C) (key C) v a -> a <> 0 ->
  chosen (otr C) (ocprf c) = Ok cp -> finite live (cu cp) -> scal (rsk (otr C)) ->
  runOTRound_end dbg live e iv C round c = Ok C' ->
  observed (fst (runOTRound_end_t dbg live e iv C round c)) = repeat (fval (rsk (otr C))) (length pre + 2).
Proof. exact L_C97_place. Qed.
Print Assumptions C97_place.

(** The server prepares with the same operations whatever its threshold is; ... *)
Theorem C97_threshold : forall dbg live e iv S th d o o', prepareKeysAndInputs dbg live e iv S d = Ok o ->
  prepareKeysAndInputs dbg live e iv (set_theta S th) d = Ok o' ->
  fst (prepareKeysAndInputs_t dbg live e iv S d) = fst (prepareKeysAndInputs_t dbg live e iv (set_theta S th) d).
Proof. exact L_C97_threshold. Qed.
Print Assumptions C97_threshold.

(** ... its scalars and the logarithms of its points are read off them. *)
Theorem C97_prepare : forall dbg live e iv S d c o, scur S = Some c -> live c = true -> ok S = [] -> finite live (ga S) -> ~ (order | d_r d) ->
  prepareKeysAndInputs dbg live e iv S d = Ok o ->
  observed (fst (prepareKeysAndInputs_t dbg live e iv S d)) = [d_kopprf d mod order; d_r d mod order] ++
    flat_map (fun j => [d_ok d j mod order; 2 ^ Z.of_nat j; d_ok d j mod order]) (rev (seq 0 16)).
Proof. exact L_C97_prepare. Qed.
Print Assumptions C97_prepare.

Definition pp0 : pp_t := mkpp 1 2 (gen CV 1) (gen CV 2) (gen CV 1).
(** the key 5 and the message 1000 at time 2023; a sum of 7 *)
Example C97_case_puda : observed (fst (PEnc_t true all_alive pp0 (mkfe 5 FIELD_n) 1000 2023)) = [2023; 5; 1000] /\
  observed (fst (Agg_t true all_alive pp0 (mkfe 2 FIELD_n) [gen CV 1] [gen CV 1] 3)) = [3; 2; 0; 1; 2; 3; 4; 5; 6; 7].
Proof.
  assert (gen_one : multiple all_alive (gen CV 1) 1) by exact (gen_rf all_alive 1 eq_refl).
  assert (S : forall v, 0 <= v < 9 -> scal (mkfe v FIELD_n)).
  { intros v V. split; [reflexivity|]. cbn [fval]. split; [lia|]. apply Z.lt_trans with 9; [lia|reflexivity]. }
  split.
  - rewrite (C97_encrypt true all_alive pp0); [vm_compute; reflexivity|exact (gen_valid Secp256r1 all_alive 1 eq_refl)|exact (gen_valid Secp256r1 all_alive 1 eq_refl)|].
    apply S. lia.
  - rewrite (C97_aggregate true all_alive pp0 _ _ _ [1] 1); [vm_compute; reflexivity|exact gen_one|exact gen_one| |apply S; lia| |].
    + intros D. apply Z.divide_1_r_nonneg in D; [discriminate D|vm_compute; discriminate].
    + constructor; [exact gen_one|constructor].
    + constructor; [right; exact (gen_valid Secp256r1 all_alive 1 eq_refl)|constructor].
Qed.

(** a client with the secret key 2 to which the second of three pairs opens *)
Definition ctA : ctxt := mkct (gen CV 1) (mkpoint (mkfe 103379941386821418994012593542653991891318328123053602172010357497297105472440 FIELD_p)
  (mkfe 16118485012949261815103556421222779970641854173232421018343698762583366732835 FIELD_p) false (Some 1)).
Definition ctB : ctxt := mkct (gen CV 1) (mkpoint (mkfe 35960895825898964330769356006770099085206392092043253845655278882409367907478 FIELD_p)
  (mkfe 52613384170131660393664628999077942931920196592070133416760707996526024785090 FIELD_p) false (Some 1)).
Definition client2 : client := mkcli (mkrecv (dme_new_crs 1 crs_default) (mkfe 2 FIELD_n) (Some 0)) (Some 1) (Some 0) (pt_inf CV) kA.
Example C97_case_place : observed (fst (runOTRound_end_t true all_alive small iv0 client2 3 (mkoc [[ctB]; [ctA]; [ctB]] [ctB]))) = [2; 2; 2].
Proof.
  assert (F : finite all_alive (gen CV 1)) by exact (gen_valid Secp256r1 all_alive 1 eq_refl).
  assert (DA : decryptMsgDecode true all_alive (otr client2) [ctA] = Ok cAA) by (vm_compute; reflexivity).
  assert (DB : decryptMsgDecode true all_alive (otr client2) [ctB] = Ok cBB) by (vm_compute; reflexivity).
  assert (OA : decryptCRC small iv0 kA cAA = Ok kA) by (vm_compute; reflexivity).
  assert (OB : decryptCRC small iv0 kA cBB = Ok 0) by (vm_compute; reflexivity).
  assert (S : scal (mkfe 2 FIELD_n)) by (split; [reflexivity|]; split; vm_compute; [discriminate|reflexivity]).
  assert (RB : opens_to true all_alive small iv0 (otr client2) kA [ctB] 0) by exact (ex_intro _ ctB (ex_intro _ cBB (conj eq_refl (conj F (conj DB OB))))).
  assert (RA : opens_to true all_alive small iv0 (otr client2) kA [ctA] kA) by exact (ex_intro _ ctA (ex_intro _ cAA (conj eq_refl (conj F (conj DA OA))))).
  assert (NA : kA <> 0) by discriminate. assert (NB : 3 <> BITS) by discriminate.
  assert (PRE : Forall (fun w => opens_to true all_alive small iv0 (otr client2) (key client2) w 0) [[ctB]]) by (constructor; [exact RB|constructor]).
  destruct (round_ends true all_alive small iv0 client2 3 (mkoc [[ctB]; [ctA]; [ctB]] [ctB]) [[ctB]] [ctA] [[ctB]] kA cBB NB eq_refl PRE RA NA S DB eq_refl) as [C' E].
  exact (C97_place true all_alive small iv0 client2 3 (mkoc [[ctB]; [ctA]; [ctB]] [ctB]) C' [[ctB]] [ctA] [[ctB]] kA ctB NB eq_refl PRE RA NA eq_refl F S E).
Qed.

(** preparing with the threshold 9 and the secret 3: the draws of kopprf, of r, and of the sixteen scalars *)
Example C97_case_prepare : forall dbg live c0 c1 c2, live c0 = true -> live c1 = true -> live c2 = true ->
  exists S o, theta S = 9 /\ prepareKeysAndInputs dbg live small iv0 S case_prep = Ok o /\
    exists l, observed (fst (prepareKeysAndInputs_t dbg live small iv0 S case_prep)) = 17 :: 1 :: 1 :: 32768 :: 1 :: 1 :: 16384 :: 1 :: l.
Proof.
  intros dbg live c0 c1 c2 L0 L1 L2.
  destruct (case_setup dbg live c0 c1 c2 L0 L1 L2) as [D [Q [S0 [S [E1 [E2 [E3 [E4 [SR [TH [FS [DG H]]]]]]]]]]]].
  destruct (H 5 (or_introl eq_refl)) as [CR [SC [R0 GD]]].
  destruct (L_C51 dbg live small iv0 S _ case_draws 3 5 0 case_aes SR CR SC GD ltac:(rewrite R0; apply multiple_inf)) as [S' [C' [E _]]].
  unfold OpprfModel.session in E. apply bind_Ok in E. destruct E as [o [E _]]. change (sd_prep case_draws) with case_prep in E.
  exists S, o. split; [exact TH|]. split; [exact E|].
  assert (N3 : ~ (order | 3)) by (apply order_big; split; [lia|vm_compute; reflexivity]).
  assert (N1 : ~ (order | 1)) by (apply order_big; split; [lia|vm_compute; reflexivity]).
  destruct (sr_ots _ _ _ SR) as [[c [EC LC]] _].
  rewrite (C97_prepare dbg live small iv0 S case_prep c o); [eexists; vm_compute; reflexivity| |exact LC| | |exact N1|exact E].
  - rewrite (sr_cur _ _ _ SR). exact EC.
  - apply FS.
  - exact (mult_usable live _ _ (sr_ga _ _ _ SR) N3).
Qed.
