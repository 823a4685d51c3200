(** Properties C50-C54 and C59-C61: the oblivious programmable PRF (src/opprf).
    [session] is one evaluation: prepareKeysAndInputs, the rounds 16 down to 1, sendEncryptedMasks and unmaskResult.
    Server and client may have been used before; [server_ready], [client_ready] say what is needed of them and
    [good_draws] (SpecOpprf) that no draw makes a step degenerate. *)
From Coq Require Import ZArith Bool List Lia Permutation.
From Verif Require Import Outcome FieldModel SpecField CurveParams EccModel SpecEcc DmeModel SpecDme OtModel SpecOt CrcModel AesModel SpecAes.
From Verif Require Import OpprfModel SpecOpprf OpprfProofs OpprfProofs2 OpprfProofs3 OpprfProofs4 OpprfCase Prop_Aes.
Import ListNotations.
Open Scope Z_scope.

(** What the constructors and setSecret give is ready. *)
Theorem C50_server : forall dbg live c th k P a d, live c = true -> crs_finite k -> 0 <= th < 2 ^ 16 ->
  multiple live P a -> ~ (order | a) ->
  exists S0 S, server_new dbg live c th k d = Ok S0 /\ setSecret dbg live S0 P = Ok (S, set_curve P (Some c)) /\
    server_ready live S a /\ theta S = th /\ same_crs (dcrs (sdme (ots S))) k /\ fresh_server S /\ den CV (ga S) = den CV P.
Proof. exact L_ready_server. Qed.
Print Assumptions C50_server.

Theorem C50_client : forall live c k x, live c = true -> crs_finite k -> 0 <= x < 2 ^ 16 ->
  client_ready live (setMessage (client_new c k) x) x /\ same_crs (dcrs (rdme (otr (client_new c k)))) k /\
  result (client_new c k) = pt_inf CV.
Proof. exact L_ready_client. Qed.
Print Assumptions C50_client.

(** C50. *)
Theorem C50_at_most_theta : forall dbg live e iv S C d a x, aes_ready e iv -> server_ready live S a -> client_ready live C x ->
  same_crs (dcrs (sdme (ots S))) (dcrs (rdme (otr C))) ->
  good_draws dbg live e iv (dcrs (rdme (otr C))) (sdme (ots S)) (theta S) a x d ->
  x <= theta S -> result C = pt_inf CV ->
  exists S' C', session dbg live e iv S C d = Ok (S', C') /\ multiple live (kopprf S') (d_kopprf (sd_prep d)) /\
    is_valid live (result C') /\ den CV (result C') = gadd CV (den CV (kopprf S')) (gmul CV x (den CV (ga S))).
Proof. exact L_C50. Qed.
Print Assumptions C50_at_most_theta.

(** threshold 9, secret 3*G, input 5 *)
Example C50_case : forall dbg live c0 c1 c2, live c0 = true -> live c1 = true -> live c2 = true ->
  exists D Q S0 S S' C', dme_new dbg live c0 dec 1 1 1 0 = Ok D /\ getRandomPoint dbg live CV (Some c0) 3 = Ok Q /\
    server_new dbg live c1 9 (dcrs D) 1 = Ok S0 /\ setSecret dbg live S0 Q = Ok (S, set_curve Q (Some c1)) /\
    session dbg live small iv0 S (setMessage (client_new c2 (dcrs D)) 5) case_draws = Ok (S', C') /\
    den CV (result C') = gadd CV (den CV (kopprf S')) (gmul CV 5 (den CV Q)).
Proof.
  intros dbg live c0 c1 c2 L0 L1 L2.
  destruct (case_setup dbg live c0 c1 c2 L0 L1 L2) as [D [Q [S0 [S [E1 [E2 [E3 [E4 [SR [TH [_ [DG H]]]]]]]]]]]].
  destruct (H 5 (or_introl eq_refl)) as [CR [SC [R0 GD]]].
  destruct (L_C50 dbg live small iv0 S _ case_draws 3 5 case_aes SR CR SC GD ltac:(rewrite TH; lia) R0) as [S' [C' [E [_ [_ R]]]]].
  exists D, Q, S0, S, S', C'. split; [exact E1|]. split; [exact E2|]. split; [exact E3|]. split; [exact E4|]. split; [exact E|].
  rewrite R, DG. reflexivity.
Qed.

(** C51. Whatever the client held before, it ends with the key of its comparison and its result has moved by
    [outcome_log] times the generator. *)
Theorem C51_comparison : forall dbg live e iv S C d a x z, aes_ready e iv -> server_ready live S a -> client_ready live C x ->
  same_crs (dcrs (sdme (ots S))) (dcrs (rdme (otr C))) ->
  good_draws dbg live e iv (dcrs (rdme (otr C))) (sdme (ots S)) (theta S) a x d -> multiple live (result C) z ->
  exists S' C', session dbg live e iv S C d = Ok (S', C') /\
    key C' = match x ?= theta S with Lt => d_lt (sd_prep d) 0 | Eq => d_eq (sd_prep d) 0 | Gt => d_gt (sd_prep d) 0 end /\
    multiple live (result C') (z + outcome_log d (theta S) a x).
Proof. exact L_C51. Qed.
Print Assumptions C51_comparison.

(** Above the threshold the point drawn by sendEncryptedMasks takes the place of the mask. *)
Theorem C51_above_theta : forall dbg live e iv S C d a x, aes_ready e iv -> server_ready live S a -> client_ready live C x ->
  same_crs (dcrs (sdme (ots S))) (dcrs (rdme (otr C))) ->
  good_draws dbg live e iv (dcrs (rdme (otr C))) (sdme (ots S)) (theta S) a x d ->
  theta S < x -> result C = pt_inf CV ->
  exists S' C', session dbg live e iv S C d = Ok (S', C') /\ multiple live (sr S') (d_r (sd_prep d)) /\
    den CV (result C') = gadd CV (gmul CV (sd_random d) (ggen CV))
      (gadd CV (gmul CV (sum_to (d_ok (sd_prep d)) 16) (den CV (sr S'))) (gmul CV x (den CV (ga S)))).
Proof. exact L_C51_above. Qed.
Print Assumptions C51_above_theta.

Example C51_case : forall dbg live c0 c1 c2, live c0 = true -> live c1 = true -> live c2 = true ->
  exists D Q S0 S S' C', dme_new dbg live c0 dec 1 1 1 0 = Ok D /\ getRandomPoint dbg live CV (Some c0) 3 = Ok Q /\
    server_new dbg live c1 9 (dcrs D) 1 = Ok S0 /\ setSecret dbg live S0 Q = Ok (S, set_curve Q (Some c1)) /\
    session dbg live small iv0 S (setMessage (client_new c2 (dcrs D)) 12) case_draws = Ok (S', C') /\
    key C' = kC /\ multiple live (result C') 53.
Proof.
  intros dbg live c0 c1 c2 L0 L1 L2.
  destruct (case_setup dbg live c0 c1 c2 L0 L1 L2) as [D [Q [S0 [S [E1 [E2 [E3 [E4 [SR [TH [_ [DG H]]]]]]]]]]]].
  destruct (H 12 (or_intror eq_refl)) as [CR [SC [R0 GD]]].
  destruct (L_C51 dbg live small iv0 S _ case_draws 3 12 0 case_aes SR CR SC GD ltac:(rewrite R0; apply multiple_inf)) as [S' [C' [E [K R]]]].
  exists D, Q, S0, S, S', C'. split; [exact E1|]. split; [exact E2|]. split; [exact E3|]. split; [exact E4|]. split; [exact E|].
  rewrite TH in K, R. split; [exact K|exact R].
Qed.

(** C52. The shuffles of a whole evaluation do not matter ... *)
Theorem C52_session : forall dbg live e iv S C d a x z fu fv u v, aes_ready e iv -> server_ready live S a -> client_ready live C x ->
  same_crs (dcrs (sdme (ots S))) (dcrs (rdme (otr C))) ->
  good_draws dbg live e iv (dcrs (rdme (otr C))) (sdme (ots S)) (theta S) a x d -> multiple live (result C) z ->
  exists S1 C1 S2 C2, session dbg live e iv S C d = Ok (S1, C1) /\
    session dbg live e iv S C (reshuffle d fu fv u v) = Ok (S2, C2) /\
    key C1 = key C2 /\ den CV (result C1) = den CV (result C2).
Proof. exact L_C52_session. Qed.
Print Assumptions C52_session.

(** ... nor those of a single step, for any client and any ciphertexts of which at most one value opens. *)
Theorem C52_round : forall dbg live e iv C round c c', Permutation (oc c) (oc c') -> ocprf c = ocprf c' -> round <> 16 ->
  (forall v, In v (oc c) -> exists t t', decryptMsgDecode dbg live (otr C) v = Ok t /\ decryptCRC e iv (key C) t = Ok t') ->
  (forall v v' t t' u u', In v (oc c) -> In v' (oc c) ->
     decryptMsgDecode dbg live (otr C) v = Ok t -> decryptCRC e iv (key C) t = Ok u -> u <> 0 ->
     decryptMsgDecode dbg live (otr C) v' = Ok t' -> decryptCRC e iv (key C) t' = Ok u' -> u' <> 0 -> u = u') ->
  runOTRound_end dbg live e iv C round c = runOTRound_end dbg live e iv C round c'.
Proof. exact L_C52_key. Qed.
Print Assumptions C52_round.

Theorem C52_unmask : forall dbg live e iv C l l' d, Permutation l l' ->
  (forall m, In m l -> exists t, decryptCRC e iv (key C) m = Ok t) ->
  (forall m m' t t', In m l -> In m' l -> decryptCRC e iv (key C) m = Ok t -> decryptCRC e iv (key C) m' = Ok t' -> t <> 0 -> t' <> 0 -> t = t') ->
  unmaskResult dbg live e iv C l d = unmaskResult dbg live e iv C l' d.
Proof. exact L_C52_mask. Qed.
Print Assumptions C52_unmask.

(** The server's answers are permutations of each other, whatever rand() gives, ... *)
Theorem C52_server : forall dbg live S round pk qa qb qc qp u v S' c, runOTRound dbg live S round pk qa qb qc qp u v = Ok (S', c) ->
  forall u' v', exists c', runOTRound dbg live S round pk qa qb qc qp u' v' = Ok (S', c') /\
    Permutation (oc c) (oc c') /\ ocprf c = ocprf c' /\ (round = 16 -> c = c').
Proof. exact L_C52_server. Qed.
Print Assumptions C52_server.

Theorem C52_masks : forall dbg live e iv S d u v l, sendEncryptedMasks dbg live e iv S d u v = Ok l ->
  forall u' v', exists l', sendEncryptedMasks dbg live e iv S d u' v' = Ok l' /\ Permutation l l'.
Proof. exact L_C52_masks. Qed.
Print Assumptions C52_masks.

(** ... and every permutation occurs. *)
Theorem C52_reached : forall (A : Type) (a b c : A) l, Permutation [a; b; c] l ->
  exists u v, 0 <= u /\ 0 <= v /\ shuffle3 [a; b; c] u v = l.
Proof. exact @L_C52_reach. Qed.
Print Assumptions C52_reached.

Example C52_case : forall dbg live c0 c1 c2, live c0 = true -> live c1 = true -> live c2 = true ->
  exists S C S1 C1 S2 C2, session dbg live small iv0 S C case_draws = Ok (S1, C1) /\
    session dbg live small iv0 S C (reshuffle case_draws (fun r => 3 * r) (fun r => r * r) 0 0) = Ok (S2, C2) /\
    key C1 = kA /\ key C2 = kA /\ den CV (result C1) = den CV (result C2).
Proof.
  intros dbg live c0 c1 c2 L0 L1 L2.
  destruct (case_setup dbg live c0 c1 c2 L0 L1 L2) as [D [Q [S0 [S [E1 [E2 [E3 [E4 [SR [TH [_ [DG H]]]]]]]]]]]].
  destruct (H 5 (or_introl eq_refl)) as [CR [SC [R0 GD]]].
  destruct (L_C52_session dbg live small iv0 S _ case_draws 3 5 0 (fun r => 3 * r) (fun r => r * r) 0 0 case_aes SR CR SC GD ltac:(rewrite R0; apply multiple_inf))
    as [S1 [C1 [S2 [C2 [E5 [E6 [K R]]]]]]].
  destruct (L_C51 dbg live small iv0 S _ case_draws 3 5 0 case_aes SR CR SC GD ltac:(rewrite R0; apply multiple_inf)) as [S' [C' [E [K' _]]]].
  rewrite TH in K'. rewrite E in E5. apply Ok_inj in E5. injection E5 as EA EB. rewrite EB in K'.
  exists S, (setMessage (client_new c2 (dcrs D)) 5), S', C', S2, C2. split; [exact E|]. split; [exact E6|].
  rewrite EB. split; [exact K'|]. split; [rewrite <- K; exact K'|exact R].
Qed.
Example C52_one_opens : unmaskResult true (fun _ => true) small iv0 (mkcli (otrecv_new (dme_new_crs 1 crs_default)) (Some 1) None (pt_inf CV) kA) [cBB; cAA] 0
  = unmaskResult true (fun _ => true) small iv0 (mkcli (otrecv_new (dme_new_crs 1 crs_default)) (Some 1) None (pt_inf CV) kA) [cAA; cBB] 0 /\
  decryptCRC small iv0 kA cAA = Ok kA /\ decryptCRC small iv0 kA cBB = Ok 0.
Proof.
  assert (A : decryptCRC small iv0 kA cAA = Ok kA) by (vm_compute; reflexivity).
  assert (B : decryptCRC small iv0 kA cBB = Ok 0) by (vm_compute; reflexivity).
  split; [|split; [exact A|exact B]]. apply L_C52_mask; [apply perm_swap| |]; cbn [key].
  - intros m [<-|[<-|[]]]; eexists; [exact B|exact A].
  - intros m m' t t' [<-|[<-|[]]] [<-|[<-|[]]]; rewrite ?A, ?B; intros E E'; apply Ok_inj in E, E'; subst; intros; try reflexivity; contradiction.
Qed.

(** C53. After any history of calls, in any order, clean() on both sides makes the next evaluation behave like the first. *)
Theorem C53_clean : forall dbg live e iv c c' th crs g0 N P S0 P' l S C g S' x d,
  server_new dbg live c th crs g0 = Ok N -> setSecret dbg live N P = Ok (S0, P') ->
  history dbg live e iv l (S0, client_new c' crs) = Ok (S, C) -> server_clean dbg live S g = Ok S' ->
  alike same_outcome (session dbg live e iv S' (setMessage (client_clean C) x) d)
                     (session dbg live e iv S0 (setMessage (client_new c' crs) x) d).
Proof. exact L_C53_clean. Qed.
Print Assumptions C53_clean.

(** Without clean() on the client every further evaluation adds to the result. *)
Theorem C53_accumulate : forall dbg live e iv l S C a z, aes_ready e iv -> server_ready live S a ->
  dme_ok live (rdme (otr C)) -> ccur C = dcurve (rdme (otr C)) ->
  same_crs (dcrs (sdme (ots S))) (dcrs (rdme (otr C))) -> multiple live (result C) z ->
  (forall x d g, In (x, d, g) l -> 0 <= x < 2 ^ 16 /\
     good_draws dbg live e iv (dcrs (rdme (otr C))) (sdme (ots S)) (theta S) a x d) ->
  exists S' C', evaluations dbg live e iv l S C = Ok (S', C') /\
    multiple live (result C') (z + fold_right Z.add 0 (map (eval_log (theta S) a) l)).
Proof. exact L_C53_accumulate. Qed.
Print Assumptions C53_accumulate.

(** Preparing again draws new points but keeps the keys and scalars of the first call. *)
Theorem C53_twice : forall dbg live e iv S0 S1 C d1 d, fresh_server S0 -> prepareKeysAndInputs dbg live e iv S0 d1 = Ok S1 ->
  alike same_outcome (session dbg live e iv S1 C d) (session dbg live e iv S0 C (with_prep d (keep_keys d1 (sd_prep d)))).
Proof. exact L_C53_twice. Qed.
Print Assumptions C53_twice.

(** inputs 5 and 12 one after the other *)
Example C53_case : forall dbg live c0 c1 c2, live c0 = true -> live c1 = true -> live c2 = true ->
  exists S C S' C', fresh_server S /\
    evaluations dbg live small iv0 [(5, case_draws, 1); (12, case_draws, 1)] S C = Ok (S', C') /\ multiple live (result C') 85.
Proof.
  intros dbg live c0 c1 c2 L0 L1 L2.
  destruct (case_setup dbg live c0 c1 c2 L0 L1 L2) as [D [Q [S0 [S [E1 [E2 [E3 [E4 [SR [TH [FS [DG H]]]]]]]]]]]].
  destruct (H 5 (or_introl eq_refl)) as [CR [SC [R0 GD]]].
  destruct (L_C53_accumulate dbg live small iv0 [(5, case_draws, 1); (12, case_draws, 1)] S (client_new c2 (dcrs D)) 3 0
    case_aes SR (cr_otr _ _ _ CR) (cr_cur _ _ _ CR) SC) as [S' [C' [E R]]].
  - exact (multiple_inf live).
  - intros x d g [E|[E|[]]]; injection E as <- <- <-.
    + split; [lia|]. exact GD.
    + split; [lia|]. exact (proj2 (proj2 (proj2 (H 12 (or_intror eq_refl))))).
  - rewrite TH in R. exists S, (client_new c2 (dcrs D)), S', C'. split; [exact FS|]. split; [exact E|exact R].
Qed.
(** an evaluation that ended, then clean() on both sides, then another evaluation *)
Example C53_clean_case : forall dbg live c0 c1 c2, live c0 = true -> live c1 = true -> live c2 = true ->
  exists D Q N S0 P' S1, server_new dbg live c1 9 (dcrs D) 1 = Ok N /\ setSecret dbg live N Q = Ok (S0, P') /\
    history dbg live small iv0 [EMessage 5; ECleanServer 3; ECleanClient; EMessage 12] (S0, client_new c2 (dcrs D)) =
      Ok (S1, setMessage (client_new c2 (dcrs D)) 12) /\ fresh_server S1.
Proof.
  intros dbg live c0 c1 c2 L0 L1 L2.
  destruct (case_setup dbg live c0 c1 c2 L0 L1 L2) as [D [Q [N [S0 [E1 [E2 [E3 [E4 [SR [TH [FS [DG H]]]]]]]]]]]].
  pose proof (sr_ots _ _ _ SR) as [[c [Ec L]] _]. pose proof (sr_cur _ _ _ SR) as CU.
  destruct (OpprfProofs.randP_m dbg live c 3 L) as [g [Eg _]].
  exists D, Q, N, S0, (set_curve Q (Some c1)). eexists. split; [exact E3|]. split; [exact E4|]. split.
  - unfold history. cbn [foldM happens bind]. unfold server_clean. rewrite CU, Ec, Eg. reflexivity.
  - repeat split.
Qed.

(** C54. The server's tables cover the rounds 0 to 16 ... *)
Theorem C54_server : forall dbg live S round pk qa qb qc qp u v, length (Si0 S) = 16%nat -> length (Si1 S) = 16%nat ->
  dme_ok live (sdme (ots S)) -> pk_valid live pk -> rows_valid live S -> 0 <= round <= 16 ->
  exists r, runOTRound dbg live S round pk qa qb qc qp u v = Ok r.
Proof. exact L_C54_server_in. Qed.
Print Assumptions C54_server.

Theorem C54_server_outside : forall dbg live S round pk qa qb qc qp u v, length (Si0 S) = 16%nat -> round < 0 \/ 16 < round ->
  runOTRound dbg live S round pk qa qb qc qp u v = Err OutOfBounds.
Proof. exact L_C54_server_out. Qed.
Print Assumptions C54_server_outside.

(** ... the client's shift is defined for 1 to 32, where it reads bit round-1 of its input; ... *)
Theorem C54_client : forall dbg live C round x d, cx C = Some x -> 0 <= x < 2 ^ 16 -> 1 <= round <= 32 -> dme_ok live (rdme (otr C)) ->
  exists C' pk, runOTRound_start dbg live C round d = Ok (C', pk) /\ pk_valid live pk /\
    rbr (otr C') = Some (if round <=? 16 then (x / 2 ^ Z.of_nat (Z.to_nat (round - 1))) mod 2 else 0).
Proof. exact L_C54_client_in. Qed.
Print Assumptions C54_client.

Theorem C54_client_outside : forall dbg live C round x d, cx C = Some x -> round <= 0 \/ 33 <= round ->
  runOTRound_start dbg live C round d = Err SignedOverflow.
Proof. exact L_C54_client_out. Qed.
Print Assumptions C54_client_outside.

(** ... and without setMessage it reads an indeterminate input. *)
Theorem C54_no_message : forall dbg live C round d, cx C = None -> runOTRound_start dbg live C round d = Err Uninit.
Proof. exact L_C54_client_none. Qed.
Print Assumptions C54_no_message.

(** That is the state of a new client, and nothing but setMessage ends it. *)
Theorem C54_first_message : forall dbg live e iv c k S l S' C' round d,
  history dbg live e iv l (S, client_new c k) = Ok (S', C') -> (forall x, ~ In (EMessage x) l) ->
  runOTRound_start dbg live C' round d = Err Uninit.
Proof. exact L_C54_history. Qed.
Print Assumptions C54_first_message.

Example C54_first_message_case : forall dbg live e iv c k S,
  history dbg live e iv [ECleanClient; ECleanClient] (S, client_new c k) = Ok (S, client_new c k) /\
  runOTRound_start dbg live (client_new c k) 1 5 = Err Uninit.
Proof. intros. split; reflexivity. Qed.

Example C54_case : forall dbg live c0 c1 c2, live c0 = true -> live c1 = true -> live c2 = true ->
  exists S C C' pk r, runOTRound_start dbg live C 3 7 = Ok (C', pk) /\ rbr (otr C') = Some 1 /\
    runOTRound dbg live S 3 pk case_quad case_quad case_quad case_quad 0 0 = Ok r /\
    runOTRound dbg live S 17 pk case_quad case_quad case_quad case_quad 0 0 = Err OutOfBounds /\
    runOTRound_start dbg live C 0 7 = Err SignedOverflow.
Proof.
  intros dbg live c0 c1 c2 L0 L1 L2.
  destruct (case_setup dbg live c0 c1 c2 L0 L1 L2) as [D [Q [N [S0 [E1 [E2 [E3 [E4 [SR [TH [FS [DG H]]]]]]]]]]]].
  destruct (H 5 (or_introl eq_refl)) as [CR _].
  destruct (L_C54_client_in dbg live (setMessage (client_new c2 (dcrs D)) 5) 3 5 7 eq_refl ltac:(lia) ltac:(lia) (cr_otr _ _ _ CR)) as [C' [pk [E [V B]]]].
  assert (RV : rows_valid live N).
  { unfold server_new in E3. apply bind_Ok in E3. destruct E3 as [g [_ E3]]. apply Ok_inj in E3. subst N.
    split; [left; reflexivity|]. split; [left; reflexivity|]. split; apply Forall_forall; intros r I; apply repeat_spec in I; subst r; left; reflexivity. }
  assert (LN : length (Si0 N) = 16%nat /\ length (Si1 N) = 16%nat).
  { unfold server_new in E3. apply bind_Ok in E3. destruct E3 as [g [_ E3]]. apply Ok_inj in E3. subst N. split; reflexivity. }
  assert (ON : dme_ok live (sdme (ots N))).
  { unfold setSecret in E4. apply bind_Ok in E4. destruct E4 as [? [_ E4]]. apply bind_Ok in E4. destruct E4 as [? [_ E4]].
    apply Ok_inj in E4. apply (f_equal (fun p => ots (fst p))) in E4. cbn [fst ots] in E4. rewrite E4. apply (sr_ots _ _ _ SR). }
  destruct (L_C54_server_in dbg live N 3 pk case_quad case_quad case_quad case_quad 0 0 (proj1 LN) (proj2 LN) ON V RV ltac:(lia)) as [r R].
  exists N, (setMessage (client_new c2 (dcrs D)) 5), C', pk, r. split; [exact E|]. split; [exact B|]. split; [exact R|].
  split; [apply L_C54_server_out; [apply LN|lia]|apply (L_C54_client_out dbg live (setMessage (client_new c2 (dcrs D)) 5) 0 5 7 eq_refl); lia].
Qed.

(** C59. One key below 2^120 among the 48 makes the whole evaluation fail. *)
Theorem C59_short_key : forall dbg live e iv S C d s j, fresh_server S -> (j < 16)%nat ->
  Z.abs (level_key (sd_prep d) s j) < 2 ^ 120 -> exists f, session dbg live e iv S C d = Err f.
Proof. exact L_C59_session. Qed.
Print Assumptions C59_short_key.

(** Above the lowest level it is prepareKeysAndInputs that fails. *)
Theorem C59_prepare : forall dbg live e iv S d s j, fresh_server S -> (1 <= j < 16)%nat ->
  Z.abs (level_key d s j) < 2 ^ 120 -> exists f, prepareKeysAndInputs dbg live e iv S d = Err f.
Proof. exact L_C59_prepare. Qed.
Print Assumptions C59_prepare.

Example C59_case : forall dbg live S C, fresh_server S ->
  exists f, session dbg live small iv0 S C (mksd (mkpd 17 1 (fun _ => kA) (fun j => if (j =? 3)%nat then 2 ^ 119 else kB) (fun _ => kC) (fun _ => 1))
    (sd_round case_draws) 1 4 2 1) = Err f.
Proof. intros dbg live S C F. apply (L_C59_session dbg live small iv0 S C _ Eq 3 F); [lia|reflexivity]. Qed.

(** C60. setSecret checks the point only in debug builds. *)
Theorem C60_debug : forall live S P c, canon (fieldp CV) (px P) -> canon (fieldp CV) (py P) -> pinf P = false ->
  scur S = Some c -> live c = true ->
  (equation CV (fval (px P)) (fval (py P)) ->
     exists S', setSecret true live S P = Ok (S', set_curve P (scur S)) /\ ga S' = set_curve P (scur S) /\ is_valid live (ga S')) /\
  (~ equation CV (fval (px P)) (fval (py P)) -> setSecret true live S P = Err AssertFail).
Proof. exact L_C60_debug. Qed.
Print Assumptions C60_debug.

Theorem C60_release : forall live S P, exists S', setSecret false live S P = Ok (S', set_curve P (scur S)) /\ ga S' = set_curve P (scur S).
Proof. exact L_C60_release. Qed.
Print Assumptions C60_release.

Example C60_case : ~ equation CV 1 1 /\ equation CV (c_gx CV) (c_gy CV).
Proof. split; [intros H; vm_compute in H; discriminate H|vm_compute; reflexivity]. Qed.

(** C61. A zero draw in unmaskResult leaves no curve to evaluate on. *)
Theorem C61_zero_draw : forall dbg live e iv C c masks d m, ccur C = Some c -> live c = true -> (order | d) ->
  open_mask e iv (key C) masks = Ok (Some m) -> unmaskResult dbg live e iv C masks d = Err NullDeref.
Proof. exact L_C61. Qed.
Print Assumptions C61_zero_draw.

Example C61_case : open_mask small iv0 kA [cBB; cAA] = Ok (Some kA) /\
  forall dbg live c, live c = true ->
    unmaskResult dbg live small iv0 (mkcli (otrecv_new (dme_new_crs c crs_default)) (Some c) None (pt_inf CV) kA) [cBB; cAA] 0 = Err NullDeref.
Proof.
  assert (O : open_mask small iv0 kA [cBB; cAA] = Ok (Some kA)) by (vm_compute; reflexivity).
  split; [exact O|]. intros dbg live c L. apply (L_C61 dbg live small iv0 (mkcli (otrecv_new (dme_new_crs c crs_default)) (Some c) None (pt_inf CV) kA) c _ 0 kA eq_refl L); [exists 0; reflexivity|exact O].
Qed.
