(** Properties C101 to C103: any history of calls on one server of the oblivious PRF (src/opprf/opprf.cpp, src/opprf/opprf.h).
    [history l] makes the calls [l] one after the other on a server and a client; [effective l] is what counts of the preparations in
    [l]; [proper_history] says that every call can be answered; [share S r b] is the point that branch [b] of round [r] transfers. *)
From Coq Require Import ZArith Bool List Lia.
From Verif Require Import Outcome FieldModel ZpField SpecField ECGroup ECOrder CurveParams EccModel SpecEcc DmeModel SpecDme OtModel SpecOt CrcModel SpecCrc AesModel SpecAes.
From Verif Require Import OpprfModel SpecOpprf SpecOpprf6 OpprfProofs OpprfProofs13 OpprfProofs14 OpprfProofs15 OpprfCase OpprfCase6 Prop_Aes.
Import ListNotations.
Open Scope Z_scope.

(** C101. After any calls, on a server that began fresh, an evaluation goes as on the fresh server. If something was prepared since the
    last clean(), the keys and scalars of the first of these preparations are used and those of the new one are not. *)
Theorem C101_sessions : forall dbg live e iv S0 C0 l S C, fresh_server S0 -> history dbg live e iv l (S0, C0) = Ok (S, C) ->
  forall C' d, alike same_outcome (session dbg live e iv S C' d)
    (session dbg live e iv S0 C' (match effective l with None => d | Some p => with_prep d (keep_keys p (sd_prep d)) end)).
Proof. exact L_C101_sessions. Qed.
Print Assumptions C101_sessions.

(** All answers are those of the fresh server after the one preparation [effective l]. *)
Theorem C101_answers : forall dbg live e iv S0 C0 l S C p, fresh_server S0 -> history dbg live e iv l (S0, C0) = Ok (S, C) ->
  effective l = Some p -> exists T, prepareKeysAndInputs dbg live e iv S0 p = Ok T /\
    (forall round pk qa qb qc qp u v, alike (fun a b => snd a = snd b)
       (runOTRound dbg live S round pk qa qb qc qp u v) (runOTRound dbg live T round pk qa qb qc qp u v)) /\
    (forall d u v, sendEncryptedMasks dbg live e iv S d u v = sendEncryptedMasks dbg live e iv T d u v).
Proof. exact L_C101_answers. Qed.
Print Assumptions C101_answers.

(** Asking for the masks with nothing prepared reads outside the vectors. *)
Theorem C101_early : forall dbg live e iv S0 C0 l S C d u v, fresh_server S0 -> history dbg live e iv l (S0, C0) = Ok (S, C) ->
  effective l = None -> sendEncryptedMasks dbg live e iv S d u v = Err OutOfBounds.
Proof. exact L_C101_early. Qed.
Print Assumptions C101_early.

(** No order of proper calls, however many, has undefined behaviour or fails. *)
Theorem C101_safe : forall dbg live e iv S0 C0 a l, fresh_server S0 -> server_ready live S0 a -> aes_ready e iv ->
  is_valid live (lprf (Sl0 S0)) -> is_valid live (lprf (Sl1 S0)) -> proper_history e live None l ->
  exists S C, history dbg live e iv l (S0, C0) = Ok (S, C).
Proof. exact L_C101_safe. Qed.
Print Assumptions C101_safe.

(** A mask at infinity has no curve object to ask. *)
Theorem C101_mask_infinite : forall dbg live e iv S0 C0 a l S C p d u v, fresh_server S0 -> server_ready live S0 a ->
  history dbg live e iv l (S0, C0) = Ok (S, C) -> effective l = Some p -> aes_ready e iv ->
  (forall s j, (j < 16)%nat -> 2 ^ 120 <= level_key p s j < 2 ^ 128) ->
  (order | mask_of_prep p) -> sendEncryptedMasks dbg live e iv S d u v = Err NullDeref.
Proof. exact L_C101_mask_infinite. Qed.
Print Assumptions C101_mask_infinite.

(** eleven calls, among them three preparations too many *)
Example C101_case : forall dbg live c0 c1 c2, live c0 = true -> live c1 = true -> live c2 = true ->
  exists D Q N S0 S C C', dme_new dbg live c0 dec 1 1 1 0 = Ok D /\ getRandomPoint dbg live CV (Some c0) 3 = Ok Q /\
    server_new dbg live c1 9 (dcrs D) 1 = Ok N /\ setSecret dbg live N Q = Ok (S0, set_curve Q (Some c1)) /\ fresh_server S0 /\
    effective (many (mkpk Q Q)) = Some case_prep /\
    history dbg live small iv0 (many (mkpk Q Q)) (S0, C) = Ok (S, C) /\
    exists S', session dbg live small iv0 S (setMessage (client_new c2 (dcrs D)) 5) (with_prep case_draws no_keys) = Ok (S', C') /\
      multiple live (result C') 32.
Proof.
  intros dbg live c0 c1 c2 L0 L1 L2.
  destruct (case_setup dbg live c0 c1 c2 L0 L1 L2) as [D [Q [N [S0 [E1 [E2 [E3 [E4 [SR [TH [FS [DG H]]]]]]]]]]]].
  destruct (made_tops _ _ _ _ _ _ _ _ _ _ E3 E4) as [T0 T1].
  destruct (randP_m dbg live c0 3 L0) as [Q' [EQ MQ]]. rewrite E2 in EQ. apply Ok_inj in EQ. subst Q'.
  set (C := client_new c2 (dcrs D)).
  destruct (C101_safe dbg live small iv0 S0 C 3 (many (mkpk Q Q)) FS SR case_aes) as [S [C1 E]].
  { rewrite T0. left. reflexivity. } { rewrite T1. left. reflexivity. }
  { apply many_proper. split; exact (multiple_valid live _ _ MQ). }
  assert (EC : C1 = C) by (refine (server_calls dbg live small iv0 _ _ _ _ _ _ E); reflexivity).
  subst C1. destruct (H 5 (or_introl eq_refl)) as [CR [SC [R0 GD]]].
  destruct (L_session dbg live small iv0 S0 _ case_draws 3 5 0 case_aes SR CR SC GD) as [S' [C' [E5 [_ [_ [_ [_ [_ M]]]]]]]].
  { rewrite R0. split; [left; reflexivity|reflexivity]. }
  assert (EF : effective (many (mkpk Q Q)) = Some case_prep) by reflexivity.
  pose proof (C101_sessions dbg live small iv0 S0 C _ S C FS E (setMessage C 5) (with_prep case_draws no_keys)) as AL. rewrite EF in AL.
  change (with_prep (with_prep case_draws no_keys) (keep_keys case_prep (sd_prep (with_prep case_draws no_keys)))) with case_draws in AL.
  change (client_new c2 (dcrs D)) with C in E5. rewrite E5 in AL. destruct (session dbg live small iv0 S _ _) as [[S2 C2]|] eqn:E6; [|destruct AL]. cbn [alike] in AL.
  exists D, Q, N, S0, S, C, C2. split; [exact E1|]. split; [exact E2|]. split; [exact E3|]. split; [exact E4|]. split; [exact FS|]. split; [exact EF|].
  split; [exact E|]. exists S2. split; [exact E6|].
  assert (RE : result C2 = result C') by apply AL. rewrite RE. rewrite TH in M. exact M.
Qed.

(** C102. In every round the two branches differ by 2^(r-1) times the server's secret, with one blinding for both. *)
Theorem C102_gap : forall dbg live e iv S0 C0 a l S C r, fresh_server S0 -> server_ready live S0 a ->
  history dbg live e iv l (S0, C0) = Ok (S, C) -> 1 <= r <= 16 -> loaded l r ->
  exists w, multiple live (share S r 0) w /\ multiple live (share S r 1) (2 ^ (r - 1) * a + w).
Proof. exact L_C102_gap. Qed.
Print Assumptions C102_gap.

(** The server answers a round as often as it is asked. A client that asks for branch 0 and later for branch 1 of the same round, with
    public keys as selectMsg makes them, computes the server's secret from the two answers. Any calls that do not prepare again or clean
    may come in between. In round 16 not even clean() helps: it leaves Sl0 and Sl1 as they are. *)
Theorem C102_secret : forall dbg live e iv S0 C0 a l S C r D rk0 rk1 R0 pk0 R1 pk1 qa qb qc q0 u v qa' qb' qc' q1 u' v',
  fresh_server S0 -> server_ready live S0 a -> history dbg live e iv l (S0, C0) = Ok (S, C) -> 1 <= r <= 16 -> loaded l r ->
  dme_ok live D -> same_crs (dcrs (sdme (ots S0))) (dcrs D) ->
  selectMsg dbg live (otrecv_new D) 0 rk0 = Ok (R0, pk0) -> selectMsg dbg live (otrecv_new D) 1 rk1 = Ok (R1, pk1) ->
  (forall w, multiple live (share S r 0) w -> ot_ok live (dcrs D) 0 rk0 q0 w) ->
  (forall w, multiple live (share S r 1) w -> ot_ok live (dcrs D) 1 rk1 q1 w) ->
  exists S1 c0 P0, runOTRound dbg live S r pk0 qa qb qc q0 u v = Ok (S1, c0) /\ decryptMsg dbg live R0 (ocprf c0) = Ok P0 /\
    forall l' S2 C2, history dbg live e iv l' (S1, C) = Ok (S2, C2) -> Forall (quiet r) l' ->
    exists S3 c1 P1 N Q G, runOTRound dbg live S2 r pk1 qa' qb' qc' q1 u' v' = Ok (S3, c1) /\ decryptMsg dbg live R1 (ocprf c1) = Ok P1 /\
      pmulz dbg live CV P0 (-1) = Ok N /\ padd dbg live CV P1 N = Ok Q /\ pmulz dbg live CV Q (halve (r - 1)) = Ok G /\
      is_valid live G /\ same_point G (ga S0).
Proof. exact L_C102_secret. Qed.
Print Assumptions C102_secret.

(** With the secret, the value at one input not above the threshold gives the values at all inputs, also above it. *)
Theorem C102_values : forall dbg live e iv S0 C1 a d x1 G, aes_ready e iv -> server_ready live S0 a -> client_ready live C1 x1 ->
  same_crs (dcrs (sdme (ots S0))) (dcrs (rdme (otr C1))) ->
  good_draws dbg live e iv (dcrs (rdme (otr C1))) (sdme (ots S0)) (theta S0) a x1 d -> x1 <= theta S0 -> result C1 = pt_inf CV ->
  is_valid live G -> same_point G (ga S0) ->
  exists S C, session dbg live e iv S0 C1 d = Ok (S, C) /\ forall x, exists T V,
    pmulz dbg live CV G (x - x1) = Ok T /\ padd dbg live CV (result C) T = Ok V /\ is_valid live V /\
    den CV V = gadd CV (den CV (kopprf S)) (gmul CV x (den CV (ga S0))).
Proof. exact L_C102_values. Qed.
Print Assumptions C102_values.

(** a preparation, clean(), and then both branches of round 16 *)
Example C102_case : forall dbg live c0 c1 c2, live c0 = true -> live c1 = true -> live c2 = true ->
  exists D Q N S0 S R0 pk0 R1 pk1 S1 o0 P0 S3 o1 P1 M Q' G, dme_new dbg live c0 dec 1 1 1 0 = Ok D /\
    getRandomPoint dbg live CV (Some c0) 3 = Ok Q /\
    server_new dbg live c1 9 (dcrs D) 1 = Ok N /\ setSecret dbg live N Q = Ok (S0, set_curve Q (Some c1)) /\
    history dbg live small iv0 [EPrepare case_prep; ECleanServer 5] (S0, client_new c2 (dcrs D)) = Ok (S, client_new c2 (dcrs D)) /\
    selectMsg dbg live (otrecv_new (rdme (otr (client_new c2 (dcrs D))))) 0 1 = Ok (R0, pk0) /\
    selectMsg dbg live (otrecv_new (rdme (otr (client_new c2 (dcrs D))))) 1 1 = Ok (R1, pk1) /\
    runOTRound dbg live S 16 pk0 case_quad case_quad case_quad case_quad 0 0 = Ok (S1, o0) /\ decryptMsg dbg live R0 (ocprf o0) = Ok P0 /\
    runOTRound dbg live S1 16 pk1 case_quad case_quad case_quad case_quad 0 0 = Ok (S3, o1) /\ decryptMsg dbg live R1 (ocprf o1) = Ok P1 /\
    pmulz dbg live CV P0 (-1) = Ok M /\ padd dbg live CV P1 M = Ok Q' /\ pmulz dbg live CV Q' (halve 15) = Ok G /\ same_point G Q.
Proof.
  intros dbg live c0 c1 c2 L0 L1 L2.
  destruct (case_setup dbg live c0 c1 c2 L0 L1 L2) as [D [Q [N [S0 [E1 [E2 [E3 [E4 [SR [TH [FS [DG H]]]]]]]]]]]].
  destruct (made_tops _ _ _ _ _ _ _ _ _ _ E3 E4) as [T0 T1]. destruct (H 5 (or_introl eq_refl)) as [CR [SC _]].
  set (C := client_new c2 (dcrs D)) in *. set (l := [EPrepare case_prep; ECleanServer 5]).
  destruct (C101_safe dbg live small iv0 S0 C 3 l FS SR case_aes) as [S [C1 E]].
  { rewrite T0. left. reflexivity. } { rewrite T1. left. reflexivity. }
  { split; [intros _ s j _; apply case_keys_ok|]. split; exact I. }
  assert (EC : C1 = C) by (refine (server_calls dbg live small iv0 _ _ _ _ _ _ E); reflexivity). subst C1.
  set (K := rdme (otr C)). assert (OK : dme_ok live K) by exact (cr_otr _ _ _ CR).
  destruct (case_shares dbg live S0 C S C FS SR E) as [M0 M1].
  assert (A1 : all_one live (dcrs K)) by exact (case_all_one dbg live c0 c2 D L0 L2 E1).
  destruct (select_ok dbg live (otrecv_new K) 0 1 OK (or_introl eq_refl)) as [R0 [pk0 [ES0 _]]].
  destruct (select_ok dbg live (otrecv_new K) 1 1 OK (or_intror eq_refl)) as [R1 [pk1 [ES1 _]]].
  destruct (C102_secret dbg live small iv0 S0 C 3 l S C 16 K 1 1 R0 pk0 R1 pk1 case_quad case_quad case_quad case_quad 0 0
      case_quad case_quad case_quad case_quad 0 0 FS SR E ltac:(lia)) as [S1 [o0 [P0 [Eo [EP HH]]]]].
  { exists (EPrepare case_prep). split; [left; reflexivity|exact I]. } { exact OK. } { exact SC. } { exact ES0. } { exact ES1. }
  { intros w Mw. apply (ot_one live); [exact A1|]. apply (case_not_opposite live _ 1 w M0 Mw). lia. }
  { intros w Mw. apply (ot_one live); [exact A1|]. apply (case_not_opposite live _ (2 ^ 15 * 3 + 1) w M1 Mw). lia. }
  destruct (HH [] S1 C eq_refl (Forall_nil _)) as [S3 [o1 [P1 [M [Q' [G [Eo1 [EP1 [F1 [F2 [F3 [_ F4]]]]]]]]]]]].
  exists D, Q, N, S0, S, R0, pk0, R1, pk1, S1, o0, P0, S3, o1, P1, M, Q', G.
  split; [exact E1|]. split; [exact E2|]. split; [exact E3|]. split; [exact E4|]. split; [exact E|]. split; [exact ES0|]. split; [exact ES1|].
  split; [exact Eo|]. split; [exact EP|]. split; [exact Eo1|]. split; [exact EP1|]. split; [exact F1|]. split; [exact F2|]. split; [exact F3|].
  unfold same_point in *. rewrite <- DG. exact F4.
Qed.

(** C103. A server that prepares the next evaluation without clean() in between still works with the keys of the first. A client that was
    given the key of the lowest level in an evaluation at x1, not above the threshold, keeps it; in the next evaluation, at any x2, it
    opens the mask with the old key instead of its new one and has the value of the PRF at x2 under the new key, also when x2 is above
    the threshold. *)
Theorem C103_bypass : forall dbg live e iv S0 C1 C2 d1 d2 a x1 x2, aes_ready e iv -> fresh_server S0 -> server_ready live S0 a ->
  client_ready live C1 x1 -> client_ready live C2 x2 ->
  same_crs (dcrs (sdme (ots S0))) (dcrs (rdme (otr C1))) -> same_crs (dcrs (sdme (ots S0))) (dcrs (rdme (otr C2))) ->
  good_draws dbg live e iv (dcrs (rdme (otr C1))) (sdme (ots S0)) (theta S0) a x1 d1 -> x1 <= theta S0 ->
  result C1 = pt_inf CV -> result C2 = pt_inf CV ->
  (let d := with_prep d2 (keep_keys (sd_prep d1) (sd_prep d2)) in
   good_draws dbg live e iv (dcrs (rdme (otr C2))) (sdme (ots S0)) (theta S0) a x2 d /\ masks_open dbg live e iv d (x1 ?= theta S0)) ->
  exists S1 C1' S2 S3 C3 ms C4, session dbg live e iv S0 C1 d1 = Ok (S1, C1') /\ prepareKeysAndInputs dbg live e iv S1 (sd_prep d2) = Ok S2 /\
    foldM (one_round dbg live e iv) (map (fun r => (r, sd_round d2 r)) rounds) (S2, C2) = Ok (S3, C3) /\
    sendEncryptedMasks dbg live e iv S3 (sd_random d2) (sd_u d2) (sd_v d2) = Ok ms /\
    unmaskResult dbg live e iv (with_key C3 (key C1')) ms (sd_mask d2) = Ok C4 /\
    is_valid live (result C4) /\ den CV (result C4) = gadd CV (den CV (kopprf S3)) (gmul CV x2 (den CV (ga S0))).
Proof. exact L_C103_bypass. Qed.
Print Assumptions C103_bypass.

(** threshold 9: an evaluation at 5, then one at 12 that ends with the value at 12 *)
Example C103_case : forall dbg live c0 c1 c2, live c0 = true -> live c1 = true -> live c2 = true ->
  exists D Q N S0 S1 C1' S2 S3 C3 ms C4, dme_new dbg live c0 dec 1 1 1 0 = Ok D /\ getRandomPoint dbg live CV (Some c0) 3 = Ok Q /\
    server_new dbg live c1 9 (dcrs D) 1 = Ok N /\ setSecret dbg live N Q = Ok (S0, set_curve Q (Some c1)) /\
    session dbg live small iv0 S0 (setMessage (client_new c2 (dcrs D)) 5) case_draws = Ok (S1, C1') /\
    prepareKeysAndInputs dbg live small iv0 S1 no_keys = Ok S2 /\
    foldM (one_round dbg live small iv0) (map (fun r => (r, sd_round case_draws r)) rounds) (S2, setMessage (client_new c2 (dcrs D)) 12) = Ok (S3, C3) /\
    sendEncryptedMasks dbg live small iv0 S3 1 4 2 = Ok ms /\
    unmaskResult dbg live small iv0 (with_key C3 (key C1')) ms 1 = Ok C4 /\
    den CV (result C4) = gadd CV (den CV (kopprf S3)) (gmul CV 12 (den CV Q)).
Proof.
  intros dbg live c0 c1 c2 L0 L1 L2.
  destruct (case_setup dbg live c0 c1 c2 L0 L1 L2) as [D [Q [N [S0 [E1 [E2 [E3 [E4 [SR [TH [FS [DG H]]]]]]]]]]]].
  destruct (H 5 (or_introl eq_refl)) as [CR [SC [R0 GD]]]. destruct (H 12 (or_intror eq_refl)) as [CR' [SC' [R0' GD']]].
  destruct (C103_bypass dbg live small iv0 S0 _ _ case_draws (with_prep case_draws no_keys) 3 5 12 case_aes FS SR CR CR' SC SC' GD ltac:(lia) R0 R0')
    as [S1 [C1' [S2 [S3 [C3 [ms [C4 [F1 [F2 [F3 [F4 [F5 [_ F6]]]]]]]]]]]]].
  { cbv zeta. split; [exact GD'|]. exact (gd_mask _ _ _ _ _ _ _ _ _ _ GD). }
  exists D, Q, N, S0, S1, C1', S2, S3, C3, ms, C4. split; [exact E1|]. split; [exact E2|]. split; [exact E3|]. split; [exact E4|].
  split; [exact F1|]. split; [exact F2|]. split; [exact F3|]. split; [exact F4|]. split; [exact F5|]. rewrite <- DG. exact F6.
Qed.
