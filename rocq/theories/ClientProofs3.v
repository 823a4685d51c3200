(** The oblivious PRF with a client that sends any public keys it likes: whole evaluations. *)
From Coq Require Import ZArith Znumtheory Bool List Lia.
From Verif Require Import Outcome FieldModel ZpField SpecField FieldProofs ECGroup ECOrder CurveParams CurveFacts EccModel EccProofs SpecEcc EccThms Emb RF DmeModel SpecDme DmeProofs OtModel OtProofs SpecOt CrcModel AesModel OpprfModel SpecOpprf SpecOpprf6 OpprfProofs OpprfProofs3 OpprfProofs8 SpecCount CountMath SpecDdh SpecDdh2 SpecDdh3 SpecDdh4 DdhProofs DdhProofs2 DdhCases DdhMany DdhMany2 DdhHear DdhHear5 SpecCheat CheatProofs CheatProofs2 SpecIdeal IdealProofs SpecClient ClientMath ClientProofs ClientProofs2.
Import ListNotations.
Open Scope Z_scope.

Section Client.
  Variables (dbg : bool) (live : Z -> bool) (e : env) (iv : list Z).
  Notation prepared := (prepared live e iv).
  Notation prepare := (prepareKeysAndInputs dbg live e iv).
  Variables (X : dme) (th : Z).
  Notation stands := (stands live X th).
  Hypothesis AR : aes_ready e iv.

  (** ** The masks *)
  Lemma turned m y z r : (m | z - y) -> (m | y - (z - 0 * r)).
  Proof. intros M. replace (y - (z - 0 * r)) with (- (z - y)) by ring. rewrite Z.divide_opp_r. exact M. Qed.
  Lemma even m k r s : (m | k - r * (0 + s) - (k - s * r)).
  Proof. replace (k - r * (0 + s) - (k - s * r)) with 0 by ring. apply Z.divide_0_r. Qed.
  Lemma other m r z z' : (m | z - z') -> (m | z' - (z - 0 * r)).
  Proof. intros M. replace (z' - (z - 0 * r)) with (- (z - z')) by ring. rewrite Z.divide_opp_r. exact M. Qed.
  Lemma zero_sum p k (w : nonces) : fst w = 0 -> sum_to (d_ok (with_shares p k (repeat w 16))) 16 = 0.
  Proof.
    intros E. assert (F : forall n, (n <= 16)%nat -> sum_to (d_ok (with_shares p k (repeat w 16))) n = 0); [|apply F; lia].
    intros n. induction n as [|n IH]; intros L; [reflexivity|]. cbn [sum_to]. rewrite IH, repeat_share, E by lia. reflexivity.
  Qed.
  Lemma masks_ok' a a' B0 B S p d z : stands a B0 -> stands a' B -> keyed (sd_prep d) -> based live B S p ->
    (forall s i, level_key p s i = level_key (sd_prep d) s i) -> (order | z - mask_of_prep p) ->
    sendEncryptedMasks dbg live e iv S (sd_random d) (sd_u d) (sd_v d) = masks_at dbg live e iv B0 d z.
  Proof.
    intros H0 HB K BA EK M. unfold masks_at. set (w := zeroes).
    destruct (prepared_from dbg live e iv X th AR a B0 _ H0 (shares_keyed (sd_prep d) z (repeat w 16) K)) as [T [ET [BT _]]].
    fold w. rewrite ET. cbn [bind]. 
    destruct H0 as [SR0 [D0 _]], HB as [SRB [DB _]]. pose proof (sr_ots _ _ _ SR0) as [[c [Ec L]] _].
    assert (C0 : scur B0 = Some c) by (rewrite (sr_cur _ _ _ SR0); exact Ec). assert (CB : scur B = Some c) by (rewrite (sr_cur _ _ _ SRB), DB, <- D0; exact Ec).
    apply (masks_same dbg live e iv B0 B T S (with_shares (sd_prep d) z (repeat w 16)) p _ _ _ c BT BA C0 CB L).
    - intros s i. rewrite shares_keys. apply EK.
    - rewrite (zero_sum (sd_prep d) z w eq_refl). apply mk_order_eq. cbn [with_shares d_kopprf]. unfold mask_of_prep in M. 
      apply turned, M.
  Qed.
  Lemma masks_cong a B0 d z z' : stands a B0 -> keyed (sd_prep d) -> (order | z - z') -> masks_at dbg live e iv B0 d z = masks_at dbg live e iv B0 d z'.
  Proof.
    intros H0 K M. set (w := zeroes).
    destruct (prepared_from dbg live e iv X th AR a B0 _ H0 (shares_keyed (sd_prep d) z (repeat w 16) K)) as [T [ET [BT _]]].
    transitivity (sendEncryptedMasks dbg live e iv T (sd_random d) (sd_u d) (sd_v d)).
    - unfold masks_at. fold w. rewrite ET. reflexivity.
    - apply (masks_ok' a a B0 B0 T _ d z' H0 H0 K BT); [intros; apply shares_keys|]. unfold mask_of_prep. rewrite (zero_sum (sd_prep d) z w eq_refl). cbn [with_shares d_kopprf].
      apply other, M.
  Qed.

  (** ** The rounds *)
  Notation knows := (knows live X).
  Notation total_of := (tot (fst : nonces -> Z)).
  Definition shown (B0 : server) (d : session_draws) (K : list reply -> pkey) (j : nat) (h : list reply) (w : nonces) : reply := shows dbg live e iv B0 d (K h) j w.
  Lemma asks_ok a B0 B d K p : stands a B0 -> stands a B -> keyed (sd_prep d) -> (forall s i, level_key p s i = level_key (sd_prep d) s i) -> d_r p = d_r (sd_prep d) -> (forall h, knows (K h)) ->
    forall n ws S h, (n <= 16)%nat -> length ws = n -> (forall i, (i < n)%nat -> d_ok p (n - 1 - i) = nth i (map fst ws) 0) -> prepared B S p a ->
    exists S', asks dbg live S K d n ws h = Ok (S', views (shown B0 d K) n h ws) /\ prepared B S' p a.
  Proof.
    intros H0 HB KD EK ER HK. induction n as [|n IH]; intros ws S h L E HO P.
    - exists S. split; [destruct ws; reflexivity|exact P].
    - destruct ws as [|w ws]; [discriminate E|].
      assert (EO : d_ok p n = fst w) by (specialize (HO 0%nat ltac:(lia)); replace (Datatypes.S n - 1 - 0)%nat with n in HO by lia; exact HO).
      destruct (shows_ok dbg live e iv X th AR a B0 B S p d (K h) n w H0 HB KD P EK ER EO (HK h) ltac:(lia)) as [S1 [o [E1 [P1 R1]]]].
      destruct (IH ws S1 (h ++ [reply_of o])) as [S2 [E2 P2]]; [lia|cbn [length] in E; lia| |exact P1|].
      + intros i I. specialize (HO (Datatypes.S i) ltac:(lia)). replace (Datatypes.S n - 1 - Datatypes.S i)%nat with (n - 1 - i)%nat in HO by lia. exact HO.
      + exists S2. split; [|exact P2]. destruct w as [o0 [[[qa qb] qc] qp]]. cbn [asks]. cbv zeta in E1. rewrite E1. cbn [bind fst snd]. rewrite E2. cbn [views]. unfold shown at 3. rewrite <- R1. reflexivity.
  Qed.
  Lemma sum_total p : forall n ws, length ws = n -> (forall i, (i < n)%nat -> d_ok p (n - 1 - i) = nth i (map fst ws) 0) -> sum_to (d_ok p) n = total_of ws.
  Proof.
    induction n as [|n IH]; intros ws E HO; [destruct ws; [reflexivity|discriminate E]|]. destruct ws as [|w ws]; [discriminate E|]. cbn [sum_to tot fold_right]. fold (total_of ws).
    assert (EO : d_ok p n = fst w) by (specialize (HO 0%nat ltac:(lia)); replace (Datatypes.S n - 1 - 0)%nat with n in HO by lia; exact HO). rewrite EO, <- (IH ws); [ring|cbn [length] in E; lia|].
    intros i I. specialize (HO (Datatypes.S i) ltac:(lia)). replace (Datatypes.S n - 1 - Datatypes.S i)%nat with (n - 1 - i)%nat in HO by lia. exact HO.
  Qed.
  Lemma evaluated_ok a a1 B0 B1 B d g K z : stands a B0 -> stands a B -> stands a1 B1 -> keyed (sd_prep d) -> (forall h, knows (K h)) -> length (fst z) = 16%nat ->
    exists B', stands a B' /\ evaluated dbg live e iv B K d g z = do ms <- masks_at dbg live e iv B1 d (snd z - d_r (sd_prep d) * (0 + total_of (fst z))); Ok (B', (views (shown B0 d K) 16 [] (fst z), ms)).
  Proof.
    intros H0 HB H1 KD HK L. destruct z as [ws k]. cbn [fst snd] in *. unfold evaluated. cbn [fst snd].
    destruct (prepared_from dbg live e iv X th AR a B _ HB (shares_keyed (sd_prep d) k ws KD)) as [S1 [E1 P1]]. rewrite E1. cbn [bind].
    assert (HO : forall i, (i < 16)%nat -> d_ok (with_shares (sd_prep d) k ws) (16 - 1 - i) = nth i (map fst ws) 0).
    { intros i I. cbn [with_shares d_ok]. replace (15 - (16 - 1 - i))%nat with i by lia. reflexivity. }
    destruct (asks_ok a B0 B d K (with_shares (sd_prep d) k ws) H0 HB KD (shares_keys (sd_prep d) k ws) eq_refl HK 16 ws S1 [] (le_n 16) L HO P1) as [S2 [E2 P2]].
    rewrite E2. cbn [bind fst snd]. destruct P2 as [BA _].
    rewrite (masks_ok' a1 a B1 B S2 (with_shares (sd_prep d) k ws) d (k - d_r (sd_prep d) * (0 + total_of ws)) H1 HB KD BA (shares_keys (sd_prep d) k ws)).
    2: { unfold mask_of_prep. rewrite (sum_total (with_shares (sd_prep d) k ws) 16 ws L HO). cbn [with_shares d_kopprf d_r]. apply even. }
    pose proof HB as [SR [DB TB]]. destruct (clean_ready dbg live B S2 a _ g SR BA) as [S3 [E3 [SR3 [D3 T3]]]]. exists S3.
    split; [split; [exact SR3|split; [rewrite D3; exact DB|rewrite T3; exact TB]]|]. rewrite E3. reflexivity.
  Qed.

  (** ** Evaluations as a function of the draws *)
  Fixpoint runs (B0 B1 : server) (K : list sight -> list reply -> pkey) (E : list sight -> session_draws * Z) (l : list (list nonces * Z)) (H : list sight) : res (list sight) :=
    match l with
    | [] => Ok H
    | z :: l' => let d := fst (E H) in do ms <- masks_at dbg live e iv B1 d (snd z - d_r (sd_prep d) * (0 + total_of (fst z))); runs B0 B1 K E l' (H ++ [(views (shown B0 d (K H)) 16 [] (fst z), ms)])
    end.
  Lemma evaluations_ok a a1 B0 B1 K E : stands a B0 -> stands a1 B1 -> (forall H, keyed (sd_prep (fst (E H)))) -> (forall H h, knows (K H h)) ->
    forall l B H, stands a B -> Forall fits l -> evaluations dbg live e iv B K E l H = runs B0 B1 K E l H.
  Proof.
    intros H0 H1 KD HK. induction l as [|z l IH]; intros B H HB F; [reflexivity|]. cbn [evaluations runs]. cbv zeta.
    destruct (evaluated_ok a a1 B0 B1 B (fst (E H)) (snd (E H)) (K H) z H0 HB H1 (KD H) (HK H) (proj1 (Forall_inv F))) as [B' [HB' ->]].
    destruct (masks_at _ _ _ _ _ _ _) as [ms|f]; [|reflexivity]. cbn [bind fst snd]. apply IH; [exact HB'|exact (Forall_inv_tail F)].
  Qed.

  (** ** Counting *)
  Variables (a a' : Z) (B0 B1 : server) (K : list sight -> list reply -> pkey) (E : list sight -> session_draws * Z) (A : list sight -> bool).
  Hypothesis H0 : stands a B0.
  Hypothesis H1 : stands a' B1.
  Hypothesis KD : forall H, keyed (sd_prep (fst (E H))).
  Hypothesis NR : forall H, ~ (order | d_r (sd_prep (fst (E H)))).
  Hypothesis HK : forall H h, knows (K H h).

  Lemma heads (R : list nonces * Z -> list (list nonces * Z) -> Prop) n N : how_many (fun y : (list nonces * Z) * list (list nonces * Z) => fits (fst y) /\ (length (snd y) = n /\ Forall fits (snd y) /\ R (fst y) (snd y))) N ->
    how_many (fun l => length l = Datatypes.S n /\ Forall fits l /\ match l with z :: l' => R z l' | [] => False end) N.
  Proof.
    intros H. refine (how_many_map (fun y => fst y :: snd y) _ _ _ H _ _).
    - intros [q l] [q' l'] _ _ Q. cbn [fst snd] in Q. congruence.
    - intros l. split.
      + intros [L [F Q]]. destruct l as [|q l]; [destruct Q|]. exists (q, l). cbn [fst snd]. split; [|reflexivity]. cbn [length] in L.
        split; [exact (Forall_inv F)|]. split; [lia|]. split; [exact (Forall_inv_tail F)|exact Q].
      + intros [[q l'] [[Q [L [F Y]]] <-]]. cbn [fst snd length] in *. split; [lia|]. split; [constructor; assumption|exact Y].
  Qed.
  Lemma runs_count : forall n H, exists N, convinced (fun l => runs B0 B0 K E l H) n A N /\ convinced (fun l => runs B1 B0 K E l H) n A N.
  Proof.
    induction n as [|n IH]; intros H; unfold convinced.
    - destruct (A H) eqn:EA.
      + exists 1. split; (exists [[]]; split; [constructor; [intros []|constructor]|split; [|reflexivity]]; intros l; split;
          [intros [<-|[]]; split; [reflexivity|split; [constructor|exists H; split; [reflexivity|exact EA]]]|intros [L _]; destruct l; [left; reflexivity|discriminate L]]).
      + exists 0. split; apply how_many_none; intros l [L [_ [H' [Q EA']]]]; (destruct l; [|discriminate L]); apply Ok_inj in Q; congruence.
    - set (d := fst (E H)). set (dr := d_r (sd_prep d)).
      set (Q := fun (B : server) (h : list reply) (z : Z) (l : list (list nonces * Z)) => length l = n /\ Forall fits l /\ exists H', (do ms <- masks_at dbg live e iv B0 d z; runs B B0 K E l (H ++ [(h, ms)])) = Ok H' /\ A H' = true).
      destruct (alike_counts in_range _ fst dr range_count' (shown B0 d (K H)) (shown B1 d (K H)) (Q B0) (Q B1) 16%nat) with (n := 16%nat) (h := @nil reply) (s := 0) (s' := 0) as [N [C1 C2]].
      + intros j h J. apply (shows_swap dbg live e iv X th AR a a' B0 B1 d (K H h) j H0 H1 (KD H) (NR H) (HK H h) J).
      + intros h z z' M. unfold Q. rewrite <- (masks_cong a B0 d z z' H0 (KD H) M). destruct (masks_at dbg live e iv B0 d z) as [ms|f].
        * cbn [bind]. destruct (IH (H ++ [(h, ms)])) as [N [C1 C2]]. exists N. split; assumption.
        * exists 0. split; apply how_many_none; intros l [_ [_ [H' [Y _]]]]; discriminate Y.
      + apply le_n.
      + exists N. split.
        * refine (how_many_same _ _ _ _ (heads (fun z l => exists H', runs B0 B0 K E (z :: l) H = Ok H' /\ A H' = true) n N (how_many_same _ _ _ _ C1))); [|intros y; reflexivity].
          intros l. destruct l; [split; intros [L _]; discriminate L|reflexivity].
        * refine (how_many_same _ _ _ _ (heads (fun z l => exists H', runs B1 B0 K E (z :: l) H = Ok H' /\ A H' = true) n N (how_many_same _ _ _ _ C2))); [|intros y; reflexivity].
          intros l. destruct l; [split; intros [L _]; discriminate L|reflexivity].
  Qed.
End Client.
