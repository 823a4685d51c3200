(** The oblivious PRF with a client that sends any public keys it likes: the views as functions of the draws. *)
From Coq Require Import ZArith Znumtheory Bool List Lia.
From Verif Require Import Outcome FieldModel ZpField SpecField FieldProofs ECGroup ECOrder CurveParams CurveFacts EccModel EccProofs SpecEcc EccThms Emb RF DmeModel SpecDme DmeProofs OtModel OtProofs SpecOt CrcModel AesModel OpprfModel SpecOpprf SpecOpprf6 OpprfProofs OpprfProofs3 OpprfProofs8 SpecCount CountMath SpecDdh SpecDdh2 SpecDdh3 SpecDdh4 DdhProofs DdhProofs2 DdhCases DdhMany DdhMany2 DdhHear DdhHear5 SpecCheat CheatProofs CheatProofs2 SpecIdeal IdealProofs SpecClient ClientMath ClientProofs.
Import ListNotations.
Open Scope Z_scope.

Lemma range_count' : how_many in_range (order * (order * order * order * order * (order * order * order * order) * (order * order * order * order) * (order * order * order * order))).
Proof.
  pose proof (four_count (fun _ => true)) as F. refine (how_many_same _ _ _ _ (how_many_prod _ _ _ _ draws (how_many_prod _ _ _ _ (how_many_prod _ _ _ _ (how_many_prod _ _ _ _ F F) F) F))).
  intros [o [[[qa qb] qc] qp]]. unfold in_range. cbn [fst snd]. tauto.
Qed.

Section Client.
  Variables (dbg : bool) (live : Z -> bool) (e : env) (iv : list Z).
  Notation like := (DdhMany2.like live).
  Notation dlike := (dlike live).
  Notation prepared := (prepared live e iv).
  Notation prepare := (prepareKeysAndInputs dbg live e iv).
  Definition keyed (p : prep_draws) : Prop := forall s j, (j < 16)%nat -> 2 ^ 120 <= level_key p s j < 2 ^ 128.

  Lemma shares_keys p k ws s j : level_key (with_shares p k ws) s j = level_key p s j.
  Proof. destruct s; reflexivity. Qed.
  Lemma shares_keyed p k ws : keyed p -> keyed (with_shares p k ws).
  Proof. intros H s j J. rewrite shares_keys. apply H, J. Qed.

  (** a server before an evaluation *)
  Definition stands (X : dme) (th a : Z) (S : server) : Prop := server_ready live S a /\ sdme (ots S) = X /\ theta S = th.

  Variables (X : dme) (th : Z).
  Hypothesis AR : aes_ready e iv.

  (** the reply of round j+1, from a server all of whose scalars are the same *)
  Definition shows (B : server) (d : session_draws) (pk : pkey) (j : nat) (w : nonces) : reply :=
    let '(o, (qa, qb, qc, qp)) := w in let r := Z.of_nat (Datatypes.S j) in
    match (do T <- prepare B (with_shares (sd_prep d) 0 (repeat w 16)); runOTRound dbg live T r pk (to_quad qa) (to_quad qb) (to_quad qc) (to_quad qp) (rd_u (sd_round d r)) (rd_v (sd_round d r))) with
    | Ok x => reply_of (snd x)
    | Err _ => ([], [])
    end.
  (** the masks for a mask point with the logarithm z *)
  Definition zeroes : nonces := (0, ((0, 0, 0, 0), (0, 0, 0, 0), (0, 0, 0, 0), (0, 0, 0, 0))).
  Definition masks_at (B : server) (d : session_draws) (z : Z) : res (list Z) :=
    do T <- prepare B (with_shares (sd_prep d) z (repeat zeroes 16));
    sendEncryptedMasks dbg live e iv T (sd_random d) (sd_u d) (sd_v d).

  Lemma repeat_share p k (w : nonces) j : (j < 16)%nat -> d_ok (with_shares p k (repeat w 16)) j = fst w.
  Proof. intros J. cbn [with_shares d_ok]. assert (F : forall n i, (i < n)%nat -> nth i (map fst (repeat w n)) 0 = fst w); [|apply F; lia].
    intros n. induction n as [|n IH]; intros i I; [lia|]. destruct i as [|i]; [reflexivity|]. cbn [repeat map nth]. apply IH. lia. Qed.

  Lemma prepared_from a B p : stands X th a B -> keyed p -> exists T, prepare B p = Ok T /\ prepared B T p a.
  Proof.
    intros [SR [_ ET]] K. destruct (prepare_ok dbg live e iv B p a AR SR K) as [T [E [BA [T0 [T1 [_ RW]]]]]]. exists T. split; [exact E|]. split; [exact BA|]. split; [exact T0|]. split; [exact T1|exact RW].
  Qed.

  (** ** The replies are those of [shows] *)
  Definition knows (pk : pkey) : Prop := exists b, branch b /\ messy_branch live X pk b.
  Lemma shows_ok a B0 B S p d pk j (w : nonces) : stands X th a B0 -> stands X th a B -> keyed (sd_prep d) -> prepared B S p a ->
    (forall s i, level_key p s i = level_key (sd_prep d) s i) -> d_r p = d_r (sd_prep d) -> d_ok p j = fst w -> knows pk -> (j < 16)%nat ->
    exists S' o, (let '(_, (qa, qb, qc, qp)) := w in let r := Z.of_nat (Datatypes.S j) in
      runOTRound dbg live S r pk (to_quad qa) (to_quad qb) (to_quad qc) (to_quad qp) (rd_u (sd_round d r)) (rd_v (sd_round d r))) = Ok (S', o) /\
      prepared B S' p a /\ reply_of o = shows B0 d pk j w.
  Proof.
    intros H0 HB K P EK ER EO [b [_ [c [a0 [a1 [b0 [b1 [x [y [HD [HX [HY _]]]]]]]]]]]] J.
    destruct (prepared_from a B0 _ H0 (shares_keyed (sd_prep d) 0 (repeat w 16) K)) as [T [ET PT]].
    pose proof (repeat_share (sd_prep d) 0 w j J) as ES. unfold shows. destruct w as [o [[[qa qb] qc] qp]]. cbn [fst] in ES, EO. cbv zeta. rewrite ET. cbn [bind].
    destruct H0 as [_ [D0 T0]], HB as [_ [DB TB]].
    destruct (round_alike dbg live e iv B B0 S T p (with_shares (sd_prep d) 0 (@repeat nonces (o, (qa, qb, qc, qp)) 16)) a a c a0 a1 b0 b1 pk x y j (to_quad qa) (to_quad qb) (to_quad qc) (to_quad qp) (to_quad qp)
      (rd_u (sd_round d (Z.of_nat (Datatypes.S j)))) (rd_v (sd_round d (Z.of_nat (Datatypes.S j)))) P PT) as [S1 [S2 [o1 [o2 [E1 [P1 [E2 [P2 ER2]]]]]]]].
    - rewrite D0, DB. reflexivity.
    - rewrite T0, TB. reflexivity.
    - intros s i. rewrite shares_keys, EK. reflexivity.
    - rewrite DB. exact HD.
    - exact HX.
    - exact HY.
    - exact J.
    - intros m0 m1 m0' m1' M0 M1 M0' M1'. rewrite ES in M0', M1'. change (d_r (with_shares (sd_prep d) 0 (@repeat nonces (o, (qa, qb, qc, qp)) 16))) with (d_r (sd_prep d)) in M0', M1'.
      rewrite EO, ER in M0, M1. unfold sees. rewrite M0, M1, M0', M1'. split; reflexivity.
    - exists S1, o1. split; [exact E1|]. split; [exact P1|]. rewrite E2. symmetry. exact ER2.
  Qed.

  (** ** Another secret *)
  Lemma shows_is B d pk j o qa qb qc qp T S2 o2 : prepare B (with_shares (sd_prep d) 0 (@repeat nonces (o, (qa, qb, qc, qp)) 16)) = Ok T ->
    runOTRound dbg live T (Z.of_nat (Datatypes.S j)) pk (to_quad qa) (to_quad qb) (to_quad qc) (to_quad qp) (rd_u (sd_round d (Z.of_nat (Datatypes.S j)))) (rd_v (sd_round d (Z.of_nat (Datatypes.S j)))) = Ok (S2, o2) ->
    shows B d pk j (o, (qa, qb, qc, qp)) = reply_of o2.
  Proof. intros E1 E2. unfold shows. cbv zeta. rewrite E1. cbn [bind]. rewrite E2. reflexivity. Qed.
  Definition at_quad (b p q : Z) (z : fourth) : fourth := let '(s0, t0, s1, t1) := z in if b =? 0 then (moved p s0, moved q t0, s1, t1) else (s0, t0, moved p s1, moved q t1).
  Lemma at_quad_back b p q z : four z -> four (at_quad b p q z) /\ at_quad b (- p) (- q) (at_quad b p q z) = z.
  Proof.
    destruct z as [[[s0 t0] s1] t1]. intros [D0 [D1 [D2 D3]]]. unfold at_quad. destruct (b =? 0); rewrite !moved_back by assumption; (split; [|reflexivity]).
    - split; [apply moved_draw|]. split; [apply moved_draw|]. split; assumption.
    - split; [assumption|]. split; [assumption|]. split; apply moved_draw.
  Qed.
  Definition exchanged (b k p q : Z) (w : nonces) : nonces := let '(o, (qa, qb, qc, qp)) := w in (moved k o, (qa, qb, qc, at_quad b p q qp)).
  Lemma exchanged_back b k p q w : in_range w -> in_range (exchanged b k p q w) /\ exchanged b (- k) (- p) (- q) (exchanged b k p q w) = w.
  Proof.
    destruct w as [o [[[qa qb] qc] qp]]. intros [DO [QA [QB [QC QP]]]]. destruct (at_quad_back b p q qp QP) as [Q1 Q2]. unfold exchanged. rewrite Q2, moved_back by exact DO. split; [|reflexivity].
    split; [apply moved_draw|]. split; [exact QA|]. split; [exact QB|]. split; [exact QC|exact Q1].
  Qed.
  Lemma sees_same a b x y m m' s t : den CV m' = den CV m -> sees a b x y m' s t = sees a b x y m s t.
  Proof. unfold sees. intros ->. reflexivity. Qed.
  Lemma moved_mod k o : (order | o - moved k o + k).
  Proof. unfold moved. pose proof (Z.div_mod (o + k) order ltac:(pose proof order_pos; lia)) as E. exists ((o + k) / order). lia. Qed.

  Lemma shows_swap a a' B B' d pk j : stands X th a B -> stands X th a' B' -> keyed (sd_prep d) -> ~ (order | d_r (sd_prep d)) -> knows pk -> (j < 16)%nat ->
    exists f g, (forall w, in_range w -> in_range (f w) /\ g (f w) = w) /\ (forall w, in_range w -> in_range (g w) /\ f (g w) = w) /\
      forall w, in_range w -> shows B' d pk j (f w) = shows B d pk j w.
  Proof.
    intros HB HB' K NR [b [Hb [c [a0 [a1 [b0 [b1 [x [y [HD [HX [HY H]]]]]]]]]]]] J. set (r := d_r (sd_prep d)) in *.
    set (t := 2 ^ Z.of_nat j * (a - a')). destruct (order_inv r NR) as [i Hi]. set (k := (1 - b) * t * i).
    assert (HK : (order | k * r - (1 - b) * t)) by (unfold k; replace ((1 - b) * t * i * r - (1 - b) * t) with ((1 - b) * t * (i * r - 1)) by ring; apply Z.divide_mul_r, Hi).
    destruct (H ((2 * b - 1) * t)) as [p [q [H1 H2]]].
    exists (exchanged b k p q), (exchanged b (- k) (- p) (- q)). split; [intros w R; apply exchanged_back, R|]. split.
    { intros w R. destruct (exchanged_back b (- k) (- p) (- q) w R) as [R1 R2]. rewrite !Z.opp_involutive in R2. split; assumption. }
    intros [o [[[qa qb] qc] [[[s0 t0] s1] t1]]] _. set (w := (o, (qa, qb, qc, (s0, t0, s1, t1))) : nonces). set (w' := exchanged b k p q w).
    destruct (prepared_from a B _ HB (shares_keyed (sd_prep d) 0 (repeat w 16) K)) as [T [ET PT]]. destruct (prepared_from a' B' _ HB' (shares_keyed (sd_prep d) 0 (repeat w' 16) K)) as [T' [ET' PT']].
    pose proof (repeat_share (sd_prep d) 0 w j J) as ES. pose proof (repeat_share (sd_prep d) 0 w' j J) as ES'. destruct HB as [_ [DB TB]], HB' as [_ [DB' TB']].
    destruct (round_alike dbg live e iv B B' T T' (with_shares (sd_prep d) 0 (repeat w 16)) (with_shares (sd_prep d) 0 (repeat w' 16)) a a' c a0 a1 b0 b1 pk x y j (to_quad qa) (to_quad qb) (to_quad qc)
      (to_quad (s0, t0, s1, t1)) (to_quad (at_quad b p q (s0, t0, s1, t1)))
      (rd_u (sd_round d (Z.of_nat (Datatypes.S j)))) (rd_v (sd_round d (Z.of_nat (Datatypes.S j)))) PT PT') as [S1 [S2 [o1 [o2 [E1 [P1 [E2 [P2 ER2]]]]]]]].
    - rewrite DB, DB'. reflexivity.
    - rewrite TB, TB'. reflexivity.
    - intros s n. rewrite !shares_keys. reflexivity.
    - rewrite DB. exact HD.
    - exact HX.
    - exact HY.
    - exact J.
    - intros m0 m1 m0' m1' M0 M1 M0' M1'. rewrite ES in M0, M1. rewrite ES' in M0', M1'. 
      change (d_r (with_shares (sd_prep d) 0 (repeat w 16))) with r in M0, M1. change (d_r (with_shares (sd_prep d) 0 (repeat w' 16))) with r in M0', M1'.
      change (fst w) with o in M0, M1. change (fst w') with (moved k o) in M0', M1'. pose proof (moved_mod k o) as MM. set (o' := moved k o) in *. clearbody o'.
      clear ET ET' PT PT' ES ES'. clearbody w w'.
      destruct Hb as [-> | ->]; cbn [Z.eqb Pos.eqb at_branch at_quad to_quad q_s0 q_t0 q_s1 q_t1] in *.
      + split.
        * apply (sees_moved a0 b0 x y m0 m0' (o * r) (o * r + t)); [exact M0| |exact H1|].
          -- rewrite M0'. apply pow_eq. replace (o' * r - (o * r + t)) with ((- r) * (o - o' + k) + (k * r - (1 - 0) * t)) by ring. apply Z.divide_add_r; [apply Z.divide_mul_r, MM|exact HK].
          -- replace (p * x + q * y - (o * r - (o * r + t))) with (p * x + q * y - (2 * 0 - 1) * t) by ring. exact H2.
        * apply sees_same. rewrite M1, M1'. apply pow_eq.
          replace (2 ^ Z.of_nat j * a' + o' * r - (2 ^ Z.of_nat j * a + o * r)) with ((- r) * (o - o' + k) + (k * r - (1 - 0) * t)) by (unfold t; ring). apply Z.divide_add_r; [apply Z.divide_mul_r, MM|exact HK].
      + assert (HO : (order | (o' - o) * r)).
        { replace ((o' - o) * r) with ((- r) * (o - o' + k) + (k * r - (1 - 1) * t)) by ring. apply Z.divide_add_r; [apply Z.divide_mul_r, MM|exact HK]. }
        split.
        * apply sees_same. rewrite M0, M0'. apply pow_eq. replace (o' * r - o * r) with ((o' - o) * r) by ring. exact HO.
        * apply (sees_moved a1 b1 x y m1 m1' (2 ^ Z.of_nat j * a + o * r) (2 ^ Z.of_nat j * a' + o * r)); [exact M1| |exact H1|].
          -- rewrite M1'. apply pow_eq. replace (2 ^ Z.of_nat j * a' + o' * r - (2 ^ Z.of_nat j * a' + o * r)) with ((o' - o) * r) by ring. exact HO.
          -- replace (p * x + q * y - (2 ^ Z.of_nat j * a + o * r - (2 ^ Z.of_nat j * a' + o * r))) with (p * x + q * y - (2 * 1 - 1) * t) by (unfold t; ring). exact H2.
    - transitivity (reply_of o2); [exact (shows_is B' d pk j (moved k o) qa qb qc (at_quad b p q (s0, t0, s1, t1)) T' S2 o2 ET' E2)|]. rewrite ER2. symmetry.
      exact (shows_is B d pk j o qa qb qc (s0, t0, s1, t1) T S1 o1 ET E1).
  Qed.
End Client.
