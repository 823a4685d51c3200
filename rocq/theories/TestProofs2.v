(** The test programs for dual-mode encryption and oblivious transfer. *)
From Coq Require Import ZArith Znumtheory Bool List Lia Field.
From Verif Require Import Outcome FieldModel ZpField SpecField FieldProofs ECGroup ECOrder CurveParams CurveFacts EccModel EccProofs
  SpecEcc EccThms Emb RF DmeModel SpecDme DmeProofs DmeProofs2 OtModel SpecOt OtProofs OtProofs2 OpprfModel SpecOpprf TestModel SpecTest TestProofs.
Import ListNotations.
Open Scope Z_scope.

Lemma nz_dec z : {nz z} + {~ nz z}.
Proof. unfold nz. destruct (Zdivide_dec order z) as [H|H]; [right|left]; tauto. Qed.
Lemma nnz z : ~ nz z <-> (order | z).
Proof. unfold nz. destruct (Zdivide_dec order z) as [H|H]; tauto. Qed.

Section Dme.
  Variables (dbg : bool) (live : Z -> bool).
  Notation n := (fieldn CV).
  Let Hn : prime n := prime_n CV good_CV.
  Let HF := field_Fp n Hn.
  Add Field TestField : HF.
  Notation rf := (rf live CV).
  Notation em := (em n).
  Notation mk := (mk n).
  Notation drf := (drf live).

  Definition has_logs (D : dme) (c : Z) (L : logs) : Prop := drf D c (mk (lg0 L)) (mk (lg1 L)) (mk (lh0 L)) (mk (lh1 L)).

  Lemma pick_g b L : branch b -> pick b (mk (lg0 L)) (mk (lg1 L)) = mk (lg L b).
  Proof. intros [-> | ->]; reflexivity. Qed.
  Lemma pick_h b L : branch b -> pick b (mk (lh0 L)) (mk (lh1 L)) = mk (lh L b).
  Proof. intros [-> | ->]; reflexivity. Qed.

  Lemma KeyGen_log D c L b r : has_logs D c L -> branch b ->
    exists kp, KeyGen dbg live D b r = Ok kp /\ multiple live (pg (kpk kp)) (r * lg L b) /\
      multiple live (ph (kpk kp)) (r * lh L b) /\ ksk kp = em (mk r).
  Proof.
    intros K Hb. destruct (KeyGen_rf dbg live D c _ _ _ _ b r K Hb) as [kp [E [X [Y S]]]].
    rewrite (pick_g b L Hb), mk_mul in X. rewrite (pick_h b L Hb), mk_mul in Y.
    exists kp. split; [exact E|]. split; [apply multiple_rf; exact X|]. split; [apply multiple_rf; exact Y|exact S].
  Qed.

  Lemma Enc_log D c L b pk x y m z s t : has_logs D c L -> branch b -> multiple live (pg pk) x -> multiple live (ph pk) y ->
    multiple live m z -> exists ct, Enc dbg live D pk b m s t = Ok ct /\
      multiple live (cu ct) (s * lg L b + t * lh L b) /\ multiple live (cmv ct) (s * x + t * y + z).
  Proof.
    intros K Hb X Y M. apply multiple_rf in X, Y, M.
    destruct (Enc_rf dbg live D c _ _ _ _ b pk _ _ m _ s t K Hb X Y M) as [ct [E [U W]]].
    rewrite (pick_g b L Hb), (pick_h b L Hb), !mk_mul, mk_add in U. rewrite !mk_mul, !mk_add in W.
    exists ct. split; [exact E|]. split; apply multiple_rf; assumption.
  Qed.

  Lemma Dec_log ct u w k : multiple live (cu ct) u -> multiple live (cmv ct) w ->
    (nz (k * u) -> nz w -> exists R, Dec dbg live (em (mk k)) ct = Ok R /\ multiple live R (w - k * u)) /\
    (dbg = true -> (order | k * u) \/ (order | w) -> Dec dbg live (em (mk k)) ct = Err NullDeref).
  Proof.
    intros U W. apply multiple_rf in U, W. split.
    - intros N1 N2. unfold nz in N1, N2. rewrite <- mk_order_0 in N1, N2. rewrite <- mk_mul in N1.
      destruct (Dec_rf dbg live ct _ _ _ U W N1 N2) as [R [E K]]. exists R. split; [exact E|]. apply multiple_rf.
      rewrite mk_mul, mk_sub in K. exact K.
    - intros -> H. unfold Dec. destruct (pmul_rf true live CV good_CV _ _ (mk k) U) as [us [-> Ku]]. cbn [bind].
      rewrite mk_mul in Ku. unfold psub, assert_same_curve.
      destruct H as [H | H]; rewrite <- mk_order_0 in H; [rewrite H in Ku; apply (rf_zero live CV) in Ku; [|exact good_CV] | rewrite H in W; apply (rf_zero live CV) in W; [|exact good_CV]].
      + subst us. cbn [pt_inf pcur].
        destruct (rf_val live _ _ W) as [E | [_ [_ [_ [[c [E L]] _]]]]]; [rewrite E; reflexivity|].
        unfold deref. rewrite E, L. reflexivity.
      + rewrite W. reflexivity.
  Qed.

  (** a test that needs [G] to be defined and then passes if [T]; with asserts it faults otherwise *)
  Definition tests (r : res bool) (G T : Prop) : Prop :=
    (G -> exists b, r = Ok b /\ (b = true <-> T)) /\ (dbg = true -> ~ G -> exists f, r = Err f).

  Lemma tests_pass r G T : tests r G T -> G -> T -> r = Ok true.
  Proof. intros [H _] HG HT. destruct (H HG) as [b [-> I]]. f_equal. apply I, HT. Qed.
  Lemma tests_conv r (G T : Prop) : tests r G T -> {G} + {~ G} -> dbg = true -> r = Ok true -> G /\ T.
  Proof.
    intros [H1 H2] [HG|HG] Hd E.
    - split; [exact HG|]. destruct (H1 HG) as [b [E' I]]. rewrite E in E'. apply Ok_inj in E'. apply I. symmetry. exact E'.
    - destruct (H2 Hd HG) as [f E']. congruence.
  Qed.
  Lemma tests_neg r G T : tests r G T -> tests (do x <- r; Ok (negb x)) G (~ T).
  Proof.
    intros [H1 H2]. split.
    - intros HG. destruct (H1 HG) as [b [-> I]]. exists (negb b). split; [reflexivity|].
      rewrite <- I. destruct b; cbn [negb]; split; intros; congruence.
    - intros Hd HG. destruct (H2 Hd HG) as [f ->]. exists f. reflexivity.
  Qed.
  Lemma tests_cong r G T G' T' : tests r G T -> (G <-> G') -> (T <-> T') -> tests r G' T'.
  Proof.
    intros [H1 H2] EG ET. split; [intros HG; destruct (H1 (proj2 EG HG)) as [b [E I]]; exists b; split; [exact E|rewrite I; exact ET]|].
    intros Hd HG. apply H2; [exact Hd|]. intros X. apply HG, EG, X.
  Qed.

  Lemma div_eq a b : a = b -> ((order | a) <-> (order | b)).
  Proof. intros ->. reflexivity. Qed.
  Lemma nz_eq a b : a = b -> (nz a <-> nz b).
  Proof. intros ->. reflexivity. Qed.
  Lemma and_dec (A B : Prop) : {A} + {~ A} -> {B} + {~ B} -> {A /\ B} + {~ (A /\ B)}.
  Proof. intros [H|H] [K|K]; try (left; tauto); right; tauto. Qed.

  Lemma peq_log P Q x y : multiple live P x -> multiple live Q y ->
    exists b, peq live CV P Q = Ok b /\ (b = true <-> (order | x - y)).
  Proof.
    intros X Y. apply multiple_rf in X, Y. destruct (peq_rf live CV good_CV _ _ _ _ X Y) as [b [E I]].
    exists b. split; [exact E|]. rewrite I. apply mk_order_eq.
  Qed.

  (** decrypt and compare *)
  Lemma dec_tests ct u w k msg m : multiple live (cu ct) u -> multiple live (cmv ct) w -> multiple live msg m ->
    tests (do x <- Dec dbg live (em (mk k)) ct; peq live CV msg x) (nz (k * u) /\ nz w) (order | m - (w - k * u)).
  Proof.
    intros U W M. destruct (Dec_log ct u w k U W) as [H1 H2]. split.
    - intros [N1 N2]. destruct (H1 N1 N2) as [R [-> K]]. cbn [bind]. exact (peq_log _ _ _ _ M K).
    - intros Hd N. rewrite (H2 Hd); [exists NullDeref; reflexivity|].
      rewrite <- !nnz. destruct (nz_dec (k * u)), (nz_dec w); tauto.
  Qed.
  Lemma dec_tests' ct u w k msg m : multiple live (cu ct) u -> multiple live (cmv ct) w -> multiple live msg m ->
    tests (do x <- Dec dbg live (em (mk k)) ct; peq live CV x msg) (nz (k * u) /\ nz w) (order | w - k * u - m).
  Proof.
    intros U W M. destruct (Dec_log ct u w k U W) as [H1 H2]. split.
    - intros [N1 N2]. destruct (H1 N1 N2) as [R [-> K]]. cbn [bind]. exact (peq_log _ _ _ _ K M).
    - intros Hd N. rewrite (H2 Hd); [exists NullDeref; reflexivity|].
      rewrite <- !nnz. destruct (nz_dec (k * u)), (nz_dec w); tauto.
  Qed.

  Lemma rand_log c r : live c = true -> exists P, getRandomPoint dbg live CV (Some c) r = Ok P /\ multiple live P r.
  Proof.
    intros L. destruct (getRandomPoint_rf dbg live CV good_CV c r L) as [P [E K]]. exists P. split; [exact E|]. apply multiple_rf, K.
  Qed.

  Lemma trip_tests D c L b b' d : has_logs D c L -> branch b -> branch b' ->
    tests (dme_trip dbg live D b b' d) (decrypts L b b' d)
      (order | hidden L b (t_key d) (t_s b' d) (t_t b' d) - hidden L b' (t_key d) (t_s b' d) (t_t b' d)).
  Proof.
    intros K Hb Hb'. unfold dme_trip.
    destruct (KeyGen_log D c L b (t_key d) K Hb) as [kp [-> [X [Y S]]]]. cbn [bind].
    rewrite (dr_cur _ _ _ _ _ _ _ K). destruct (rand_log c (t_msg d) (dr_live _ _ _ _ _ _ _ K)) as [msg [-> M]]. cbn [bind].
    destruct (Enc_log D c L 0 (kpk kp) _ _ msg _ (t_s0 d) (t_t0 d) K (or_introl eq_refl) X Y M) as [c0 [-> [U0 W0]]]. cbn [bind].
    destruct (Enc_log D c L 1 (kpk kp) _ _ msg _ (t_s1 d) (t_t1 d) K (or_intror eq_refl) X Y M) as [c1 [-> [U1 W1]]]. cbn [bind].
    rewrite S. unfold decrypts, hidden.
    destruct Hb' as [-> | ->]; unfold t_s, t_t; cbn [Z.eqb].
    - eapply tests_cong; [exact (dec_tests _ _ _ (t_key d) _ _ U0 W0 M)| |].
      + rewrite (nz_eq (t_s0 d * (t_key d * lg L b) + t_t0 d * (t_key d * lh L b) + t_msg d) (t_key d * (t_s0 d * lg L b + t_t0 d * lh L b) + t_msg d)) by ring.
        reflexivity.
      + rewrite <- Z.divide_opp_r. apply div_eq. ring.
    - eapply tests_cong; [exact (dec_tests _ _ _ (t_key d) _ _ U1 W1 M)| |].
      + rewrite (nz_eq (t_s1 d * (t_key d * lg L b) + t_t1 d * (t_key d * lh L b) + t_msg d) (t_key d * (t_s1 d * lg L b + t_t1 d * lh L b) + t_msg d)) by ring.
        reflexivity.
      + rewrite <- Z.divide_opp_r. apply div_eq. ring.
  Qed.

  Lemma decrypts_dec L b b' d : {decrypts L b b' d} + {~ decrypts L b b' d}.
  Proof. apply and_dec; apply nz_dec. Qed.

  (** a list of tests passes *)
  Definition pass (l : list (res bool)) (G : Prop) : Prop :=
    (G -> Forall (eq (Ok true)) l) /\ (dbg = true -> Forall (eq (Ok true)) l -> G).

  Lemma pass_app l l' G G' : pass l G -> pass l' G' -> pass (l ++ l') (G /\ G').
  Proof.
    intros [A B] [A' B']. split.
    - intros [H H']. apply Forall_app. split; [apply A, H|apply A', H'].
    - intros Hd F. apply Forall_app in F. destruct F as [F F']. split; [apply (B Hd F)|apply (B' Hd F')].
  Qed.
  Lemma pass_one r G T : tests r G T -> {G} + {~ G} -> pass [r] (G /\ T).
  Proof.
    intros H D. split.
    - intros [HG HT]. constructor; [symmetry; exact (tests_pass _ _ _ H HG HT)|constructor].
    - intros Hd F. apply (tests_conv r G T H D Hd). symmetry. inversion F. assumption.
  Qed.
  Lemma pass_cong l G G' : pass l G -> (G <-> G') -> pass l G'.
  Proof. intros [A B] E. split; [intros H; apply A, E, H|intros Hd F; apply E, (B Hd F)]. Qed.

  Lemma four_pass D c L d : has_logs D c L -> pass (dme_four dbg live D d) (four_good L d).
  Proof.
    intros K. unfold dme_four, four_good.
    assert (B0 : branch 0) by (left; reflexivity). assert (B1 : branch 1) by (right; reflexivity).
    pose proof (trip_tests D c L 0 0 (d 0%nat) K B0 B0) as T0.
    pose proof (tests_neg _ _ _ (trip_tests D c L 0 1 (d 1%nat) K B0 B1)) as T1.
    pose proof (tests_neg _ _ _ (trip_tests D c L 1 0 (d 2%nat) K B1 B0)) as T2.
    pose proof (trip_tests D c L 1 1 (d 3%nat) K B1 B1) as T3.
    rewrite Z.sub_diag in T0, T3.
    apply pass_one in T0; [|apply decrypts_dec]. apply pass_one in T1; [|apply decrypts_dec].
    apply pass_one in T2; [|apply decrypts_dec]. apply pass_one in T3; [|apply decrypts_dec].
    pose proof (pass_app _ _ _ _ T0 (pass_app _ _ _ _ T1 (pass_app _ _ _ _ T2 T3))) as H. cbn [app] in H.
    eapply pass_cong; [exact H|]. unfold differs, nz. pose proof (Z.divide_0_r order). tauto.
  Qed.

  (** ** FindMessy *)
  Lemma find_pass cm d M : live cm = true -> dme_new dbg live cm messy (m1 d) (m2 d) (m3 d) (m4 d) = Ok M ->
    pass [dme_find dbg live M 0 (find0 d); dme_find dbg live M 1 (find1 d)] (nz (find1 d * (m4 d * (m1 d - m2 d)))).
  Proof.
    intros L E. destruct (new_messy_rf dbg live cm (m1 d) (m2 d) (m3 d) (m4 d) L) as [D [E' [T0 [_ K]]]].
    rewrite E in E'. apply Ok_inj in E'. subst D.
    assert (F0 : dme_find dbg live M 0 (find0 d) = Ok true).
    { unfold dme_find. destruct (KeyGen_rf dbg live M cm _ _ _ _ 0 (find0 d) K (or_introl eq_refl)) as [kp [-> [X [Y _]]]]. cbn [bind].
      destruct (FindMessy_rf dbg live M _ _ _ _ T0 X Y) as [b [-> [[-> H]|[-> H]]]]; [reflexivity|].
      exfalso. apply H. unfold pick. cbn [Z.eqb]. rewrite !mk_mul. f_equal. ring. }
    assert (F1 : dme_find dbg live M 1 (find1 d) = Ok true <-> nz (find1 d * (m4 d * (m1 d - m2 d)))).
    { unfold dme_find. destruct (KeyGen_rf dbg live M cm _ _ _ _ 1 (find1 d) K (or_intror eq_refl)) as [kp [-> [X [Y _]]]]. cbn [bind].
      destruct (FindMessy_rf dbg live M _ _ _ _ T0 X Y) as [b [-> H]]. cbn [bind].
      unfold pick in H. cbn [Z.eqb] in H. rewrite !mk_mul, mk_order_eq in H.
      assert (Q : (order | find1 d * (m2 d * m4 d) - m1 d * (find1 d * m4 d)) <-> (order | find1 d * (m4 d * (m1 d - m2 d)))).
      { rewrite <- Z.divide_opp_r. apply div_eq. ring. }
      rewrite Q in H. unfold nz. destruct H as [[-> H]|[-> H]]; cbn [Z.sub Z.opp Z.add Z.pos_sub Z.eqb]; split; try discriminate; try tauto. }
    split.
    - intros H. apply F1 in H. constructor; [symmetry; exact F0|]. constructor; [symmetry; exact H|constructor].
    - intros _ F. inversion F as [|? ? _ F2]. inversion F2 as [|? ? F3 _]. apply F1. symmetry. exact F3.
  Qed.

  (** ** The trapdoor *)
  Lemma nz_cong a b : (order | a - b) -> (nz a <-> nz b).
  Proof.
    intros H. unfold nz. split; intros N X; apply N.
    - replace a with ((a - b) + b) by ring. apply Z.divide_add_r; assumption.
    - replace b with (a - (a - b)) by ring. apply Z.divide_sub_r; assumption.
  Qed.
  Lemma div_cong a b : (order | a - b) -> ((order | a) <-> (order | b)).
  Proof.
    intros H. split; intros X.
    - replace b with (a - (a - b)) by ring. apply Z.divide_sub_r; assumption.
    - replace a with ((a - b) + b) by ring. apply Z.divide_add_r; assumption.
  Qed.

  Lemma trap_pass cd d D : live cd = true -> dme_new dbg live cd dec (x1 d) (x2 d) (x3 d) 0 = Ok D -> nz (x1 d) ->
    exists t, dme_trapdoor dbg live D (on_trap d) = Ok t /\ pass [fst t; snd t] (trap_good (dec_log d) (on_trap d)).
  Proof.
    intros L E N. destruct (trap_rf dbg live cd _ _ _ _ D (t_key (on_trap d)) L N E) as [pk [ET [X [Y K]]]].
    unfold dme_trapdoor. rewrite ET. cbn [bind].
    assert (HL : has_logs D cd (dec_log d)).
    { unfold has_logs, dec_log. cbn [lg0 lg1 lh0 lh1]. rewrite (mk_mul n (x1 d) (x2 d)) in K. rewrite !mk_mul in K. exact K. }
    rewrite (mk_mul n (x3 d) (x2 d)) in Y. rewrite mk_mul in X, Y. apply (multiple_rf live) in X, Y.
    rewrite (dr_cur _ _ _ _ _ _ _ K). destruct (rand_log cd (t_msg (on_trap d)) L) as [msg [-> M]]. cbn [bind].
    set (T := on_trap d) in *. set (LL := dec_log d) in *.
    destruct (Enc_log D cd LL 0 pk _ _ msg _ (t_s0 T) (t_t0 T) HL (or_introl eq_refl) X Y M) as [c0 [-> [U0 W0]]]. cbn [bind].
    destruct (Enc_log D cd LL 1 pk _ _ msg _ (t_s1 T) (t_t1 T) HL (or_intror eq_refl) X Y M) as [c1 [-> [U1 W1]]]. cbn [bind].
    eexists. split; [reflexivity|]. cbn [fst snd].
    rewrite <- (mk_val n (fdiv n (mk (t_key T)) (mk (x1 d)))). set (k1 := val n (fdiv n (mk (t_key T)) (mk (x1 d)))).
    assert (HK : (order | k1 * x1 d - t_key T)).
    { rewrite <- mk_order_eq, <- mk_mul. unfold k1. rewrite mk_val. field. unfold nz in N. rewrite <- mk_order_0 in N. exact N. }
    pose proof (dec_tests c0 _ _ (t_key T) msg _ U0 W0 M) as T0. pose proof (dec_tests c1 _ _ k1 msg _ U1 W1 M) as T1.
    apply pass_one in T0; [|apply and_dec; apply nz_dec]. apply pass_one in T1; [|apply and_dec; apply nz_dec].
    pose proof (pass_app _ _ _ _ T0 T1) as H. cbn [app] in H. eapply pass_cong; [exact H|].
    unfold trap_good, hidden. unfold LL, lg, lh. cbn [Z.eqb dec_log lg0 lg1 lh0 lh1].
    assert (Q : (order | k1 * (t_s1 T * (x1 d * x2 d) + t_t1 T * (x3 d * (x1 d * x2 d))) - t_key T * (t_s1 T * x2 d + t_t1 T * (x3 d * x2 d)))).
    { destruct HK as [z HK]. exists (z * (t_s1 T * x2 d + t_t1 T * (x3 d * x2 d))).
      transitivity ((k1 * x1 d - t_key T) * (t_s1 T * x2 d + t_t1 T * (x3 d * x2 d))); [ring|rewrite HK; ring]. }
    rewrite (nz_cong _ _ Q).
    rewrite (nz_eq (t_s0 T * (t_key T * x2 d) + t_t0 T * (t_key T * (x3 d * x2 d)) + t_msg T) (t_key T * (t_s0 T * x2 d + t_t0 T * (x3 d * x2 d)) + t_msg T)) by ring.
    rewrite (nz_eq (t_s1 T * (t_key T * x2 d) + t_t1 T * (t_key T * (x3 d * x2 d)) + t_msg T) (t_key T * (t_s1 T * x2 d + t_t1 T * (x3 d * x2 d)) + t_msg T)) by ring.
    assert (D0 : (order | t_msg T - (t_s0 T * (t_key T * x2 d) + t_t0 T * (t_key T * (x3 d * x2 d)) + t_msg T - t_key T * (t_s0 T * x2 d + t_t0 T * (x3 d * x2 d))))).
    { exists 0. ring. }
    assert (D1 : (order | t_msg T - (t_s1 T * (t_key T * x2 d) + t_t1 T * (t_key T * (x3 d * x2 d)) + t_msg T - k1 * (t_s1 T * (x1 d * x2 d) + t_t1 T * (x3 d * (x1 d * x2 d)))))).
    { destruct Q as [z Q]. exists z. rewrite <- Q. ring. }
    split.
    - intros [[[A B] _] [[A' B'] _]] b [-> | ->]; unfold t_s, t_t; cbn [Z.eqb]; split; assumption.
    - intros G. pose proof (G 0 (or_introl eq_refl)) as G0. pose proof (G 1 (or_intror eq_refl)) as G1. unfold t_s, t_t in G0, G1. cbn [Z.eqb] in G0, G1. tauto.
  Qed.

  Lemma trap_needs cd d D t : live cd = true -> dme_new dbg live cd dec (x1 d) (x2 d) (x3 d) 0 = Ok D ->
    dme_trapdoor dbg live D (on_trap d) = Ok t -> nz (x1 d).
  Proof.
    intros L E ET X. destruct (L_C30_zero dbg live cd _ (x2 d) (x3 d) 0 (t_key (on_trap d)) L X) as [D' [E' H]].
    rewrite E in E'. apply Ok_inj in E'. subst D'. unfold dme_trapdoor in ET. rewrite H in ET. discriminate ET.
  Qed.

  (** ** Eval *)
  Lemma Eval_log c1 c2 u1 w1 u2 w2 : multiple live (cu c1) u1 -> multiple live (cmv c1) w1 -> multiple live (cu c2) u2 -> multiple live (cmv c2) w2 ->
    exists ct, Eval dbg live c1 c2 = Ok ct /\ multiple live (cu ct) (u1 + u2) /\ multiple live (cmv ct) (w1 + w2).
  Proof.
    intros A B A' B'. apply (multiple_rf live) in A, B, A', B'. unfold Eval.
    destruct (padd_rf dbg live CV good_CV _ _ _ _ A A') as [u [-> U]]. cbn [bind].
    destruct (padd_rf dbg live CV good_CV _ _ _ _ B B') as [w [-> W]]. cbn [bind].
    rewrite mk_add in U, W. eexists. split; [reflexivity|]. split; apply (multiple_rf live); assumption.
  Qed.
  Lemma padd_log P Q x y : multiple live P x -> multiple live Q y -> exists R, padd dbg live CV P Q = Ok R /\ multiple live R (x + y).
  Proof.
    intros A B. apply (multiple_rf live) in A, B. destruct (padd_rf dbg live CV good_CV _ _ _ _ A B) as [R [-> K]].
    rewrite mk_add in K. exists R. split; [reflexivity|]. apply (multiple_rf live), K.
  Qed.

  Lemma eval_pass D c L d : has_logs D c L -> pass [dme_eval dbg live D d] (eval_good L d).
  Proof.
    intros K. unfold dme_eval. assert (B0 : branch 0) by (left; reflexivity).
    destruct (KeyGen_log D c L 0 (v_key d) K B0) as [kp [-> [X [Y S]]]]. cbn [bind].
    rewrite (dr_cur _ _ _ _ _ _ _ K). pose proof (dr_live _ _ _ _ _ _ _ K) as Lc.
    destruct (rand_log c (v_msga d) Lc) as [ma [-> MA]]. cbn [bind].
    destruct (rand_log c (v_msgb d) Lc) as [mb [-> MB]]. cbn [bind].
    destruct (Enc_log D c L 0 (kpk kp) _ _ ma _ (v_sa d) (v_ta d) K B0 X Y MA) as [ca [-> [UA WA]]]. cbn [bind].
    destruct (Enc_log D c L 0 (kpk kp) _ _ mb _ (v_sb d) (v_tb d) K B0 X Y MB) as [cb [-> [UB WB]]]. cbn [bind].
    destruct (Eval_log _ _ _ _ _ _ UA WA UB WB) as [ct [-> [U W]]]. cbn [bind].
    destruct (padd_log _ _ _ _ MA MB) as [sum [ES MS]]. rewrite S.
    pose proof (dec_tests ct _ _ (v_key d) sum _ U W MS) as T.
    apply pass_one in T; [|apply and_dec; apply nz_dec].
    assert (Q : (do x <- Dec dbg live (em (mk (v_key d))) ct; (do sum0 <- padd dbg live CV ma mb; peq live CV sum0 x)) =
                (do x <- Dec dbg live (em (mk (v_key d))) ct; peq live CV sum x)) by (rewrite ES; reflexivity).
    rewrite Q. eapply pass_cong; [exact T|]. unfold eval_good, hidden. cbv zeta.
    set (g := lg L 0). set (h := lh L 0).
    rewrite (nz_eq (v_key d * (v_sa d * g + v_ta d * h + (v_sb d * g + v_tb d * h))) (v_key d * ((v_sa d + v_sb d) * g + (v_ta d + v_tb d) * h))) by ring.
    rewrite (nz_eq (v_sa d * (v_key d * g) + v_ta d * (v_key d * h) + v_msga d + (v_sb d * (v_key d * g) + v_tb d * (v_key d * h) + v_msgb d))
      (v_key d * ((v_sa d + v_sb d) * g + (v_ta d + v_tb d) * h) + (v_msga d + v_msgb d))) by ring.
    split; [tauto|]. intros H. split; [exact H|]. exists 0. ring.
  Qed.

  (** ** Integers *)
  Lemma encode_log D c m : dcurve D = Some c -> live c = true -> exists P l, encode dbg live D m = Ok P /\ finite live P /\ multiple live P l.
  Proof.
    intros Ec L. destruct (L_C32_encode dbg live c D m Ec L) as [i [P [_ [E [F _]]]]].
    destruct (finite_rf live CV good_CV P F) as [z [K _]]. exists P, (val n z). split; [exact E|]. split; [exact F|].
    apply (multiple_rf live). rewrite mk_val. exact K.
  Qed.
  Lemma multiple_uniq P l l' : multiple live P l -> multiple live P l' -> (order | l - l').
  Proof.
    intros A B. apply (multiple_rf live) in A, B. rewrite <- mk_order_eq. exact (rf_fun live CV good_CV _ _ _ A B).
  Qed.
  Lemma multiple_den P Q l l' : multiple live P l -> multiple live Q l' -> (order | l - l') -> den CV P = den CV Q.
  Proof.
    intros A B H. apply (multiple_rf live) in A, B. rewrite <- mk_order_eq in H. apply (rf_den_eq live CV good_CV _ _ _ _ A B). exact H.
  Qed.

  (** the message is decoded from a ciphertext that hides [encode m] with [k * u] *)
  Lemma number_tests D c ct u k m P l : dcurve D = Some c -> live c = true -> encode dbg live D m = Ok P -> finite live P -> multiple live P l ->
    multiple live (cu ct) u -> multiple live (cmv ct) (k * u + l) ->
    tests (do x <- DecDecode dbg live (em (mk k)) ct; Ok (m =? x)) (nz (k * u) /\ nz (k * u + l)) (encodable m).
  Proof.
    intros Ec L E F M U W. destruct (Dec_log ct u _ k U W) as [H1 H2]. unfold DecDecode. split.
    - intros [N1 N2]. destruct (H1 N1 N2) as [R [-> K]]. cbn [bind].
      assert (DR : den CV R = den CV P) by (apply (multiple_den _ _ _ _ K M); exists 0; ring).
      rewrite (decode_den live R P F (proj1 K) DR). exists (m =? decode P). split; [reflexivity|].
      rewrite Z.eqb_eq. pose proof (L_C32_roundtrip dbg live c D m P Ec L E) as RT. unfold encodable. rewrite <- RT. split; intros Q; symmetry; exact Q.
    - intros Hd N. rewrite (H2 Hd); [exists NullDeref; reflexivity|].
      rewrite <- !nnz. destruct (nz_dec (k * u)), (nz_dec (k * u + l)); tauto.
  Qed.

  Lemma number_pass D c L d : has_logs D c L ->
    pass [dme_number dbg live D d] (number_good dbg live D (hidden L 1 (t_key d) (t_s1 d) (t_t1 d)) (t_msg d)).
  Proof.
    intros K. unfold dme_number. assert (B1 : branch 1) by (right; reflexivity).
    destruct (KeyGen_log D c L 1 (t_key d) K B1) as [kp [-> [X [Y S]]]]. cbn [bind].
    pose proof (dr_cur _ _ _ _ _ _ _ K) as Ec. pose proof (dr_live _ _ _ _ _ _ _ K) as Lc.
    destruct (encode_log D c (t_msg d) Ec Lc) as [P [l [EP [F M]]]].
    unfold EncZ. rewrite EP. cbn [bind].
    destruct (Enc_log D c L 0 (kpk kp) _ _ P _ (t_s0 d) (t_t0 d) K (or_introl eq_refl) X Y M) as [c0 [-> [U0 W0]]]. cbn [bind].
    destruct (Enc_log D c L 1 (kpk kp) _ _ P _ (t_s1 d) (t_t1 d) K B1 X Y M) as [c1 [-> [U1 W1]]]. cbn [bind].
    rewrite S. set (u := t_s1 d * lg L 1 + t_t1 d * lh L 1) in *.
    replace (t_s1 d * (t_key d * lg L 1) + t_t1 d * (t_key d * lh L 1) + l) with (t_key d * u + l) in W1 by (unfold u; ring).
    pose proof (number_tests D c c1 u (t_key d) (t_msg d) P l Ec Lc EP F M U1 W1) as T.
    apply pass_one in T; [|apply and_dec; apply nz_dec]. eapply pass_cong; [exact T|].
    unfold number_good, hidden. fold u. split.
    - intros [[N1 N2] EN]. split; [exact EN|]. split; [exact N1|]. intros P' l' E' M'. rewrite EP in E'. apply Ok_inj in E'. subst P'.
      apply (nz_cong (t_key d * u + l)); [|exact N2]. replace (t_key d * u + l - (t_key d * u + l')) with (l - l') by ring. exact (multiple_uniq _ _ _ M M').
    - intros [EN [N1 N2]]. split; [|exact EN]. split; [exact N1|exact (N2 P l EP M)].
  Qed.
End Dme.

Section Programs.
  Variables (dbg : bool) (live : Z -> bool).
  Notation n := (fieldn CV).
  Let Hn : prime n := prime_n CV good_CV.
  Notation mk := (mk n).
  Notation pass := (pass dbg).
  Notation has_logs := (has_logs live).

  Lemma tally_pass l s G : pass l G -> (G -> tally l s = Ok s) /\ (dbg = true -> forall s', tally l s = Ok s' -> s' = 0 -> s = 0 /\ G).
  Proof.
    intros [A B]. split.
    - intros H. apply A in H. clear A B. revert s. induction H as [|t l E F IH]; intros s; cbn [tally]; [reflexivity|].
      rewrite <- E. cbn [bind]. apply IH.
    - intros Hd s' E ->. apply tally_0 in E. destruct E as [E F]. split; [exact E|exact (B Hd F)].
  Qed.

  Lemma new_messy_log c r1 r2 r3 r4 : live c = true ->
    exists D, dme_new dbg live c messy r1 r2 r3 r4 = Ok D /\ has_logs D c (mklogs r3 r4 (r1 * r3) (r2 * r4)).
  Proof.
    intros L. destruct (new_messy_rf dbg live c r1 r2 r3 r4 L) as [D [E [_ [_ K]]]]. rewrite !mk_mul in K. exists D. split; assumption.
  Qed.
  Lemma new_dec_log c d : live c = true ->
    exists D, dme_new dbg live c dec (x1 d) (x2 d) (x3 d) 0 = Ok D /\ has_logs D c (dec_log d).
  Proof.
    intros L. destruct (new_dec_rf dbg live c (x1 d) (x2 d) (x3 d) 0 L) as [D [E [_ K]]].
    rewrite (mk_mul n (x1 d) (x2 d)) in K. rewrite !mk_mul in K. exists D. split; assumption.
  Qed.
  Lemma nz_mul a b : nz a -> nz b -> nz (a * b).
  Proof.
    unfold nz. rewrite <- !mk_order_0, <- mk_mul. intros A B H. apply fmul_0 in H; [|exact Hn]. tauto.
  Qed.
  Lemma fin_all P z : RF.rf live CV P (mk z) -> nz z -> finite all_alive P.
  Proof.
    intros K N. unfold nz in N. rewrite <- mk_order_0 in N.
    destruct (rf_finite live CV good_CV P _ K N) as [I [X [Y [[c [E _]] Q]]]].
    split; [exact I|]. split; [exact X|]. split; [exact Y|]. split; [exists c; split; [exact E|reflexivity]|exact Q].
  Qed.
  (** an object built from a received string *)
  Lemma received c c' D r1 r2 r3 r4 : has_logs D c (mklogs r3 r4 (r1 * r3) (r2 * r4)) -> nz r1 -> nz r2 -> nz r3 -> nz r4 -> live c' = true ->
    has_logs (dme_new_crs c' (dcrs D)) c' (mklogs r3 r4 (r1 * r3) (r2 * r4)).
  Proof.
    intros K N1 N2 N3 N4 L. pose proof K as K0. destruct K0 as [_ _ A B A' B']. cbn [lg0 lg1 lh0 lh1] in A, B, A', B'.
    destruct (L_new_crs live c' (dcrs D) L (fin_all _ _ A N3) (fin_all _ _ B N4) (fin_all _ _ A' (nz_mul _ _ N1 N3)) (fin_all _ _ B' (nz_mul _ _ N2 N4))) as [OK SC].
    destruct (same_drf live _ _ _ _ _ _ _ K OK SC) as [c2 K2]. pose proof (dr_cur _ _ _ _ _ _ _ K2) as E. cbn [dme_new_crs dcurve] in E. injection E as E. subst c2. exact K2.
  Qed.

  Lemma encode_cur D D' m : dcurve D = dcurve D' -> encode dbg live D m = encode dbg live D' m.
  Proof. intros E. unfold encode. rewrite E. reflexivity. Qed.
  Lemma number_cur D D' w m : dcurve D = dcurve D' -> number_good dbg live D w m -> number_good dbg live D' w m.
  Proof.
    intros E [H1 [H2 H3]]. split; [exact H1|]. split; [exact H2|]. intros P l EP. apply H3. rewrite (encode_cur D D' m E). exact EP.
  Qed.

  Lemma L_main_dme cm cd cc d : live cm = true -> live cd = true -> live cc = true ->
    nz (m1 d) -> nz (m2 d) -> nz (m3 d) -> nz (m4 d) ->
    (dme_good dbg live cc d -> main_dme dbg live cm cd cc d = Ok 0) /\
    (dbg = true -> main_dme dbg live cm cd cc d = Ok 0 -> dme_good dbg live cc d).
  Proof.
    intros Lm Ld Lc N1 N2 N3 N4.
    destruct (new_messy_log cm (m1 d) (m2 d) (m3 d) (m4 d) Lm) as [M [EM KM]].
    destruct (new_dec_log cd d Ld) as [D [ED KD]].
    pose proof (received cm cc M _ _ _ _ KM N1 N2 N3 N4 Lc) as KR.
    change (mklogs (m3 d) (m4 d) (m1 d * m3 d) (m2 d * m4 d)) with (messy_log d) in KM, KR.
    unfold main_dme. rewrite EM. cbn [bind]. rewrite ED. cbn [bind].
    set (R := dme_new_crs cc (dcrs M)) in *.
    pose proof (pass_app dbg _ _ _ _ (four_pass dbg live M cm _ (on_messy d) KM) (find_pass dbg live cm d M Lm EM)) as P1.
    pose proof (four_pass dbg live D cd _ (on_dec d) KD) as P2.
    pose proof (pass_app dbg _ _ _ _ (four_pass dbg live R cc _ (on_crs d) KR)
      (pass_app dbg _ _ _ _ (eval_pass dbg live R cc _ (on_eval d) KR) (number_pass dbg live R cc _ (on_number d) KR))) as P4.
    cbn [app] in P1, P4.
    split.
    - intros [G1 G2 G3 G4 G5 G6 G7 G8].
      destruct (trap_pass dbg live cd d D Ld ED G4) as [t [ET P3]].
      cbn [app]. rewrite (proj1 (tally_pass _ 0 _ P1) (conj G1 G2)). cbn [bind].
      rewrite (proj1 (tally_pass _ 0 _ P2) G3). cbn [bind]. rewrite ET. cbn [bind].
      rewrite (proj1 (tally_pass _ 0 _ P3) G5). cbn [bind].
      pose proof (G8 (dcrs M)) as G9. cbv zeta in G9. fold R in G9.
      exact (proj1 (tally_pass _ 0 _ P4) (conj G6 (conj G7 G9))).
    - intros Hd E. cbn [app] in E.
      apply bind_Ok in E. destruct E as [s1 [E1 E]]. apply bind_Ok in E. destruct E as [s2 [E2 E]].
      apply bind_Ok in E. destruct E as [t [ET E]]. apply bind_Ok in E. destruct E as [s3 [E3 E]].
      pose proof (trap_needs dbg live cd d D t Ld ED ET) as G4.
      destruct (trap_pass dbg live cd d D Ld ED G4) as [t' [ET' P3]]. rewrite ET in ET'. apply Ok_inj in ET'. subst t'.
      destruct (proj2 (tally_pass _ s3 _ P4) Hd _ E eq_refl) as [Z3 [G6 [G7 G8]]].
      destruct (proj2 (tally_pass _ s2 _ P3) Hd _ E3 Z3) as [Z2 G5].
      destruct (proj2 (tally_pass _ s1 _ P2) Hd _ E2 Z2) as [Z1 G3].
      destruct (proj2 (tally_pass _ 0 _ P1) Hd _ E1 Z1) as [_ [G1 G2]].
      constructor; try assumption. intros k. cbv zeta. apply (number_cur R (dme_new_crs cc k)); [reflexivity|]. exact G8.
  Qed.

  (** ** Oblivious transfer *)
  Lemma vat_0 {A} (x : A) l : vat (x :: l) 0 = Ok x.
  Proof. reflexivity. Qed.
  Lemma vat_1 {A} (x y : A) l : vat (x :: y :: l) 1 = Ok y.
  Proof. reflexivity. Qed.
  Notation em := (em n).
  Lemma ot_points_eq R T cr cs L b d : has_logs (rdme R) cr L -> has_logs (sdme T) cs L -> branch b ->
    exists r R' T', ot_points dbg live R T b d = (do x <- r; Ok (x, (R', T'))) /\ rdme R' = rdme R /\ sdme T' = sdme T /\
      pass [r] (transfers L b d).
  Proof.
    intros KR KT Hb. unfold ot_points, selectMsg.
    destruct (KeyGen_log dbg live (rdme R) cr L b (o_key d) KR Hb) as [kp [-> [X [Y S]]]]. cbn [bind].
    unfold getRandomMsg. rewrite (dr_cur _ _ _ _ _ _ _ KT). pose proof (dr_live _ _ _ _ _ _ _ KT) as Lc.
    destruct (rand_log dbg live cs (o_m0 d) Lc) as [p0 [-> M0]]. cbn [bind].
    destruct (rand_log dbg live cs (o_m1 d) Lc) as [p1 [-> M1]]. cbn [bind].
    unfold encMsgs.
    destruct (Enc_log dbg live (sdme T) cs L 0 (kpk kp) _ _ p0 _ (q_s0 (o_q d)) (q_t0 (o_q d)) KT (or_introl eq_refl) X Y M0) as [c0 [-> [U0 W0]]]. cbn [bind].
    destruct (Enc_log dbg live (sdme T) cs L 1 (kpk kp) _ _ p1 _ (q_s1 (o_q d)) (q_t1 (o_q d)) KT (or_intror eq_refl) X Y M1) as [c1 [-> [U1 W1]]]. cbn [bind app].
    rewrite S. unfold decryptMsg, chosen. cbn [rbr rsk].
    exists (do m <- Dec dbg live (em (mk (o_key d))) (if b =? 0 then c0 else c1); peq live CV m (if b =? 0 then p0 else p1)),
      (mkrecv (rdme R) (em (mk (o_key d))) (Some b)), (mksndr (sdme T) [c0; c1]).
    split; [|split; [reflexivity|split; [reflexivity|]]].
    - destruct Hb as [-> | ->]; rewrite ?vat_0, ?vat_1; cbn [Z.eqb bind];
        destruct (Dec _ _ _ _); reflexivity.
    - unfold transfers, hidden, q_s, q_t. destruct Hb as [-> | ->]; cbn [Z.eqb]; cbv zeta.
      + pose proof (dec_tests' dbg live c0 _ _ (o_key d) p0 _ U0 W0 M0) as H. apply pass_one in H; [|apply and_dec; apply nz_dec].
        eapply pass_cong; [exact H|]. set (g := lg L 0). set (h := lh L 0).
        rewrite (nz_eq (q_s0 (o_q d) * (o_key d * g) + q_t0 (o_q d) * (o_key d * h) + o_m0 d) (o_key d * (q_s0 (o_q d) * g + q_t0 (o_q d) * h) + o_m0 d)) by ring.
        split; [tauto|]. intros G. split; [exact G|]. exists 0. ring.
      + pose proof (dec_tests' dbg live c1 _ _ (o_key d) p1 _ U1 W1 M1) as H. apply pass_one in H; [|apply and_dec; apply nz_dec].
        eapply pass_cong; [exact H|]. set (g := lg L 1). set (h := lh L 1).
        rewrite (nz_eq (q_s1 (o_q d) * (o_key d * g) + q_t1 (o_q d) * (o_key d * h) + o_m1 d) (o_key d * (q_s1 (o_q d) * g + q_t1 (o_q d) * h) + o_m1 d)) by ring.
        split; [tauto|]. intros G. split; [exact G|]. exists 0. ring.
  Qed.

  Lemma ot_integers_pass R T cr cs L k q : has_logs (rdme R) cr L -> has_logs (sdme T) cs L ->
    pass [ot_integers dbg live R T k q] (number_good dbg live (sdme T) (hidden L 0 k (q_s0 q) (q_t0 q)) 19123).
  Proof.
    intros KR KT. unfold ot_integers, selectMsg. assert (B0 : branch 0) by (left; reflexivity).
    destruct (KeyGen_log dbg live (rdme R) cr L 0 k KR B0) as [kp [-> [X [Y S]]]]. cbn [bind].
    pose proof (dr_cur _ _ _ _ _ _ _ KT) as Ec. pose proof (dr_live _ _ _ _ _ _ _ KT) as Lc.
    destruct (encode_log dbg live (sdme T) cs 19123 Ec Lc) as [P [l [EP [F M]]]].
    destruct (encode_log dbg live (sdme T) cs 73812 Ec Lc) as [P1 [l1 [EP1 [F1 M1]]]].
    unfold encMsgsZ, EncZ. rewrite EP, EP1. cbn [bind].
    destruct (Enc_log dbg live (sdme T) cs L 0 (kpk kp) _ _ P _ (q_s0 q) (q_t0 q) KT B0 X Y M) as [c0 [-> [U0 W0]]]. cbn [bind].
    destruct (Enc_log dbg live (sdme T) cs L 1 (kpk kp) _ _ P1 _ (q_s1 q) (q_t1 q) KT (or_intror eq_refl) X Y M1) as [c1 [-> [U1 W1]]]. cbn [bind app].
    rewrite S. unfold decryptMsgDecode, chosen. cbn [rbr rsk]. rewrite vat_0. cbn [bind].
    set (u := q_s0 q * lg L 0 + q_t0 q * lh L 0) in *.
    replace (q_s0 q * (k * lg L 0) + q_t0 q * (k * lh L 0) + l) with (k * u + l) in W0 by (unfold u; ring).
    pose proof (number_tests dbg live (sdme T) cs c0 u k 19123 P l Ec Lc EP F M U0 W0) as H.
    apply pass_one in H; [|apply and_dec; apply nz_dec]. eapply pass_cong; [exact H|].
    unfold number_good, hidden. fold u. split.
    - intros [[N1 N2] EN]. split; [exact EN|]. split; [exact N1|]. intros P' l' E' M'. rewrite EP in E'. apply Ok_inj in E'. subst P'.
      apply (nz_cong (k * u + l)); [|exact N2]. replace (k * u + l - (k * u + l')) with (l - l') by ring. exact (multiple_uniq live _ _ _ M M').
    - intros [EN [N1 N2]]. split; [|exact EN]. split; [exact N1|exact (N2 P l EP M)].
  Qed.

  Lemma dot_send_log T cs L pk x y d : has_logs (sdme T) cs L -> multiple live (pg pk) x -> multiple live (ph pk) y ->
    exists p c0 c1 u1 w1, dot_send dbg live T pk d = Ok (p, [c0; c1]) /\ multiple live p (o_m0 d) /\
      multiple live (cu c0) (q_s0 (o_q d) * lg L 0 + q_t0 (o_q d) * lh L 0) /\
      multiple live (cmv c0) (q_s0 (o_q d) * x + q_t0 (o_q d) * y + o_m0 d) /\ multiple live (cu c1) u1 /\ multiple live (cmv c1) w1.
  Proof.
    intros KT X Y. unfold dot_send, getRandomMsg. rewrite (dr_cur _ _ _ _ _ _ _ KT). pose proof (dr_live _ _ _ _ _ _ _ KT) as Lc.
    destruct (rand_log dbg live cs (o_m0 d) Lc) as [p0 [-> M0]]. cbn [bind].
    destruct (rand_log dbg live cs (o_m1 d) Lc) as [p1 [-> M1]]. cbn [bind].
    unfold encMsgs.
    destruct (Enc_log dbg live (sdme T) cs L 0 pk _ _ p0 _ (q_s0 (o_q d)) (q_t0 (o_q d)) KT (or_introl eq_refl) X Y M0) as [c0 [-> [U0 W0]]]. cbn [bind].
    destruct (Enc_log dbg live (sdme T) cs L 1 pk _ _ p1 _ (q_s1 (o_q d)) (q_t1 (o_q d)) KT (or_intror eq_refl) X Y M1) as [c1 [-> [U1 W1]]]. cbn [bind app snd].
    exists p0, c0, c1. eexists _, _. split; [reflexivity|]. split; [exact M0|]. split; [exact U0|]. split; [exact W0|]. split; [exact U1|exact W1].
  Qed.

  Lemma dot_pass k cr ca cb cc L r da db dc : has_logs (dme_new_crs cr k) cr L -> has_logs (dme_new_crs ca k) ca L ->
    has_logs (dme_new_crs cb k) cb L -> has_logs (dme_new_crs cc k) cc L ->
    pass [dot_three dbg live k cr ca cb cc r da db dc] (dot_good L r da db dc).
  Proof.
    intros KR KA KB KC. unfold dot_three, selectMsg. cbn [rdme otrecv_new].
    destruct (KeyGen_log dbg live _ cr L 0 r KR (or_introl eq_refl)) as [kp [-> [X [Y S]]]]. cbn [bind].
    destruct (dot_send_log (otsndr_new (dme_new_crs ca k)) ca L _ _ _ da KA X Y) as [pa [a0 [a1 [ua [wa [-> [MA [UA [WA [UA1 WA1]]]]]]]]]]. cbn [bind].
    destruct (dot_send_log (otsndr_new (dme_new_crs cb k)) cb L _ _ _ db KB X Y) as [pb [b0 [b1 [ub [wb [-> [MB [UB [WB [UB1 WB1]]]]]]]]]]. cbn [bind].
    destruct (dot_send_log (otsndr_new (dme_new_crs cc k)) cc L _ _ _ dc KC X Y) as [pc [e0 [e1 [uc [wc [-> [MC [UC [WC [UC1 WC1]]]]]]]]]]. cbn [bind fst snd].
    unfold aggregate, agg_step. cbn [tl foldM]. rewrite !vat_0. cbn [bind fst snd]. rewrite !vat_0, !vat_1. cbn [bind fst snd].
    destruct (Eval_log dbg live _ _ _ _ _ _ UA WA UB WB) as [t0 [-> [UT WT]]]. cbn [bind].
    destruct (Eval_log dbg live _ _ _ _ _ _ UA1 WA1 UB1 WB1) as [t1 [-> [UT1 WT1]]]. cbn [bind fst snd].
    destruct (Eval_log dbg live _ _ _ _ _ _ UT WT UC WC) as [v0 [-> [UV WV]]]. cbn [bind].
    destruct (Eval_log dbg live _ _ _ _ _ _ UT1 WT1 UC1 WC1) as [v1 [-> [UV1 WV1]]]. cbn [bind fst snd].
    rewrite S. unfold decryptMsg, chosen. cbn [rbr rsk]. rewrite vat_0. cbn [bind].
    destruct (padd_log dbg live _ _ _ _ MA MB) as [sab [ES MS]]. destruct (padd_log dbg live _ _ _ _ MS MC) as [s [ES' MS']].
    pose proof (dec_tests' dbg live v0 _ _ r s _ UV WV MS') as H. apply pass_one in H; [|apply and_dec; apply nz_dec].
    rewrite ES. cbn [bind]. rewrite ES'. cbn [bind].
    eapply pass_cong; [exact H|]. unfold dot_good, hidden. cbv zeta. set (g := lg L 0). set (h := lh L 0).
    set (sa := q_s0 (o_q da)). set (sb := q_s0 (o_q db)). set (sc := q_s0 (o_q dc)).
    set (ta := q_t0 (o_q da)). set (tb := q_t0 (o_q db)). set (tc := q_t0 (o_q dc)).
    rewrite (nz_eq (r * (sa * g + ta * h + (sb * g + tb * h) + (sc * g + tc * h))) (r * ((sa + sb + sc) * g + (ta + tb + tc) * h))) by ring.
    rewrite (nz_eq (sa * (r * g) + ta * (r * h) + o_m0 da + (sb * (r * g) + tb * (r * h) + o_m0 db) + (sc * (r * g) + tc * (r * h) + o_m0 dc))
      (r * ((sa + sb + sc) * g + (ta + tb + tc) * h) + (o_m0 da + o_m0 db + o_m0 dc))) by ring.
    split; [tauto|]. intros G. split; [exact G|]. exists 0. ring.
  Qed.

  Lemma encodable_19123 : encodable 19123.
  Proof.
    split; [lia|]. exists 0. split; [lia|]. split; [reflexivity|].
    exists 16713541015331316074750542376285303479383050880030440593395975961586577475591. vm_compute. reflexivity.
  Qed.

  Lemma pass_ok r G : pass [r] G -> (G -> r = Ok true) /\ (dbg = true -> r = Ok true -> G).
  Proof.
    intros [A B]. split.
    - intros H. apply A in H. inversion H. congruence.
    - intros Hd E. apply (B Hd). constructor; [symmetry; exact E|constructor].
  Qed.

  Lemma L_main_ot cd c1 c2 cr ca cb cc d : live cd = true -> live c1 = true -> live c2 = true -> live cr = true ->
    live ca = true -> live cb = true -> live cc = true ->
    nz (p1 d) -> nz (p2 d) -> nz (p3 d) -> nz (p4 d) ->
    (ot_good dbg live c2 d -> main_ot dbg live cd c1 c2 cr ca cb cc d = Ok 0) /\
    (dbg = true -> main_ot dbg live cd c1 c2 cr ca cb cc d = Ok 0 -> ot_good dbg live c2 d).
  Proof.
    intros Ld L1 L2 Lr La Lb Lc N1 N2 N3 N4.
    destruct (new_messy_log cd (p1 d) (p2 d) (p3 d) (p4 d) Ld) as [D [ED KD]].
    pose proof (fun c' => received cd c' D _ _ _ _ KD N1 N2 N3 N4) as K.
    change (mklogs (p3 d) (p4 d) (p1 d * p3 d) (p2 d * p4 d)) with (ot_log d) in K.
    unfold main_ot. rewrite ED. cbn [bind].
    destruct (ot_points_eq (otrecv_new (dme_new_crs c1 (dcrs D))) (otsndr_new (dme_new_crs c2 (dcrs D))) c1 c2 (ot_log d) 0 (first d)
      (K c1 L1) (K c2 L2) (or_introl eq_refl)) as [r1 [R1 [T1 [E1 [ER1 [ET1 P1]]]]]].
    cbn [otrecv_new otsndr_new rdme sdme] in ER1, ET1.
    assert (KR1 : has_logs (rdme R1) c1 (ot_log d)) by (rewrite ER1; exact (K c1 L1)).
    assert (KT1 : has_logs (sdme T1) c2 (ot_log d)) by (rewrite ET1; exact (K c2 L2)).
    destruct (ot_points_eq R1 T1 c1 c2 (ot_log d) 1 (second d) KR1 KT1 (or_intror eq_refl)) as [r2 [R2 [T2 [E2 [ER2 [ET2 P2]]]]]].
    assert (KR2 : has_logs (rdme R2) c1 (ot_log d)) by (rewrite ER2; exact KR1).
    assert (KT2 : has_logs (sdme T2) c2 (ot_log d)) by (rewrite ET2; exact KT1).
    pose proof (pass_app dbg _ _ _ _ (ot_integers_pass R2 T2 c1 c2 (ot_log d) (third_key d) (third_q d) KR2 KT2)
      (dot_pass (dcrs D) cr ca cb cc (ot_log d) (dot_key d) (dot_a d) (dot_b d) (dot_c d) (K cr Lr) (K ca La) (K cb Lb) (K cc Lc))) as P3.
    cbn [app] in P3. apply pass_ok in P1. apply pass_ok in P2.
    assert (CUR : forall k, dcurve (sdme T2) = dcurve (dme_new_crs c2 k)) by (intros k; rewrite ET2, ET1; reflexivity).
    rewrite E1. split.
    - intros [G1 G2 G3 G4]. rewrite (proj1 P1 G1). cbn [bind fst snd tally]. rewrite E2, (proj1 P2 G2). cbn [bind fst snd tally].
      destruct (G3 (dcrs D)) as [H1 H2].
      assert (NG : number_good dbg live (sdme T2) (hidden (ot_log d) 0 (third_key d) (q_s0 (third_q d)) (q_t0 (third_q d))) 19123).
      { apply (number_cur (dme_new_crs c2 (dcrs D)) (sdme T2)); [symmetry; apply CUR|]. split; [exact encodable_19123|]. split; [exact H1|exact H2]. }
      exact (proj1 (tally_pass _ 0 _ P3) (conj NG G4)).
    - intros Hd E. destruct r1 as [b1|f1]; [|discriminate E]. cbn [bind fst snd tally] in E. rewrite E2 in E.
      destruct r2 as [b2|f2]; [|discriminate E]. cbn [bind fst snd tally] in E.
      destruct (proj2 (tally_pass _ _ _ P3) Hd _ E eq_refl) as [S [NG G4]].
      destruct b2; [|discriminate S]. destruct b1; [|discriminate S].
      constructor; [exact (proj2 P1 Hd eq_refl)|exact (proj2 P2 Hd eq_refl)| |exact G4].
      intros k. cbv zeta. apply (number_cur _ (dme_new_crs c2 k)) in NG; [|apply CUR]. destruct NG as [_ NG]. exact NG.
  Qed.
End Programs.
