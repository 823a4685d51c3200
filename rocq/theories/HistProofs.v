(** Programs over points refine the same programs on the curve group. *)
From Coq Require Import ZArith Znumtheory Bool List Lia Field.
From Verif Require Import Outcome FieldModel Fermat ZpField SpecField FieldProofs ECGroup ECOrder CurveParams CurveFacts EccModel EccProofs SpecEcc EccThms EccThms2 HistModel SpecHist.
Import ListNotations.
Open Scope Z_scope.

Section Hist.
  Variables (dbg : bool) (C : cparams).
  Hypothesis HC : good C.
  Notation p := (c_prime C).
  Notation n := (fieldn C).
  Notation eon := (eon p (c_a C) (c_b C)).
  Let Hp : prime p := g_prime C HC.
  Let Hqp : fieldp C = p := g_fieldp C HC.
  Let Hnn : fieldn C = c_order C := g_fieldn C HC.

  Definition acur (r : areg C) : Z := match r with Some (_, c) => c | None => 0 end.

  Lemma holds_inj P r : holds C P r -> P = inj C (acur r) (apt C r) /\ eon (apt C r).
  Proof.
    destruct r as [[[x y] c]|]; cbn [holds apt acur option_map fst].
    - intros [-> E]. split; [reflexivity|]. apply (equation_on C) in E. rewrite !mk_val in E. exact E.
    - intros ->. split; [reflexivity|exact I].
  Qed.
  Lemma inj_holds E c : eon E -> holds C (inj C c E) (tied C E c).
  Proof.
    destruct E as [[x y]|]; cbn [tied option_map holds inj]; [|reflexivity].
    intros H. split; [reflexivity|]. apply (equation_on C). rewrite !mk_val. exact H.
  Qed.

  Lemma tracks_set s a i P r : tracks C s a -> holds C P r -> tracks C (set_pt s i P) (aset C a i r).
  Proof.
    intros (L & H & S & O) HP. split; [exact L|]. split; [|split; [exact S|exact O]].
    intros k. cbn [set_pt hpt aset ap]. destruct (Nat.eqb k i); [exact HP|apply H].
  Qed.
  Lemma tracks_print s a o : tracks C s a -> tracks C (print s o) (aprint C a o).
  Proof. intros (L & H & S & O). split; [exact L|]. split; [exact H|]. split; [exact S|]. cbn [print hout aprint aout]. rewrite O. reflexivity. Qed.

  Definition good_step (s : hstate) (a : astate C) (h : hinstr) (o : aresult C) : Prop :=
    match o with
    | Goes _ a' => exists s', hexec dbg C s h = Ok s' /\ tracks C s' a'
    | Faults _ f => hexec dbg C s h = Err f
    | Leaves _ => dbg = false
    end.

  (** ** Single operations *)
  Definition matches (r : res point) (o : areg C + fault) : Prop :=
    match o with inl b => exists P, r = Ok P /\ holds C P b | inr f => r = Err f end.

  Lemma m_add live P Q a b : holds C P a -> holds C Q b -> matches (padd dbg live C P Q) (aadd dbg C live a b).
  Proof.
    intros HP HQ. destruct (holds_inj P a HP) as [-> EP]. destruct (holds_inj Q b HQ) as [-> EQ].
    rewrite (padd_any dbg live C HC) by assumption.
    destruct a as [[P0 c]|]; cbn [apt option_map fst acur] in *.
    2:{ cbn [add_needs aadd matches]. destruct b as [[Q0 c']|]; cbn [option_map fst] in *; eexists; (split; [reflexivity|]); exact HQ. }
    destruct b as [[Q0 c']|]; cbn [apt option_map fst acur] in *.
    2:{ cbn [add_needs aadd matches]. eexists. split; [reflexivity|]. destruct P0. cbn [pick]. rewrite (eadd_0_r p (c_a C)). exact HP. }
    pose proof (inj_holds _ c (eon_add p (c_a C) (c_b C) (isnice C HC) _ _ EP EQ)) as H.
    unfold add_needs, aadd. rewrite negb_andb.
    destruct dbg; cbn [negb orb andb].
    - destruct (live c) eqn:L; cbn [andb negb orb].
      + destruct (live c'); cbn [andb negb orb]; [|reflexivity].
        destruct (ept_dec p (Some P0) (Some Q0)); eexists; (split; [reflexivity|exact H]).
      + reflexivity.
    - destruct (ept_dec p (Some P0) (Some Q0)); [|eexists; split; [reflexivity|exact H]].
      destruct (live c); [eexists; split; [reflexivity|exact H]|reflexivity].
  Qed.

  Lemma m_double live P a : holds C P a -> matches (pdouble dbg live C P)
    (match a with None => inr NullDeref | Some (P0, c) => if live c then inl (tied C (gadd C (Some P0) (Some P0)) c) else inr UseAfterFree end).
  Proof.
    intros HP. destruct (holds_inj P a HP) as [-> EP]. destruct a as [[P0 c]|]; cbn [apt option_map fst acur] in *.
    - rewrite (pdouble_inj dbg live C HC) by (assumption || discriminate). destruct (live c); [|reflexivity].
      eexists. split; [reflexivity|]. apply inj_holds. apply (eon_add p (c_a C) (c_b C) (isnice C HC)); assumption.
    - cbn [inj matches]. apply (pdouble_inf dbg live C HC).
  Qed.

  Lemma m_mul live P a s : holds C P a -> 0 <= fval s -> matches (pmul dbg live C P s) (amul C live a (fval s)).
  Proof.
    intros HP S. destruct (holds_inj P a HP) as [-> EP]. destruct a as [[P0 c]|]; cbn [apt option_map fst acur amul] in *.
    - pose proof (inj_holds _ c (eon_zmul p (c_a C) (c_b C) (isnice C HC) (fval s) _ EP)) as H.
      destruct (live c) eqn:L.
      + rewrite orb_true_r, (pmul_inj dbg live C HC) by (try assumption; intros _; exact L). eexists. split; [reflexivity|exact H].
      + rewrite orb_false_r. destruct P0 as [x y]. rewrite (pmul_dead dbg live C HC) by assumption.
        assert (Z.leb 0 (fval s) = true) as -> by (apply Z.leb_le, S). cbn [andb].
        destruct (fval s <=? 1); [eexists; split; [reflexivity|exact H]|reflexivity].
    - exists (pt_inf C). split; reflexivity.
  Qed.

  Lemma m_sub live P Q a b : holds C P a -> holds C Q b ->
    match asub dbg C live a b with Some o => matches (psub dbg live C P Q) o | None => dbg = false end.
  Proof.
    intros HP HQ. destruct (holds_inj P a HP) as [-> EP]. destruct (holds_inj Q b HQ) as [-> EQ].
    destruct a as [[P0 c]|]; cbn [apt option_map fst acur asub] in *.
    - destruct b as [[[x y] c']|]; cbn [apt option_map fst acur] in *.
      + rewrite (psub_any dbg live C HC) by (assumption || discriminate).
        assert (EN : eon (eneg p (Some (x, y)))) by (apply (eon_neg p (c_a C) (c_b C) (isnice C HC)); assumption).
        pose proof (inj_holds _ c (eon_add p (c_a C) (c_b C) (isnice C HC) _ _ EP EN)) as H.
        unfold add_needs. cbn [eneg neg] in *. change (gneg C (Some (x, y))) with (Some (x, fopp p y)). rewrite negb_andb.
        destruct dbg; cbn [negb orb andb].
        * destruct (live c) eqn:L; cbn [andb negb orb]; [|rewrite ?andb_false_r; reflexivity].
          destruct (live c'); cbn [andb negb orb].
          -- destruct (ept_dec p (Some P0) (Some (x, fopp p y))); cbn [andb]; eexists; (split; [reflexivity|exact H]).
          -- rewrite andb_false_r. reflexivity.
        * destruct (ept_dec p (Some P0) (Some (x, fopp p y))); cbn [andb]; [|eexists; split; [reflexivity|exact H]].
          destruct (live c); cbn [andb]; [eexists; split; [reflexivity|exact H]|reflexivity].
      + destruct dbg eqn:D; [|reflexivity]. cbn [matches]. unfold psub, assert_same_curve. cbn [inj]. destruct P0 as [x y]. cbn [inj pcur pt_inf deref].
        destruct (live c); reflexivity.
    - destruct dbg eqn:D; [|reflexivity]. cbn [matches inj]. reflexivity.
  Qed.

  (** ** Lookups *)
  Lemma sq_root x y : eon (Some (x, y)) -> square C (rootF C (rhsF C x)) /\ ~ square C (fopp p (rootF C (rhsF C x))).
  Proof.
    intros H. pose proof (p_gt1 p Hp) as H1. destruct (root_cases C HC x y H) as [E _]. set (r := rootF C (rhsF C x)) in *.
    assert (Sq : square C r).
    { exists (val p y ^ ((p + 1) / 4)). rewrite <- (cand_sq C), <- (rootF_val C HC). unfold r.
      assert (On' : fmul p y y = rhsF C x) by exact H. rewrite On'. reflexivity. }
    split; [exact Sq|]. intros [w W]. destruct Sq as [z Z0].
    assert (Dv : (p | val p r)).
    { apply (one_square C HC _ z w); [rewrite <- Z0; apply Z.mod_small, (val_range p Hp)|]. rewrite <- W. reflexivity. }
    assert (R0 : r = f0 p) by (rewrite <- (mk_val p r); apply mk_0_iff; assumption).
    apply (on_y_ne0 C HC x r); [exact E|exact R0].
  Qed.

  Lemma looked_ex live c x b : live c = true -> exists E, looked C x b E /\ eon E /\
    (if b then evaluateP else evaluatePneg) dbg live C (Some c) (fe_new (fieldp C) x) = Ok (inj C c E).
  Proof.
    intros L. rewrite (emb_new C HC). set (X := mk p x).
    destruct (eqFp p (fmul p (rootF C (rhsF C X)) (rootF C (rhsF C X))) (rhsF C X)) as [E|NE].
    - assert (O1 : eon (Some (X, rootF C (rhsF C X)))) by exact E.
      assert (O2 : eon (Some (X, fopp p (rootF C (rhsF C X))))) by exact (eon_neg p (c_a C) (c_b C) (isnice C HC) _ O1).
      destruct (sq_root _ _ O1) as [S1 S2].
      exists (if b then Some (X, rootF C (rhsF C X)) else Some (X, fopp p (rootF C (rhsF C X)))). split; [|split].
      + destruct b; cbn [looked]; (split; [reflexivity|]); (split; [|assumption]); apply (equation_on C); rewrite mk_val; assumption.
      + destruct b; assumption.
      + destruct b; [rewrite (evaluateP_emb dbg live C HC), L|rewrite (evaluatePneg_emb dbg live C HC), L];
          destruct (eqFp p (fmul p (rootF C (rhsF C X)) (rootF C (rhsF C X))) (rhsF C X)) as [_|]; (reflexivity || contradiction).
    - exists None. split; [|split].
      + cbn [looked]. intros y Q. apply NE. apply (lookup_total C HC). exists (mk p y). apply (equation_on C), Q.
      + exact I.
      + destruct b; [rewrite (evaluateP_emb dbg live C HC), L|rewrite (evaluatePneg_emb dbg live C HC), L];
          destruct (eqFp p (fmul p (rootF C (rhsF C X)) (rootF C (rhsF C X))) (rhsF C X)) as [|_]; (reflexivity || contradiction).
  Qed.

  Lemma looked_fun x b E E' : looked C x b E -> looked C x b E' -> E = E'.
  Proof.
    assert (S : forall E, looked C x b E -> eon E /\ match E with None => forall y, ~ equation C x y | Some (X, Y) => X = mk p x /\
       Y = if b then rootF C (rhsF C X) else fopp p (rootF C (rhsF C X)) end).
    { intros [[X Y]|] H; [|split; [exact I|exact H]]. destruct H as [-> [H S]]. apply (equation_on C) in H. rewrite mk_val in H.
      split; [exact H|]. split; [reflexivity|]. destruct (sq_root _ _ H) as [S1 S2]. destruct (root_cases C HC _ _ H) as [_ [D|D]].
      - destruct b; [exact D|]. exfalso. apply S. rewrite D. exact S1.
      - destruct b; [|exact D]. exfalso. apply S2. rewrite <- D. exact S. }
    intros H H'. destruct (S _ H) as [O D]. destruct (S _ H') as [O' D']. destruct E as [[X Y]|], E' as [[X' Y']|].
    - destruct D as [-> ->], D' as [-> ->]. reflexivity.
    - exfalso. destruct D as [-> _]. apply (D' (val p Y)). apply (equation_on C). rewrite mk_val. exact O.
    - exfalso. destruct D' as [-> _]. apply (D (val p Y')). apply (equation_on C). rewrite mk_val. exact O'.
    - reflexivity.
  Qed.

  Lemma encoded_ex live c e : live c = true -> eon (Some e) -> exists z, encoded C e z /\ getEncodedX dbg live C (inj C c (Some e)) = Ok z.
  Proof.
    intros L H. destruct e as [x y]. rewrite (getEncodedX_inj dbg live C HC) by assumption. eexists. split; [|reflexivity].
    destruct (sq_root _ _ H) as [S1 S2]. destruct (root_cases C HC _ _ H) as [_ D]. unfold encoded. cbn [fst snd].
    destruct (eqFp p (rootF C (rhsF C x)) y) as [<-|NE].
    - left. split; [exact S1|reflexivity].
    - right. destruct D as [D|D]; [exfalso; apply NE; symmetry; exact D|]. rewrite D. split; [exact S2|ring].
  Qed.
  Lemma encoded_fun e z z' : encoded C e z -> encoded C e z' -> z = z'.
  Proof. intros [[S ->]|[S ->]] [[S' ->]|[S' ->]]; (reflexivity || contradiction). Qed.

  (** ** One instruction *)
  Let Hn : prime n.
  Proof. rewrite Hnn. exact (n_prime C HC). Qed.

  Lemma gen_inj c : gen C c = inj C c (gen_pt C).
  Proof. unfold gen, pt_z, gen_pt. cbn [inj]. rewrite !(emb_new C HC). reflexivity. Qed.

  Lemma put_ok s a i h r o : tracks C s a ->
    hexec dbg C s h = (do P <- r; Ok (set_pt s i P)) -> matches r o -> good_step s a h (put C a i o).
  Proof.
    intros T E M. destruct o as [b|f]; cbn [matches put good_step] in *.
    - destruct M as (P & -> & HP). exists (set_pt s i P). split; [exact E|]. apply tracks_set; assumption.
    - rewrite E, M. reflexivity.
  Qed.

  Lemma canon_new z : canon n (fe_new n z) /\ fval (fe_new n z) = z mod n.
  Proof. split; [|reflexivity]. pose proof (p_gt1 n Hn). split; [reflexivity|]. apply Z.mod_pos_bound. lia. Qed.

  Lemma reps_new s e i z : reps n s e -> reps n (write s i (fe_new n z)) (rset n e i (mk n z)).
  Proof.
    intros H k. unfold write, rset. destruct (Nat.eqb k i); [|apply H]. destruct (canon_new z) as [A B]. split; [exact A|].
    rewrite B. symmetry. apply val_mk.
  Qed.

  Lemma step s a h : tracks C s a -> exists o, astep dbg C a h o /\ good_step s a h o.
  Proof.
    intros T. pose proof T as T0. destruct T0 as (L & H & S & O).
    destruct h as [c b|i|i c|i j|i j k|i j k|i j|i j t|i j z|i c d|i c x b|i e|t z|t c d|f|i j|i|i]; cbn [astep];
      try (eexists; split; [reflexivity|]).
    - (* HCurve *) eexists. split; [reflexivity|]. split; [cbn [set_live hlive alive_]; rewrite L; reflexivity|split; [exact H|split; [exact S|exact O]]].
    - apply (put_ok _ _ _ _ (Ok (pt_inf C))); [exact T|reflexivity|]. eexists. split; reflexivity.
    - apply (put_ok _ _ _ _ (getDefaultGen (hlive s) C (Some c))); [exact T|reflexivity|]. cbn [getDefaultGen]. rewrite L.
      destruct (alive_ C a c); [|reflexivity]. eexists. split; [reflexivity|]. rewrite gen_inj. apply inj_holds, (gen_on C HC).
    - apply (put_ok _ _ _ _ (Ok (hpt s j))); [exact T|reflexivity|]. eexists. split; [reflexivity|apply H].
    - apply (put_ok _ _ _ _ (padd dbg (hlive s) C (hpt s j) (hpt s k))); [exact T|reflexivity|]. rewrite L. apply m_add; apply H.
    - pose proof (m_sub (alive_ C a) _ _ _ _ (H j) (H k)) as M. destruct (asub dbg C (alive_ C a) (ap C a j) (ap C a k)) as [o|] eqn:E.
      + apply (put_ok _ _ _ _ (psub dbg (hlive s) C (hpt s j) (hpt s k))); [exact T|reflexivity|]. rewrite L. exact M.
      + exact M.
    - apply (put_ok _ _ _ _ (pdouble dbg (hlive s) C (hpt s j))); [exact T|reflexivity|]. rewrite L. apply m_double, H.
    - apply (put_ok _ _ _ _ (pmul dbg (hlive s) C (hpt s j) (hsc s t))); [exact T|reflexivity|]. rewrite L.
      destruct (S t) as [Cn E]. rewrite <- E. apply m_mul; [apply H|]. rewrite E. apply (val_range n Hn).
    - apply (put_ok _ _ _ _ (pmulz dbg (hlive s) C (hpt s j) z)); [exact T|reflexivity|]. rewrite L. unfold pmulz.
      rewrite <- Hnn. change (z mod n) with (fval (fe_new n z)). apply m_mul; [apply H|].
      pose proof (p_gt1 n Hn). apply Z.mod_pos_bound. lia.
    - apply (put_ok _ _ _ _ (getRandomPoint dbg (hlive s) C (Some c) d)); [exact T|reflexivity|]. unfold getRandomPoint. cbn [getDefaultGen]. rewrite L.
      destruct (alive_ C a c) eqn:A; [|reflexivity]. change (bind (Ok (gen C c)) (fun G => pmulz dbg (alive_ C a) C G d)) with (pmulz dbg (alive_ C a) C (gen C c) d). rewrite gen_inj. unfold pmulz.
      pose proof (m_mul (alive_ C a) _ _ (fe_new n d) (inj_holds (gen_pt C) c (gen_on C HC))) as M.
      assert (0 <= fval (fe_new n d)) as M0 by (pose proof (p_gt1 n Hn); apply Z.mod_pos_bound; lia). specialize (M M0).
      change (fval (fe_new n d)) with (d mod n) in M. destruct (tied C (gen_pt C) c) as [[g c0]|] eqn:Eg; [|discriminate].
      cbn [amul] in M. assert (Ec : c0 = c /\ Some g = gen_pt C) by (unfold tied, gen_pt in *; cbn [option_map] in Eg; split; congruence).
      destruct Ec as [-> Ec]. rewrite A, orb_true_r, Ec in M. unfold gmul in *. rewrite Hnn in M.
      rewrite (ezmul_mod C HC) in M by apply (gen_on C HC). rewrite Hnn. exact M.
    - (* HLookup *) rewrite <- L. destruct (hlive s c) eqn:A.
      + destruct (looked_ex (hlive s) c x b A) as (E & K & On & R). eexists. split; [exists E; split; [exact K|reflexivity]|].
        cbn [good_step hexec]. rewrite R. eexists. split; [reflexivity|]. apply tracks_set; [exact T|]. apply inj_holds, On.
      + eexists. split; [reflexivity|]. cbn [good_step hexec]. destruct b; unfold evaluateP, evaluatePneg, evaluatePy2, deref; rewrite A; reflexivity.
    - (* HDecode *) pose proof (H i) as Hi. destruct (ap C a i) as [[P0 c]|] eqn:Ea.
      + destruct (holds_inj _ _ Hi) as [Ei _]. assert (Cu : pcur (hpt s i) = Some c) by (rewrite Ei; destruct P0; reflexivity).
        rewrite <- L. destruct (hlive s c) eqn:A.
        * destruct (looked_ex (hlive s) c (e / 2) (Z.odd e) A) as (E & K & On & R). eexists. split; [exists E; split; [exact K|reflexivity]|].
          cbn [good_step hexec]. unfold setEncodedX. rewrite Cu, Z.div2_div. destruct (Z.odd e); rewrite R; (eexists; split; [reflexivity|]);
            (apply tracks_set; [exact T|]); apply inj_holds, On.
        * eexists. split; [reflexivity|]. cbn [good_step hexec]. unfold setEncodedX, evaluateP, evaluatePneg, evaluatePy2, deref. rewrite Cu, A. destruct (Z.odd e); reflexivity.
      + eexists. split; [reflexivity|]. cbn [holds] in Hi. cbn [good_step hexec]. rewrite Hi. unfold setEncodedX, evaluateP, evaluatePneg, evaluatePy2, deref. cbn [pcur pt_inf]. destruct (Z.odd e); reflexivity.
    - (* HScalar *) eexists. split; [reflexivity|]. split; [exact L|split; [exact H|split; [|exact O]]]. apply reps_new, S.
    - (* HRandomS *) rewrite <- L. destruct (hlive s c) eqn:A; cbn [good_step hexec]; unfold getRandomScalar, deref; rewrite A; [|reflexivity].
      eexists. split; [reflexivity|]. split; [exact L|split; [exact H|split; [|exact O]]]. apply reps_new, S.
    - (* HField *) pose proof (exec_refines dbg n Hn (hsc s) (asc C a) f S) as X. destruct (rexec n (asc C a) f) as [e'|]; cbn [good_step hexec].
      + destruct X as (s' & -> & X). eexists. split; [reflexivity|]. split; [exact L|split; [exact H|split; [exact X|exact O]]].
      + rewrite X. reflexivity.
    - (* HEqual *) destruct (holds_inj _ _ (H i)) as [Ei Oi]. destruct (holds_inj _ _ (H j)) as [Ej Oj].
      assert (X : hexec dbg C s (HEqual i j) = (do b <- peq (hlive s) C (hpt s i) (hpt s j); Ok (print s (SBool b)))) by reflexivity.
      rewrite Ei, Ej, (peq_any (hlive s) C HC) in X by assumption. rewrite <- L.
      destruct (ept_dec p (apt C (ap C a i)) (apt C (ap C a j))) as [E|NE].
      + destruct (ap C a i) as [[P0 c]|], (ap C a j) as [[Q0 c']|]; cbn [apt option_map fst acur] in *; try discriminate.
        * destruct (hlive s c && hlive s c'); [eexists; split; [exact X|apply tracks_print, T]|exact X].
        * eexists. split; [exact X|apply tracks_print, T].
      + eexists. split; [exact X|apply tracks_print, T].
    - (* HValid *) destruct (holds_inj _ _ (H i)) as [Ei Oi].
      assert (X : hexec dbg C s (HValid i) = (do b <- isValid dbg (hlive s) C (hpt s i); Ok (print s (SBool b)))) by reflexivity.
      rewrite Ei in X. rewrite <- L. destruct (ap C a i) as [[P0 c]|]; cbn [apt option_map fst acur] in *.
      + destruct (hlive s c) eqn:A.
        * rewrite (isValid_inj dbg (hlive s) C HC) in X by (try assumption; intros _; exact A). eexists. split; [exact X|apply tracks_print, T].
        * destruct P0 as [x y]. cbn [inj] in X. rewrite (isValid_emb dbg (hlive s) C HC), A in X. exact X.
      + eexists. split; [exact X|apply tracks_print, T].
    - (* HEncode *) destruct (holds_inj _ _ (H i)) as [Ei Oi].
      assert (X : hexec dbg C s (HEncode i) = (do b <- getEncodedX dbg (hlive s) C (hpt s i); Ok (print s (SInt b)))) by reflexivity.
      rewrite Ei in X. rewrite <- L. destruct (ap C a i) as [[P0 c]|]; cbn [apt option_map fst acur] in *.
      + destruct (hlive s c) eqn:A.
        * destruct (encoded_ex (hlive s) c P0 A Oi) as (z & K & R). rewrite R in X. eexists. split; [exists z; split; [exact K|reflexivity]|].
          eexists. split; [exact X|apply tracks_print, T].
        * eexists. split; [reflexivity|]. destruct P0 as [x y]. cbn [good_step]. rewrite X. cbn [inj]. unfold getEncodedX, evaluateP, evaluatePy2, deref. cbn [pcur]. rewrite A. reflexivity.
      + eexists. split; [reflexivity|]. exact X.
  Qed.

  (** ** Whole programs *)
  Definition gone (l : list hinstr) (s : hstate) : Prop :=
    dbg = false /\ exists l1 i j k l2 s', l = l1 ++ HSub i j k :: l2 /\ hexec_all dbg C l1 s = Ok s' /\
      (hpt s' j = pt_inf C \/ hpt s' k = pt_inf C).
  Lemma L_history l : forall s a, tracks C s a -> exists o, arun dbg C l a o /\
    match o with
    | Goes _ a' => exists s', hexec_all dbg C l s = Ok s' /\ tracks C s' a'
    | Faults _ f => hexec_all dbg C l s = Err f
    | Leaves _ => gone l s
    end.
  Proof.
    induction l as [|h l IH]; intros s a T.
    - exists (Goes C a). split; [reflexivity|]. exists s. split; [reflexivity|exact T].
    - destruct (step s a h T) as (o & A & G). destruct o as [a'|f|]; cbn [good_step] in G.
      + destruct G as (s' & E & T'). destruct (IH s' a' T') as (o & R & G). exists o. split; [exists (Goes C a'); split; [exact A|exact R]|].
        assert (X : hexec_all dbg C (h :: l) s = hexec_all dbg C l s') by (unfold hexec_all; cbn [foldM]; rewrite E; reflexivity).
        rewrite X. destruct o as [a''|f|]; [exact G|exact G|]. destruct G as (D & l1 & i & j & k & l2 & t & -> & Et & Q). split; [exact D|].
        exists (h :: l1), i, j, k, l2, t. split; [reflexivity|]. split; [|exact Q]. rewrite <- Et. unfold hexec_all. cbn [foldM]. rewrite E. reflexivity.
      + exists (Faults C f). split; [exists (Faults C f); split; [exact A|reflexivity]|]. unfold hexec_all. cbn [foldM]. rewrite G. reflexivity.
      + exists (Leaves C). split; [exists (Leaves C); split; [exact A|reflexivity]|]. split; [exact G|].
        assert (Q : exists i j k, h = HSub i j k /\ asub dbg C (alive_ C a) (ap C a j) (ap C a k) = None).
        { destruct h; cbn [astep] in A; unfold put in A;
            repeat match type of A with context [match ?x with _ => _ end] => destruct x eqn:?; try discriminate A end;
            try (destruct A as (? & _ & A); discriminate A); try discriminate A.
          eexists _, _, _. split; [reflexivity|assumption]. }
        destruct Q as (i & j & k & -> & Q). exists [], i, j, k, l, s. split; [reflexivity|]. split; [reflexivity|].
        destruct T as (_ & H & _). pose proof (H j) as Hj. pose proof (H k) as Hk.
        destruct (ap C a j) as [[P0 c]|]; [|left; exact Hj]. destruct (ap C a k) as [[Q0 c']|]; [|right; exact Hk].
        exfalso. cbn [asub] in Q. destruct (dbg && negb (alive_ C a c && alive_ C a c')); [discriminate Q|].
        destruct (ept_dec p (Some P0) (gneg C (Some Q0))); [destruct (alive_ C a c)|]; discriminate Q.
  Qed.

  Lemma astep_fun a h o o' : astep dbg C a h o -> astep dbg C a h o' -> o = o'.
  Proof.
    destruct h; cbn [astep]; try (intros -> ->; reflexivity).
    - destruct (alive_ C a c); [|intros -> ->; reflexivity]. intros (E & K & ->) (E' & K' & ->). rewrite (looked_fun x b E E' K K'). reflexivity.
    - destruct (ap C a i) as [[P0 c]|]; [|intros -> ->; reflexivity]. destruct (alive_ C a c); [|intros -> ->; reflexivity].
      intros (E & K & ->) (E' & K' & ->). rewrite (looked_fun _ _ E E' K K'). reflexivity.
    - destruct (ap C a i) as [[P0 c]|]; [|intros -> ->; reflexivity]. destruct (alive_ C a c); [|intros -> ->; reflexivity].
      intros (z & K & ->) (z' & K' & ->). rewrite (encoded_fun _ z z' K K'). reflexivity.
  Qed.
  Lemma L_determ l : forall a o o', arun dbg C l a o -> arun dbg C l a o' -> o = o'.
  Proof.
    induction l as [|h l IH]; intros a o o'; cbn [arun].
    - intros -> ->. reflexivity.
    - intros (r & A & R) (r' & A' & R'). rewrite <- (astep_fun a h r r' A A') in R'. destruct r as [a'|f|].
      + exact (IH a' o o' R R').
      + rewrite R, R'. reflexivity.
      + rewrite R, R'. reflexivity.
  Qed.

  Lemma L_start live : tracks C (hstart C live) (astart C live).
  Proof.
    split; [reflexivity|]. split; [intros i; reflexivity|]. split; [|reflexivity]. intros k. cbn [hstart astart hsc asc].
    pose proof (p_gt1 n Hn). split; [split; [reflexivity|cbn [fe_default fval]; lia]|]. rewrite val_mk. cbn [fe_default fval]. rewrite Z.mod_0_l by lia. reflexivity.
  Qed.

  Lemma anchored_set a i r : anchored C a -> match r with Some (_, c) => alive_ C a c = true | None => True end -> anchored C (aset C a i r).
  Proof. intros A R k. cbn [aset ap alive_]. destruct (Nat.eqb k i); [exact R|apply A]. Qed.

  Definition fine (a : astate C) (o : aresult C) : Prop :=
    match o with Goes _ a' => anchored C a' /\ alive_ C a' = alive_ C a | Faults _ f => f = NullDeref \/ f = NoInverse | Leaves _ => True end.
  Lemma put_fine a i (r : areg C + fault) : anchored C a ->
    match r with inl (Some (_, c)) => alive_ C a c = true | inl None => True | inr f => f = NullDeref end -> fine a (put C a i r).
  Proof.
    intros A R. destruct r as [b|f]; cbn [put fine]; [|left; exact R]. split; [|reflexivity]. apply anchored_set; [exact A|]. destruct b as [[? c]|]; [exact R|exact I].
  Qed.
  Lemma tied_fine a E c : alive_ C a c = true -> match tied C E c with Some (_, c0) => alive_ C a c0 = true | None => True end.
  Proof. intros L. destruct E; cbn [tied option_map]; [exact L|exact I]. Qed.

  Lemma step_fine a h o : anchored C a -> (forall c b, h <> HCurve c b) -> (forall c, In c (names h) -> alive_ C a c = true) -> astep dbg C a h o -> fine a o.
  Proof.
    intros A N L. destruct h as [c b|i|i c|i j|i j k|i j k|i j|i j t|i j z|i c d|i c x b|i e|t z|t c d|f|i j|i|i]; cbn [astep names] in *.
    - exfalso. apply (N c b). reflexivity.
    - intros ->. apply put_fine; [exact A|exact I].
    - intros ->. rewrite (L c) by (left; reflexivity). apply put_fine; [exact A|]. apply tied_fine, L. left; reflexivity.
    - intros ->. apply put_fine; [exact A|]. apply A.
    - intros ->. apply put_fine; [exact A|]. pose proof (A j) as Aj. pose proof (A k) as Ak. destruct (ap C a j) as [[P0 c]|]; cbn [aadd]; [|exact Ak].
      destruct (ap C a k) as [[Q0 c']|]; [|exact Aj]. rewrite Aj, Ak. cbn [negb andb]. rewrite andb_false_r.
      destruct (ept_dec p (Some P0) (Some Q0)); apply tied_fine, Aj.
    - pose proof (A j) as Aj. pose proof (A k) as Ak. destruct (ap C a j) as [[P0 c]|]; cbn [asub].
      + destruct (ap C a k) as [[Q0 c']|].
        * rewrite Aj, Ak. cbn [negb andb]. rewrite andb_false_r. destruct (ept_dec p (Some P0) (gneg C (Some Q0))); intros ->; (apply put_fine; [exact A|]); apply tied_fine, Aj.
        * rewrite Aj. destruct dbg; intros ->; [apply put_fine; [exact A|reflexivity]|exact I].
      + destruct dbg; intros ->; [apply put_fine; [exact A|reflexivity]|exact I].
    - intros ->. apply put_fine; [exact A|]. pose proof (A j) as Aj. destruct (ap C a j) as [[P0 c]|]; [|reflexivity]. rewrite Aj. apply tied_fine, Aj.
    - intros ->. apply put_fine; [exact A|]. pose proof (A j) as Aj. destruct (ap C a j) as [[P0 c]|]; cbn [amul]; [|exact I]. rewrite Aj, orb_true_r. apply tied_fine, Aj.
    - intros ->. apply put_fine; [exact A|]. pose proof (A j) as Aj. destruct (ap C a j) as [[P0 c]|]; cbn [amul]; [|exact I]. rewrite Aj, orb_true_r. apply tied_fine, Aj.
    - intros ->. rewrite (L c) by (left; reflexivity). apply put_fine; [exact A|]. apply tied_fine, L. left; reflexivity.
    - rewrite (L c) by (left; reflexivity). intros (E & _ & ->). split; [|reflexivity]. apply anchored_set; [exact A|]. apply tied_fine, L. left; reflexivity.
    - pose proof (A i) as Ai. destruct (ap C a i) as [[P0 c]|]; [|intros ->; left; reflexivity]. rewrite Ai. intros (E & _ & ->). split; [|reflexivity].
      apply anchored_set; [exact A|]. apply tied_fine, Ai.
    - intros ->. split; [exact A|reflexivity].
    - rewrite (L c) by (left; reflexivity). intros ->. split; [exact A|reflexivity].
    - intros ->. destruct (rexec n (asc C a) f); [split; [exact A|reflexivity]|right; reflexivity].
    - intros ->. pose proof (A i) as Ai. pose proof (A j) as Aj. destruct (ept_dec p (apt C (ap C a i)) (apt C (ap C a j))); [|split; [exact A|reflexivity]].
      destruct (ap C a i) as [[P0 c]|], (ap C a j) as [[Q0 c']|]; try rewrite Ai, Aj; cbn [andb]; (split; [exact A|reflexivity]).
    - intros ->. pose proof (A i) as Ai. destruct (ap C a i) as [[P0 c]|]; [rewrite Ai|]; (split; [exact A|reflexivity]).
    - pose proof (A i) as Ai. destruct (ap C a i) as [[P0 c]|]; [|intros ->; left; reflexivity]. rewrite Ai. intros (z & _ & ->). split; [exact A|reflexivity].
  Qed.

  Lemma L_careful l : forall a f, anchored C a -> careful (alive_ C a) l -> arun dbg C l a (Faults C f) -> f = NullDeref \/ f = NoInverse.
  Proof.
    induction l as [|h l IH]; intros a f A K R; [discriminate R|]. destruct R as (o & S & R).
    assert (D : (exists c b, h = HCurve c b) \/ forall c b, h <> HCurve c b) by (destruct h; ((left; eexists _, _; reflexivity) || (right; discriminate))).
    destruct D as [(c & b & ->)|D].
    - cbn [astep] in S. subst o. cbn [careful] in K. destruct K as [-> K]. apply (IH _ f) in R; [exact R| |exact K].
      intros i. cbn [ap alive_]. pose proof (A i) as Ai. destruct (ap C a i) as [[P0 c0]|]; [|exact I]. destruct (c0 =? c); [reflexivity|exact Ai].
    - assert (K' : (forall c, In c (names h) -> alive_ C a c = true) /\ careful (alive_ C a) l) by (destruct h; (exact K || (exfalso; eapply D; reflexivity))).
      destruct K' as [L K']. pose proof (step_fine a h o A D L S) as F. destruct o as [a'|f'|]; cbn [fine] in F.
      + destruct F as [A' E]. apply (IH a' f A'); [rewrite E; exact K'|exact R].
      + injection R as ->. exact F.
      + discriminate R.
  Qed.
End Hist.

Section Builds.
  Variable C : cparams.
  Hypothesis HC : good C.

  Definition other (o : aresult C) : aresult C := match o with Leaves _ => Faults C NullDeref | _ => o end.
  Lemma step_builds a h o : anchored C a -> (forall c, In c (names h) -> alive_ C a c = true) -> astep false C a h o -> astep true C a h (other o).
  Proof.
    intros A L. destruct h as [c b|i|i c|i j|i j k|i j k|i j|i j t|i j z|i c d|i c x b|i e|t z|t c d|f|i j|i|i]; cbn [astep].
    - intros ->. reflexivity.
    - intros ->. reflexivity.
    - intros ->. destruct (alive_ C a c); reflexivity.
    - intros ->. reflexivity.
    - intros ->. pose proof (A j) as Aj. pose proof (A k) as Ak. destruct (ap C a j) as [[P0 c]|]; cbn [aadd]; [|reflexivity].
      destruct (ap C a k) as [[Q0 c']|]; [|reflexivity]. rewrite Aj, Ak. cbn [negb andb].
      destruct (ept_dec (c_prime C) (Some P0) (Some Q0)); reflexivity.
    - pose proof (A j) as Aj. pose proof (A k) as Ak. destruct (ap C a j) as [[P0 c]|]; cbn [asub].
      + destruct (ap C a k) as [[Q0 c']|].
        * rewrite Aj, Ak. cbn [negb andb]. destruct (ept_dec (c_prime C) (Some P0) (gneg C (Some Q0))); intros ->; reflexivity.
        * rewrite Aj. intros ->. reflexivity.
      + intros ->. reflexivity.
    - intros ->. destruct (ap C a j) as [[P0 c]|]; [destruct (alive_ C a c)|]; reflexivity.
    - intros ->. destruct (amul C (alive_ C a) (ap C a j) (val (fieldn C) (asc C a t))); reflexivity.
    - intros ->. destruct (amul C (alive_ C a) (ap C a j) (z mod c_order C)); reflexivity.
    - intros ->. destruct (alive_ C a c); reflexivity.
    - destruct (alive_ C a c); [|intros ->; reflexivity]. intros (E & K & ->). exists E. split; [exact K|reflexivity].
    - destruct (ap C a i) as [[P0 c]|]; [|intros ->; reflexivity]. destruct (alive_ C a c); [|intros ->; reflexivity]. intros (E & K & ->). exists E. split; [exact K|reflexivity].
    - intros ->. reflexivity.
    - intros ->. destruct (alive_ C a c); reflexivity.
    - intros ->. destruct (rexec (fieldn C) (asc C a) f); reflexivity.
    - intros ->. destruct (ept_dec (c_prime C) (apt C (ap C a i)) (apt C (ap C a j))); [|reflexivity].
      destruct (ap C a i) as [[P0 c]|], (ap C a j) as [[Q0 c']|]; try reflexivity. destruct (alive_ C a c && alive_ C a c'); reflexivity.
    - intros ->. destruct (ap C a i) as [[P0 c]|]; [destruct (alive_ C a c)|]; reflexivity.
    - destruct (ap C a i) as [[P0 c]|]; [|intros ->; reflexivity]. destruct (alive_ C a c); [|intros ->; reflexivity]. intros (z & K & ->). exists z. split; [exact K|reflexivity].
  Qed.

  Lemma L_builds l : forall a o, anchored C a -> careful (alive_ C a) l -> arun false C l a o -> arun true C l a (other o).
  Proof.
    induction l as [|h l IH]; intros a o A K R; [cbn [arun] in *; rewrite R; reflexivity|]. destruct R as (r & S & R).
    assert (D : (exists c b, h = HCurve c b) \/ forall c b, h <> HCurve c b) by (destruct h; ((left; eexists _, _; reflexivity) || (right; discriminate))).
    destruct D as [(c & b & ->)|D].
    - cbn [astep] in S. subst r. cbn [careful] in K. destruct K as [-> K]. eexists. split; [reflexivity|]. cbn beta iota. apply IH; [|exact K|exact R].
      intros i. cbn [ap alive_]. pose proof (A i) as Ai. destruct (ap C a i) as [[P0 c0]|]; [|exact I]. destruct (c0 =? c); [reflexivity|exact Ai].
    - assert (K' : (forall c, In c (names h) -> alive_ C a c = true) /\ careful (alive_ C a) l) by (destruct h; (exact K || (exfalso; eapply D; reflexivity))).
      destruct K' as [L K']. pose proof (step_fine false C a h r A D L S) as F. pose proof (step_builds a h r A L S) as S'.
      exists (other r). split; [exact S'|]. destruct r as [a'|f'|]; cbn [fine other] in *.
      + destruct F as [A' E]. apply IH; [exact A'|rewrite E; exact K'|exact R].
      + rewrite R. reflexivity.
      + rewrite R. reflexivity.
  Qed.
End Builds.
