(** Proofs about the sequences of point operations of the protocols. *)
From Coq Require Import ZArith Znumtheory Bool List Lia Field.
From Verif Require Import Outcome FieldModel ZpField SpecField FieldProofs ECGroup ECOrder CurveParams CurveFacts EccModel EccProofs SpecEcc EccThms Emb RF DmeModel SpecDme DmeProofs OtModel SpecOt OtProofs AesModel OpprfModel OpprfProofs2 ShamirProofs PudaModel SpecPuda PudaProofs ElgamalModel SpecElgamal TraceModel SpecTrace TraceProofs TraceModel2 SpecTrace2.
Import ListNotations.
Open Scope Z_scope.

(** ** The events change no outcome *)
Lemma lift_bind {A B} (r : res A) (k : A -> traced B) : snd (tbind (lift r) k) = bind r (fun a => snd (k a)).
Proof. apply tbind_snd. Qed.

Lemma foldM_snd {A S} (f : S -> A -> traced S) (g : S -> A -> res S) : (forall s a, snd (f s a) = g s a) ->
  forall l s, snd (foldM_t f l s) = foldM g l s.
Proof.
  intros H. induction l as [|a l IH]; intros s; [reflexivity|]. cbn [foldM_t foldM]. rewrite tbind_snd, H. apply bind_ext. intros s'. apply IH.
Qed.

Section Erase.
  Variables (dbg : bool) (live : Z -> bool) (e : env) (iv : list Z).

  Ltac snds := repeat first
    [ progress (rewrite tbind_snd)
    | progress (rewrite pmul_snd) | progress (rewrite padd_snd) | progress (rewrite psub_snd) | progress (rewrite random_snd)
    | progress (rewrite KeyGen_snd) | progress (rewrite Dec_snd)
    | apply bind_ext; intros ?
    | reflexivity ].

  Lemma pmulz_snd P a : snd (pmulz_t dbg live CV P a) = pmulz dbg live CV P a.
  Proof. apply pmul_snd. Qed.

  Definition proj (s : (list event * Z) + traced Z) : Z + res Z := match s with inl x => inl (snd x) | inr r => inr (snd r) end.

  Lemma dlog_step_snd pp c s : proj (dlog_step_t dbg live pp c s) = dlog_step dbg live pp c (snd s).
  Proof.
    unfold dlog_step_t, dlog_step. rewrite pmulz_snd. destruct (pmulz dbg live CV (ppg1 pp) (snd s)) as [R|f]; [|reflexivity].
    destruct (peq live CV R c) as [[|]|f]; reflexivity.
  Qed.
  Lemma loop_snd pp c k : forall s, proj (loop_upto k (dlog_step_t dbg live pp c) s) = loop_upto k (dlog_step dbg live pp c) (snd s).
  Proof.
    assert (TWO : forall k, (forall s, proj (loop_upto k (dlog_step_t dbg live pp c) s) = loop_upto k (dlog_step dbg live pp c) (snd s)) -> forall s,
      proj (match loop_upto k (dlog_step_t dbg live pp c) s with inl s' => loop_upto k (dlog_step_t dbg live pp c) s' | inr r => inr r end) =
      match loop_upto k (dlog_step dbg live pp c) (snd s) with inl s' => loop_upto k (dlog_step dbg live pp c) s' | inr r => inr r end).
    { intros j H s. rewrite <- H. destruct (loop_upto j (dlog_step_t dbg live pp c) s) as [s'|r]; [apply H|reflexivity]. }
    induction k as [k IH|k IH|]; intros s; cbn [loop_upto].
    - rewrite <- (dlog_step_snd pp c s). destruct (dlog_step_t dbg live pp c s) as [s'|r]; [|reflexivity]. cbn [proj]. apply TWO, IH.
    - apply TWO, IH.
    - apply dlog_step_snd.
  Qed.
  Lemma dlog_snd pp c : snd (compute_dlog_t dbg live pp c) = compute_dlog dbg live pp c.
  Proof.
    unfold compute_dlog_t, compute_dlog. pose proof (loop_snd pp c (Z.to_pos USHRT_MAX) ([], 0)) as H. cbn [snd] in H. rewrite <- H.
    destruct (loop_upto (Z.to_pos USHRT_MAX) (dlog_step_t dbg live pp c) ([], 0)) as [s|r]; reflexivity.
  Qed.

  Lemma PEnc_snd pp ek m t : snd (PEnc_t dbg live pp ek m t) = PEnc dbg live pp ek m t.
  Proof. unfold PEnc_t, PEnc, pmulz_t, pmulz. snds. Qed.
  Lemma PTag_snd pp sk m t : snd (PTag_t dbg live pp sk m t) = PTag dbg live pp sk m t.
  Proof. unfold PTag_t, PTag, pmulz_t, pmulz. snds. Qed.
  Lemma Agg_snd pp ak cs ts t : snd (Agg_t dbg live pp ak cs ts t) = Agg dbg live pp ak cs ts t.
  Proof.
    unfold Agg_t, Agg. rewrite tbind_snd, (foldM_snd _ (padd dbg live CV)) by (intros; apply padd_snd). apply bind_ext; intros c.
    rewrite tbind_snd, (foldM_snd _ (padd dbg live CV)) by (intros; apply padd_snd). apply bind_ext; intros tag.
    rewrite tbind_snd, pmulz_snd. apply bind_ext; intros ht. rewrite tbind_snd, pmul_snd. apply bind_ext; intros x.
    rewrite tbind_snd, padd_snd. apply bind_ext; intros c'. rewrite tbind_snd, dlog_snd. apply bind_ext; intros m. reflexivity.
  Qed.
  Lemma eg_encrypt_snd E pk m r : snd (eg_encrypt_t dbg live E pk m r) = eg_encrypt dbg live E pk m r.
  Proof. unfold eg_encrypt_t, eg_encrypt. snds. Qed.
  Lemma eg_decrypt_snd sk c : snd (eg_decrypt_t dbg live sk c) = eg_decrypt dbg live sk c.
  Proof. unfold eg_decrypt_t, eg_decrypt. snds. Qed.
  Lemma selectMsg_snd R b r : snd (selectMsg_t dbg live R b r) = selectMsg dbg live R b r.
  Proof. unfold selectMsg_t, selectMsg. snds. Qed.
  Lemma decryptMsg_snd R c : snd (decryptMsg_t dbg live R c) = decryptMsg dbg live R c.
  Proof. unfold decryptMsg_t, decryptMsg. snds. Qed.
  Lemma decryptMsgDecode_snd R c : snd (decryptMsgDecode_t dbg live R c) = decryptMsgDecode dbg live R c.
  Proof. unfold decryptMsgDecode_t, decryptMsgDecode, DecDecode. snds. Qed.
  Lemma start_snd C round d : snd (runOTRound_start_t dbg live C round d) = runOTRound_start dbg live C round d.
  Proof.
    unfold runOTRound_start_t, runOTRound_start. destruct (cx C) as [x|]; [|reflexivity]. rewrite tbind_snd. apply bind_ext; intros s.
    cbv zeta. rewrite tbind_snd, selectMsg_snd. apply bind_ext; intros r. reflexivity.
  Qed.
  Lemma open_key_snd R k l : snd (open_key_t dbg live e iv R k l) = open_key dbg live e iv R k l.
  Proof.
    induction l as [|v l IH]; [reflexivity|]. cbn [open_key_t open_key]. rewrite tbind_snd, decryptMsgDecode_snd. apply bind_ext; intros t.
    rewrite tbind_snd. apply bind_ext; intros t'. destruct (t' =? 0); [exact IH|reflexivity].
  Qed.
  Lemma end_snd C round c : snd (runOTRound_end_t dbg live e iv C round c) = runOTRound_end dbg live e iv C round c.
  Proof.
    unfold runOTRound_end_t, runOTRound_end. rewrite tbind_snd.
    match goal with |- bind ?x _ = bind ?y _ => assert (E : x = y) end.
    { destruct (round =? BITS); rewrite tbind_snd.
      - apply bind_ext; intros v. apply decryptMsgDecode_snd.
      - rewrite open_key_snd. apply bind_ext; intros [t|]; [reflexivity|]. destruct dbg; reflexivity. }
    rewrite E. apply bind_ext; intros k. rewrite tbind_snd, decryptMsg_snd. apply bind_ext; intros P.
    rewrite tbind_snd, padd_snd. apply bind_ext; intros R. reflexivity.
  Qed.
  Lemma prep_row_snd S j : snd (prep_row_t dbg live e iv S j) = prep_row dbg live e iv S j.
  Proof.
    unfold prep_row_t, prep_row, pmulz_t, pmulz. cbv zeta. do 7 (rewrite tbind_snd; apply bind_ext; intros ?).
    destruct (negb (tbit S j)); snds.
  Qed.
  Lemma prep_step_snd S j : snd (prep_step_t dbg live e iv S j) = prep_step dbg live e iv S j.
  Proof. unfold prep_step_t, prep_step. rewrite tbind_snd, prep_row_snd. apply bind_ext; intros r. snds. Qed.
  Lemma prep_top_snd S : snd (prep_top_t dbg live S) = prep_top dbg live S.
  Proof.
    unfold prep_top_t, prep_top, pmulz_t, pmulz. cbv zeta. rewrite tbind_snd. cbn [lift snd]. apply bind_ext; intros okt.
    rewrite tbind_snd, pmul_snd. destruct (pmul dbg live CV (sr S) okt) as [p0|f] eqn:E; cbn [bind]; [|reflexivity].
    rewrite tbind_snd, pmul_snd. apply bind_ext; intros g. rewrite tbind_snd, pmul_snd, E. cbn [bind]. snds.
  Qed.
  Lemma prepare_snd S d : snd (prepareKeysAndInputs_t dbg live e iv S d) = prepareKeysAndInputs dbg live e iv S d.
  Proof.
    unfold prepareKeysAndInputs_t, prepareKeysAndInputs. rewrite tbind_snd, random_snd. apply bind_ext; intros kp.
    rewrite tbind_snd, random_snd. apply bind_ext; intros r. rewrite tbind_snd. apply bind_ext; intros oks. cbv zeta.
    rewrite tbind_snd, prep_top_snd. apply bind_ext; intros S2. apply foldM_snd. intros. apply prep_step_snd.
  Qed.
End Erase.

(** ** What an onlooker reads *)
Definition sees {A} (r : traced A) (l : list Z) : Prop := forall st, snd (fold_left look (fst r) st) = snd st ++ l.

Lemma sees_observed {A} (r : traced A) l : sees r l -> observed (fst r) = l.
Proof. intros H. apply (H (1, 0, [])). Qed.
Lemma sees_lift {A} (r : res A) : sees (lift r) [].
Proof. intros st. cbn [lift fst fold_left]. rewrite app_nil_r. reflexivity. Qed.
Lemma sees_bind {A B} (r : traced A) (k : A -> traced B) a l l' : snd r = Ok a -> sees r l -> sees (k a) l' -> sees (tbind r k) (l ++ l').
Proof. intros E H H' st. rewrite (tbind_ok _ _ _ E). cbn [fst]. rewrite fold_left_app, H', H, app_assoc. reflexivity. Qed.
Lemma sees_bind0 {A B} (r : traced A) (k : A -> traced B) a l' : snd r = Ok a -> sees r [] -> sees (k a) l' -> sees (tbind r k) l'.
Proof. intros E H H'. exact (sees_bind r k a [] l' E H H'). Qed.
Lemma sees_bind1 {A B} (r : traced A) (k : A -> traced B) a x l' : snd r = Ok a -> sees r [x] -> sees (k a) l' -> sees (tbind r k) (x :: l').
Proof. intros E H H'. exact (sees_bind r k a [x] l' E H H'). Qed.
Lemma sees_last {A B} (r : traced A) (k : A -> traced B) a l : snd r = Ok a -> sees r l -> sees (k a) [] -> sees (tbind r k) l.
Proof. intros E H H'. rewrite <- (app_nil_r l). exact (sees_bind r k a l [] E H H'). Qed.

Section See.
  Variables (dbg : bool) (live : Z -> bool).
  Notation n := (fieldn CV).
  Let Hn : prime n := prime_n CV good_CV.
  Let HF := field_Fp n Hn.
  Add Field TraceField : HF.
  Notation rf := (rf live CV).
  Notation em := (em n).
  Notation mk := (mk n).

  Lemma sees_add P Q : sees (padd_t dbg live CV P Q) [].
  Proof. intros st. rewrite look_add, app_nil_r. reflexivity. Qed.
  Lemma sees_sub P Q : sees (psub_t dbg live CV P Q) [].
  Proof. intros st. rewrite look_sub, app_nil_r. reflexivity. Qed.
  Lemma sees_mul P s : finite live P -> scal s -> sees (pmul_t dbg live CV P s) [fval s].
  Proof. intros F [_ S] st. apply (look_pmul dbg live CV good_CV); [exact F|exact S]. Qed.
  Lemma scal_new a : scal (fe_new FIELD_n a).
  Proof. split; [reflexivity|exact (scalar_range a)]. Qed.
  Lemma sees_mulz P a : finite live P -> sees (pmulz_t dbg live CV P a) [a mod order].
  Proof. intros F. exact (sees_mul P (fe_new FIELD_n a) F (scal_new a)). Qed.
  Lemma sees_mul_inf P s : pinf P = true -> sees (pmul_t dbg live CV P s) [0].
  Proof.
    intros I st. unfold pmul_t. rewrite I. destruct st as [[w a] l]. cbn. reflexivity.
  Qed.
  (** the number read off a multiplication *)
  Definition num (P : point) (a : Z) : Z := if pinf P then 0 else a.
  Lemma sees_num P s : is_valid live P -> scal s -> sees (pmul_t dbg live CV P s) [num P (fval s)].
  Proof.
    intros [-> | V] S; [exact (sees_mul_inf (pt_inf CV) s eq_refl)|]. pose proof (sees_mul P s V S) as H.
    destruct V as [I V]. unfold num. rewrite I. exact H.
  Qed.
  Lemma mul_ok P s : is_valid live P -> scal s -> exists R, pmul dbg live CV P s = Ok R /\ is_valid live R.
  Proof.
    intros V S. apply (valid_rf live CV good_CV) in V. destruct V as [z V]. rewrite (em_surj n s S).
    destruct (pmul_rf dbg live CV good_CV _ _ (mk (fval s)) V) as [R [E K]]. exists R. split; [exact E|].
    apply (valid_rf live CV good_CV). eexists. exact K.
  Qed.
  Lemma add_ok P Q : is_valid live P -> is_valid live Q -> exists R, padd dbg live CV P Q = Ok R /\ is_valid live R.
  Proof.
    intros V W. apply (valid_rf live CV good_CV) in V, W. destruct V as [z V], W as [w W].
    destruct (padd_rf dbg live CV good_CV _ _ _ _ V W) as [R [E K]]. exists R. split; [exact E|].
    apply (valid_rf live CV good_CV). eexists. exact K.
  Qed.

  (** the first product of Enc, Tag and Agg *)
  Lemma stamp_mul P t : finite live P -> exists R, pmulz dbg live CV P t = Ok R /\ is_valid live R /\ pinf R = (t mod order =? 0).
  Proof.
    intros F. destruct (finite_rf live CV good_CV P F) as [z [V N]].
    destruct (pmulz_rf dbg live CV good_CV _ _ t V) as [R [E K]]. exists R. split; [exact E|].
    split; [apply (valid_rf live CV good_CV); eexists; exact K|]. pose proof (rf_pinf live CV good_CV R _ K) as I.
    assert (X : t mod order = 0 <-> fmul n (mk t) z = f0 n).
    { assert (M : mk t = f0 n <-> t mod order = 0).
      { rewrite (mk_0_iff n Hn). change n with order. pose proof (Z.mod_divide t order ltac:(vm_compute; discriminate)). tauto. }
      rewrite <- M. split; intros H; [rewrite H; ring|]. apply fmul_0 in H; [|exact Hn]. destruct H as [H|H]; [exact H|contradiction]. }
    destruct (Z.eqb_spec (t mod order) 0) as [e|ne].
    - apply I, X, e.
    - destruct (pinf R); [|reflexivity]. exfalso. apply ne, X, I. reflexivity.
  Qed.

  Lemma L_C97_enc pp ek m t : finite live (ppg1 pp) -> finite live (pphash pp) -> scal ek ->
    observed (fst (PEnc_t dbg live pp ek m t)) = [t mod order; if t mod order =? 0 then 0 else fval ek; m mod order].
  Proof.
    intros G H S. apply sees_observed. unfold PEnc_t. destruct (stamp_mul _ t H) as [ht [E [V I]]].
    apply (sees_bind1 _ _ ht); [rewrite pmulz_snd; exact E|apply sees_mulz, H|].
    destruct (mul_ok ht ek V S) as [x [E1 V1]]. rewrite <- I.
    apply (sees_bind1 _ _ x); [rewrite pmul_snd; exact E1|exact (sees_num ht ek V S)|].
    destruct (mul_ok (ppg1 pp) (fe_new FIELD_n m) (or_intror G) (scal_new m)) as [y [E2 V2]].
    apply (sees_bind1 _ _ y); [rewrite pmulz_snd; exact E2|apply sees_mulz, G|]. apply sees_add.
  Qed.

  Lemma L_C97_tag pp sk m t : finite live (ppg1 pp) -> finite live (pphash pp) -> scal (sktk sk) ->
    observed (fst (PTag_t dbg live pp sk m t)) =
      [t mod order; if t mod order =? 0 then 0 else fval (sktk sk); ska sk mod order; if ska sk mod order =? 0 then 0 else m mod order].
  Proof.
    intros G H S. apply sees_observed. unfold PTag_t. destruct (stamp_mul _ t H) as [ht [E [V I]]].
    apply (sees_bind1 _ _ ht); [rewrite pmulz_snd; exact E|apply sees_mulz, H|].
    destruct (mul_ok ht (sktk sk) V S) as [x [E1 V1]]. rewrite <- I.
    apply (sees_bind1 _ _ x); [rewrite pmul_snd; exact E1|exact (sees_num ht (sktk sk) V S)|].
    destruct (stamp_mul _ (ska sk) G) as [g [E3 [V3 I3]]].
    apply (sees_bind1 _ _ g); [rewrite pmulz_snd; exact E3|apply sees_mulz, G|].
    destruct (mul_ok g (fe_new FIELD_n m) V3 (scal_new m)) as [y [E2 V2]]. rewrite <- I3.
    apply (sees_bind1 _ _ y); [rewrite pmulz_snd; exact E2|exact (sees_num g (fe_new FIELD_n m) V3 (scal_new m))|]. apply sees_add.
  Qed.

  (** *** the search of the aggregator *)
  Definition upto (a : Z) (k : nat) : list Z := map (fun i => a + Z.of_nat i) (seq 0 k).
  Lemma upto_S a k : upto a (Datatypes.S k) = a :: upto (a + 1) k.
  Proof.
    unfold upto. cbn [seq map]. rewrite Z.add_0_r. apply (f_equal (cons a)). rewrite <- seq_shift, map_map. apply map_ext. intros i. lia.
  Qed.

  Fixpoint iter_step {S R} (k : nat) (f : S -> S + R) (s : S) : S + R :=
    match k with O => inl s | Datatypes.S k' => match f s with inl s' => iter_step k' f s' | inr r => inr r end end.
  Lemma iter_plus {S R} (f : S -> S + R) a b : forall s,
    iter_step (a + b) f s = match iter_step a f s with inl s' => iter_step b f s' | inr r => inr r end.
  Proof. induction a as [|a IH]; intros s; [reflexivity|]. cbn [Nat.add iter_step]. destruct (f s) as [s'|r]; [apply IH|reflexivity]. Qed.
  Lemma loop_iter {S R} (f : S -> S + R) k : forall s, loop_upto k f s = iter_step (Pos.to_nat k) f s.
  Proof.
    assert (TWO : forall k, (forall s, loop_upto k f s = iter_step (Pos.to_nat k) f s) -> forall s,
      match loop_upto k f s with inl s' => loop_upto k f s' | inr r => inr r end = iter_step (Pos.to_nat k + Pos.to_nat k) f s).
    { intros j H s. rewrite iter_plus, H. destruct (iter_step (Pos.to_nat j) f s) as [s'|r]; [apply H|reflexivity]. }
    induction k as [k IH|k IH|]; intros s; cbn [loop_upto].
    - rewrite Pos2Nat.inj_xI. replace (2 * Pos.to_nat k)%nat with (Pos.to_nat k + Pos.to_nat k)%nat by lia. cbn [iter_step].
      destruct (f s) as [s'|r]; [apply TWO, IH|reflexivity].
    - rewrite Pos2Nat.inj_xO. replace (2 * Pos.to_nat k)%nat with (Pos.to_nat k + Pos.to_nat k)%nat by lia. apply TWO, IH.
    - change (Pos.to_nat 1) with 1%nat. cbn [iter_step]. destruct (f s); reflexivity.
  Qed.

  (** the operations of the search; [v] is the residue looked for *)
  Definition searched (r : (list event * Z) + traced Z) : list event := match r with inl s => fst s | inr r => fst r end.
  Lemma search_sees pp c z : rf (ppg1 pp) (f1 n) -> rf c z -> forall k l a, 0 <= a -> a + Z.of_nat k <= 65535 ->
    (a <= val n z) -> forall st,
    snd (fold_left look (searched (iter_step k (dlog_step_t dbg live pp c) (l, a))) st) =
    snd (fold_left look l st) ++ upto a (Nat.min k (Datatypes.S (Z.to_nat (val n z - a)))).
  Proof.
    intros G K. assert (N1 : f1 n <> f0 n). { intros H. apply (mk_eq_inv n) in H. vm_compute in H. discriminate H. }
    pose proof (rf_finite live CV good_CV _ _ G N1) as FG.
    induction k as [|k IH]; intros l a A B V st.
    - cbn [iter_step searched fst Nat.min upto seq map]. rewrite app_nil_r. reflexivity.
    - cbn [iter_step]. unfold dlog_step_t at 1. cbn [fst snd]. rewrite pmulz_snd.
      destruct (pmulz_rf dbg live CV good_CV _ _ a G) as [R [-> KR]].
      destruct (peq_rf live CV good_CV _ _ _ _ KR K) as [b [-> Hb]].
      assert (AO : a mod order = a). { apply Z.mod_small. split; [exact A|]. apply Z.lt_trans with 65536; [lia|reflexivity]. }
      assert (Hb' : b = true <-> a = val n z).
      { rewrite Hb. replace (fmul n (mk a) (f1 n)) with (mk a) by ring. split; intros H.
        - rewrite <- H. cbn. change n with order. symmetry. exact AO.
        - rewrite H. apply mk_val. }
      destruct b.
      + pose proof (proj1 Hb' eq_refl) as ->. cbn [searched fst]. rewrite fold_left_app, (sees_mulz (ppg1 pp) _ FG), AO.
        replace (val n z - val n z) with 0 by lia. change (Z.to_nat 0) with 0%nat. rewrite <- Nat.succ_min_distr.
        replace (Nat.min k 0) with 0%nat by lia. rewrite upto_S. reflexivity.
      + assert (NE : a <> val n z) by (intros H; apply Hb' in H; discriminate H).
        rewrite IH by lia. rewrite fold_left_app, (sees_mulz (ppg1 pp) _ FG), AO, <- app_assoc. apply (f_equal (app _)).
        rewrite <- Nat.succ_min_distr, upto_S. cbn [app]. do 3 f_equal. lia.
  Qed.
  Lemma dlog_sees pp c z : rf (ppg1 pp) (f1 n) -> rf c z ->
    sees (compute_dlog_t dbg live pp c) (map Z.of_nat (seq 0 (Datatypes.S (Z.to_nat (Z.min (val n z) 65534))))).
  Proof.
    intros G K st. unfold compute_dlog_t. rewrite loop_iter.
    pose proof (val_range n Hn z) as VR.
    pose proof (search_sees pp c z G K (Pos.to_nat (Z.to_pos USHRT_MAX)) [] 0) as H.
    assert (PN : Z.of_nat (Pos.to_nat (Z.to_pos USHRT_MAX)) = 65535) by (rewrite positive_nat_Z; reflexivity).
    specialize (H ltac:(lia) ltac:(rewrite PN; lia) ltac:(lia) st).
    set (k := Pos.to_nat (Z.to_pos USHRT_MAX)) in *. cbn [fold_left] in H.
    assert (X : map Z.of_nat (seq 0 (Datatypes.S (Z.to_nat (Z.min (val n z) 65534)))) = upto 0 (Nat.min k (Datatypes.S (Z.to_nat (val n z - 0))))).
    { unfold upto. replace (Nat.min k (Datatypes.S (Z.to_nat (val n z - 0)))) with (Datatypes.S (Z.to_nat (Z.min (val n z) 65534))).
      - apply map_ext. intros i. reflexivity.
      - rewrite Z.sub_0_r. apply Nat2Z.inj. rewrite Nat2Z.inj_min, !Nat2Z.inj_succ, !Z2Nat.id, PN by lia. lia. }
    rewrite X, <- H. destruct (iter_step k (dlog_step_t dbg live pp c) ([], 0)) as [s|r]; reflexivity.
  Qed.

  Lemma fold_sees l : forall A a, rf A a -> Forall (is_valid live) l -> sees (foldM_t (padd_t dbg live CV) l A) [].
  Proof.
    induction l as [|P l IH]; intros A a HA V; [apply sees_lift|]. inversion V as [|P' l' VP VL]; subst P' l'. cbn [foldM_t].
    apply (valid_rf live CV good_CV) in VP. destruct VP as [z VP].
    destruct (padd_rf dbg live CV good_CV _ _ _ _ HA VP) as [R [E K]].
    apply (sees_bind0 _ _ R); [rewrite padd_snd; exact E|apply sees_add|exact (IH R _ K VL)].
  Qed.

  Lemma zsum_mk zs : zsum (map mk zs) = mk (sumz zs).
  Proof. induction zs as [|z zs IH]; cbn [map zsum sumz fold_right]; [reflexivity|]. rewrite IH, mk_add. reflexivity. Qed.
  Lemma multiples_rf ps zs : Forall2 (multiple live) ps zs -> Forall2 rf ps (map mk zs).
  Proof. induction 1; cbn [map]; constructor; [apply (multiple_rf live); assumption|assumption]. Qed.
  Lemma valid_mult ps zs : Forall2 (multiple live) ps zs -> Forall (is_valid live) ps.
  Proof. induction 1 as [|P z ps zs [V _] _ IH]; constructor; assumption. Qed.

  Lemma mult_usable P k : multiple live P k -> ~ (order | k) -> finite live P.
  Proof. intros H N. apply (multiple_rf live) in H. apply (rf_finite live CV good_CV _ _ H). intros Z0. apply (mk_0_iff n Hn) in Z0. apply N, Z0. Qed.

  Lemma L_C97_agg pp ak cs ts zs rh t : multiple live (ppg1 pp) 1 -> multiple live (pphash pp) rh -> ~ (order | rh) -> scal ak ->
    Forall2 (multiple live) cs zs -> Forall (is_valid live) ts ->
    observed (fst (Agg_t dbg live pp ak cs ts t)) = [t mod order; if t mod order =? 0 then 0 else fval ak] ++
      map Z.of_nat (seq 0 (Datatypes.S (Z.to_nat (Z.min ((sumz zs + fval ak * (t * rh)) mod order) 65534)))).
  Proof.
    intros G H NH S C T. apply (multiple_rf live) in G, H. pose proof (valid_mult _ _ C) as VC. apply multiples_rf in C.
    assert (FH : finite live (pphash pp)). { apply (rf_finite live CV good_CV _ _ H). intros Z0. apply (mk_0_iff n Hn) in Z0. apply NH, Z0. }
    apply sees_observed. unfold Agg_t.
    destruct (fold_padd dbg live _ _ C _ _ (rf_inf live CV good_CV)) as [c [EC KC]].
    apply (sees_bind0 _ _ c); [rewrite (foldM_snd _ (padd dbg live CV)) by (intros; apply padd_snd); exact EC|exact (fold_sees cs _ _ (rf_inf live CV good_CV) VC)|].
    assert (XT : exists zt, Forall2 rf ts zt).
    { clear -T. induction T as [|P ts V _ [zt IH]]; [exists []; constructor|]. apply (valid_rf live CV good_CV) in V. destruct V as [z V].
      exists (z :: zt). constructor; [exact V|exact IH]. }
    destruct XT as [zt XT]. destruct (fold_padd dbg live _ _ XT _ _ (rf_inf live CV good_CV)) as [tag [ET KT]].
    apply (sees_bind0 _ _ tag); [rewrite (foldM_snd _ (padd dbg live CV)) by (intros; apply padd_snd); exact ET|exact (fold_sees ts _ _ (rf_inf live CV good_CV) T)|].
    destruct (pmulz_rf dbg live CV good_CV _ _ t H) as [ht [E KH]].
    assert (IH : pinf ht = (t mod order =? 0)). { destruct (stamp_mul _ t FH) as [ht' [E' [_ I]]]. rewrite E in E'. injection E' as <-. exact I. }
    apply (sees_bind1 _ _ ht); [rewrite pmulz_snd; exact E|exact (sees_mulz _ t FH)|]. rewrite <- IH.
    pose proof (pmul_rf dbg live CV good_CV _ _ (mk (fval ak)) KH) as [x [EX KX]]. rewrite <- (em_surj n ak S) in EX.
    apply (sees_bind1 _ _ x); [rewrite pmul_snd; exact EX|exact (sees_num ht ak (proj2 (valid_rf live CV good_CV ht) (ex_intro _ _ KH)) S)|].
    destruct (padd_rf dbg live CV good_CV _ _ _ _ KC KX) as [c' [EC' KC']].
    apply (sees_bind0 _ _ c'); [rewrite padd_snd; exact EC'|apply sees_add|].
    apply (sees_last _ _ (if val n (mk (sumz zs + fval ak * (t * rh))) <? 65535 then val n (mk (sumz zs + fval ak * (t * rh))) else 0)).
    - rewrite dlog_snd. apply (dlog_rf' dbg live); [exact G|]. apply (rf_cong live CV _ _ _ KC'). rewrite zsum_mk, <- mk_add, <- !mk_mul. ring.
    - apply (dlog_sees pp c' (mk (sumz zs + fval ak * (t * rh)))); [exact G|]. apply (rf_cong live CV _ _ _ KC'). rewrite zsum_mk, <- mk_add, <- !mk_mul. ring.
    - apply sees_lift.
  Qed.

  (** *** ElGamal *)
  Lemma L_C97_eg_encrypt E pk m r c : elgamal_ok live E -> finite live pk -> is_valid live m -> eg_encrypt dbg live E pk m r = Ok c ->
    exists s, observed (fst (eg_encrypt_t dbg live E pk m r)) = [s; s] /\
      den CV m = gadd CV (den CV (cmv c)) (gneg CV (gmul CV s (den CV pk))).
  Proof.
    intros [L [a [EG LG]]] FP VM H. exists (r mod order). unfold eg_encrypt in H. apply bind_Ok in H. destruct H as [s [ES H]].
    apply bind_Ok in H. destruct H as [u [EU H]]. apply bind_Ok in H. destruct H as [t [ET H]]. apply bind_Ok in H. destruct H as [mv [EM H]].
    injection H as <-. cbn [cmv]. pose proof ES as ES'. rewrite (getRandomScalar_em live CV _ r L) in ES'. injection ES' as <-.
    assert (VV : fval (em (mk r)) = r mod order) by reflexivity.
    assert (SC : scal (em (mk r))) by exact (scal_new r).
    split.
    - apply sees_observed. unfold eg_encrypt_t. apply (sees_bind0 _ _ (em (mk r))); [exact ES|apply sees_lift|].
      assert (FG : finite live (egen E)). { rewrite EG. exact (gen_finite Secp256r1 live a LG). }
      rewrite <- VV.
      apply (sees_bind1 _ _ u); [rewrite pmul_snd; exact EU|exact (sees_mul _ _ FG SC)|].
      apply (sees_bind1 _ _ t); [rewrite pmul_snd; exact ET|exact (sees_mul _ _ FP SC)|].
      apply (sees_bind0 _ _ mv); [rewrite padd_snd; exact EM|apply sees_add|apply sees_lift].
    - destruct (L_C11_den dbg live CV good_CV pk (r mod order) (or_intror FP)) as [R' [ER [VR DR]]].
      assert (Q : fe_new FIELD_n (r mod order) = em (mk r)) by (unfold fe_new; change FIELD_n with order; rewrite Z.mod_mod by discriminate; reflexivity).
      assert (EQ : Ok t = Ok R'). { transitivity (pmul dbg live CV pk (em (mk r))); [symmetry; exact ET|rewrite <- Q; exact ER]. }
      injection EQ as <-.
      destruct (yields_padd dbg live CV good_CV t m VR VM) as [mv' [EM' [VV' DM]]]. rewrite EM in EM'. injection EM' as <-.
      rewrite <- DR, DM. unfold gadd, gneg.
      rewrite (eadd_comm (c_prime CV) (c_a CV) (c_b CV) (isnice CV good_CV) (den CV t)) by (apply (valid_eon live CV good_CV); assumption).
      symmetry. apply (eadd_sub (c_prime CV) (c_a CV) (c_b CV) (isnice CV good_CV)); apply (valid_eon live CV good_CV); assumption.
  Qed.

  Lemma L_C97_eg_decrypt sk c m : finite live (cu c) -> scal sk -> eg_decrypt dbg live sk c = Ok m ->
    observed (fst (eg_decrypt_t dbg live sk c)) = [fval sk].
  Proof.
    intros F S H. unfold eg_decrypt in H. apply bind_Ok in H. destruct H as [t [ET H]]. apply bind_Ok in H. destruct H as [P [EP H]].
    apply sees_observed. unfold eg_decrypt_t.
    apply (sees_bind1 _ _ t); [rewrite pmul_snd; exact ET|exact (sees_mul _ _ F S)|].
    apply (sees_bind0 _ _ P); [rewrite psub_snd; exact EP|apply sees_sub|apply sees_lift].
  Qed.

  (** *** the receiver *)
  Definition mul_events (v : Z) : list event := Multiply :: steps true (zbits v) ++ [Done].
  Lemma mul_fst P s : finite live P -> scal s -> fst (pmul_t dbg live CV P s) = mul_events (fval s).
  Proof. intros F [_ S]. rewrite (pmul_steps dbg live CV good_CV P s F S). reflexivity. Qed.

  Lemma KeyGen_fst D b r kp : crs_usable live (dcrs D) -> branch b -> KeyGen dbg live D b r = Ok kp ->
    fst (KeyGen_t dbg live D b r) = mul_events (r mod order) ++ mul_events (r mod order).
  Proof.
    intros [F0 [F1 [F2 F3]]] B K. unfold KeyGen in K. apply bind_Ok in K. destruct K as [sk [ES K]].
    apply bind_Ok in K. destruct K as [pk [EP K]]. clear K.
    assert (ES' : sk = fe_new FIELD_n r). { unfold getRandomScalar in ES. apply bind_Ok in ES. destruct ES as [c [_ ES]]. injection ES as <-. reflexivity. }
    unfold KeyGen_t. rewrite (tbind_ok _ _ sk) by exact ES. subst sk. cbn [lift fst app].
    set (s := fe_new FIELD_n r) in *. assert (S : scal s) by exact (scal_new r).
    change (r mod order) with (fval s).
    destruct B as [-> | ->]; cbn [Z.eqb Pos.eqb] in EP |- *;
      apply bind_Ok in EP; destruct EP as [a [EA EP]]; apply bind_Ok in EP; destruct EP as [b' [EB EP]]; injection EP as <-;
      rewrite <- (pmul_snd dbg live CV) in EA, EB;
      rewrite (tbind_ok _ _ (mkpk a b')) by (rewrite (tbind_ok _ _ a EA); cbn [snd]; rewrite (tbind_ok _ _ b' EB); reflexivity);
      rewrite (tbind_ok _ _ a EA); cbn [fst snd]; rewrite (tbind_ok _ _ b' EB); cbn [lift fst snd]; rewrite !app_nil_r.
    - rewrite (mul_fst _ _ F0 S), (mul_fst _ _ F2 S). reflexivity.
    - rewrite (mul_fst _ _ F1 S), (mul_fst _ _ F3 S). reflexivity.
  Qed.

  Lemma start_fst C round d o : crs_usable live (dcrs (rdme (otr C))) -> runOTRound_start dbg live C round d = Ok o ->
    fst (runOTRound_start_t dbg live C round d) = mul_events (d mod order) ++ mul_events (d mod order).
  Proof.
    intros F H. unfold runOTRound_start in H. unfold runOTRound_start_t. destruct (cx C) as [x|]; [|discriminate H].
    apply bind_Ok in H. destruct H as [s [ES H]]. cbv zeta in H. apply bind_Ok in H. destruct H as [r [ER H]]. clear H.
    rewrite (tbind_ok _ _ s) by exact ES. cbn [lift fst app]. cbv zeta.
    set (b := if negb (Z.land x s =? 0) then 1 else 0) in *.
    assert (B : branch b) by (unfold b, branch; destruct (negb (Z.land x s =? 0)); [right|left]; reflexivity).
    rewrite (tbind_ok _ _ r) by (rewrite selectMsg_snd; exact ER). cbn [fst lift]. rewrite app_nil_r.
    unfold selectMsg in ER. apply bind_Ok in ER. destruct ER as [kp [EK _]]. unfold selectMsg_t.
    rewrite (tbind_ok _ _ kp) by (rewrite KeyGen_snd; exact EK). cbn [fst lift]. rewrite app_nil_r.
    exact (KeyGen_fst _ _ _ _ F B EK).
  Qed.

  Lemma L_C97_choice D r kp kp' : crs_usable live (dcrs D) -> KeyGen dbg live D 0 r = Ok kp -> KeyGen dbg live D 1 r = Ok kp' ->
    fst (KeyGen_t dbg live D 0 r) = fst (KeyGen_t dbg live D 1 r).
  Proof. intros F K K'. rewrite (KeyGen_fst D 0 r kp F (or_introl eq_refl) K), (KeyGen_fst D 1 r kp' F (or_intror eq_refl) K'). reflexivity. Qed.
  Lemma L_C97_client C x x' round round' d o o' : crs_usable live (dcrs (rdme (otr C))) ->
    runOTRound_start dbg live (setMessage C x) round d = Ok o -> runOTRound_start dbg live (setMessage C x') round' d = Ok o' ->
    fst (runOTRound_start_t dbg live (setMessage C x) round d) = fst (runOTRound_start_t dbg live (setMessage C x') round' d).
  Proof. intros F H H'. rewrite (start_fst (setMessage C x) _ _ _ F H), (start_fst (setMessage C x') _ _ _ F H'). reflexivity. Qed.

  (** *** the client's end of a round *)
  Lemma dec_sees sk c P : finite live (cu c) -> scal sk -> Dec dbg live sk c = Ok P -> sees (Dec_t dbg live sk c) [fval sk].
  Proof.
    intros F S H. unfold Dec in H. apply bind_Ok in H. destruct H as [us [EU H]]. unfold Dec_t.
    apply (sees_bind1 _ _ us); [rewrite pmul_snd; exact EU|exact (sees_mul _ _ F S)|apply sees_sub].
  Qed.
  Lemma decode_sees R v ct t : chosen R v = Ok ct -> finite live (cu ct) -> scal (rsk R) -> decryptMsgDecode dbg live R v = Ok t ->
    sees (decryptMsgDecode_t dbg live R v) [fval (rsk R)].
  Proof.
    intros EC F S H. unfold decryptMsgDecode in H. rewrite EC in H. cbn [bind] in H. unfold DecDecode in H. apply bind_Ok in H. destruct H as [m [EM H]].
    unfold decryptMsgDecode_t. apply (sees_bind0 _ _ ct); [exact EC|apply sees_lift|].
    apply (sees_last _ _ m); [rewrite Dec_snd; exact EM|exact (dec_sees _ _ _ F S EM)|apply sees_lift].
  Qed.

  Variables (e : env) (iv : list Z).
  Notation opens_to := (opens_to dbg live e iv).
  Lemma open_sees R k v a post : scal (rsk R) -> opens_to R k v a -> a <> 0 -> forall pre, Forall (fun w => opens_to R k w 0) pre ->
    snd (open_key_t dbg live e iv R k (pre ++ v :: post)) = Ok (Some a) /\
    sees (open_key_t dbg live e iv R k (pre ++ v :: post)) (repeat (fval (rsk R)) (Datatypes.S (length pre))).
  Proof.
    intros S [ct [t [EC [F [ED EA]]]]] NA. induction pre as [|w pre IH]; intros Hpre.
    - cbn [app open_key_t length repeat].
      assert (X : (a =? 0) = false) by (apply Z.eqb_neq; exact NA).
      split.
      + rewrite tbind_snd, decryptMsgDecode_snd, ED. cbn [bind]. rewrite tbind_snd. cbn [lift snd]. rewrite EA. cbn [bind]. rewrite X. reflexivity.
      + apply (sees_bind1 _ _ t); [rewrite decryptMsgDecode_snd; exact ED|exact (decode_sees R v ct t EC F S ED)|].
        apply (sees_bind0 _ _ a); [exact EA|apply sees_lift|]. rewrite X. apply sees_lift.
    - inversion Hpre as [|w' pre' HW HP]; subst w' pre'. destruct (IH HP) as [IH1 IH2]. destruct HW as [cw [tw [EW [FW [DW AW]]]]].
      cbn [app open_key_t]. change (repeat (fval (rsk R)) (Datatypes.S (length (w :: pre)))) with (fval (rsk R) :: repeat (fval (rsk R)) (Datatypes.S (length pre))).
      split.
      + rewrite tbind_snd, decryptMsgDecode_snd, DW. cbn [bind]. rewrite tbind_snd. cbn [lift snd]. rewrite AW. cbn [bind]. exact IH1.
      + apply (sees_bind1 _ _ tw); [rewrite decryptMsgDecode_snd; exact DW|exact (decode_sees R w cw tw EW FW S DW)|].
        apply (sees_bind0 _ _ 0); [exact AW|apply sees_lift|]. exact IH2.
  Qed.

  (** when a round ends: for the cases beside the theorems *)
  Lemma round_ends C round c pre v post a t : round <> BITS -> oc c = pre ++ v :: post ->
    Forall (fun w => opens_to (otr C) (key C) w 0) pre -> opens_to (otr C) (key C) v a -> a <> 0 -> scal (rsk (otr C)) ->
    decryptMsgDecode dbg live (otr C) (ocprf c) = Ok t -> pinf (result C) = true ->
    exists C', runOTRound_end dbg live e iv C round c = Ok C'.
  Proof.
    intros NB EO HP HV NA S D I. destruct (open_sees _ _ _ _ post S HV NA pre HP) as [O1 _]. rewrite <- EO, open_key_snd in O1.
    unfold runOTRound_end. assert (B : (round =? BITS) = false) by (apply Z.eqb_neq; exact NB). rewrite B, O1. cbn [bind].
    unfold decryptMsgDecode in D. apply bind_Ok in D. destruct D as [ct [EC D]]. unfold DecDecode in D. apply bind_Ok in D. destruct D as [P [EP _]].
    unfold decryptMsg. rewrite EC. cbn [bind]. rewrite EP. cbn [bind]. unfold padd. rewrite I. cbn [bind]. eexists. reflexivity.
  Qed.

  Lemma L_C97_place C round c C' pre v post a cp : round <> BITS -> oc c = pre ++ v :: post ->
    Forall (fun w => opens_to (otr C) (key C) w 0) pre -> opens_to (otr C) (key C) v a -> a <> 0 ->
    chosen (otr C) (ocprf c) = Ok cp -> finite live (cu cp) -> scal (rsk (otr C)) ->
    runOTRound_end dbg live e iv C round c = Ok C' ->
    observed (fst (runOTRound_end_t dbg live e iv C round c)) = repeat (fval (rsk (otr C))) (length pre + 2).
  Proof.
    intros NB EO HP HV NA EC F S H. apply sees_observed. unfold runOTRound_end_t.
    assert (B : (round =? BITS) = false) by (apply Z.eqb_neq; exact NB). rewrite B.
    destruct (open_sees _ _ _ _ post S HV NA pre HP) as [O1 O2]. rewrite <- EO in O1, O2.
    replace (repeat (fval (rsk (otr C))) (length pre + 2)) with (repeat (fval (rsk (otr C))) (Datatypes.S (length pre)) ++ [fval (rsk (otr C))]).
    2:{ change [fval (rsk (otr C))] with (repeat (fval (rsk (otr C))) 1). rewrite <- repeat_app. f_equal. lia. }
    apply (sees_bind _ _ a).
    - rewrite tbind_snd, O1. reflexivity.
    - apply (sees_last _ _ (Some a)); [exact O1|exact O2|apply sees_lift].
    - unfold runOTRound_end in H. rewrite B in H. apply bind_Ok in H. destruct H as [k [_ H]]. apply bind_Ok in H. destruct H as [P [EP H]].
      apply bind_Ok in H. destruct H as [R [ER _]].
      apply (sees_bind1 _ _ P); [rewrite decryptMsg_snd; exact EP| |].
      + unfold decryptMsg in EP. rewrite EC in EP. cbn [bind] in EP. unfold decryptMsg_t.
        apply (sees_bind0 _ _ cp); [exact EC|apply sees_lift|exact (dec_sees _ _ _ F S EP)].
      + apply (sees_bind0 _ _ R); [rewrite padd_snd; exact ER|apply sees_add|apply sees_lift].
  Qed.
End See.

(** ** The server's preparation *)
Section Prepare.
  Variables (dbg : bool) (live : Z -> bool) (e : env) (iv : list Z).
  Notation n := (fieldn CV).

  (** the operations of one row, from the members of the server it depends on *)
  Definition row_events (r g : point) (oks : list fe) (j : nat) : list event :=
    match vat oks (Z.of_nat j) with
    | Err _ => []
    | Ok okj => match pmulz dbg live CV g (2 ^ Z.of_nat j), pmul dbg live CV r okj with
                | Ok a, Ok b => fst (pmul_t dbg live CV r okj) ++ fst (pmulz_t dbg live CV g (2 ^ Z.of_nat j)) ++ fst (pmul_t dbg live CV r okj) ++
                                fst (padd_t dbg live CV a b)
                | _, _ => []
                end
    end.

  Ltac nextl := match goal with
    | H : bind ?r _ = Ok _ |- context [tbind (lift ?r) _] =>
        let x := fresh "x" in let E := fresh "E" in apply bind_Ok in H; destruct H as [x [E H]]; rewrite (tbind_ok (lift r) _ x E); cbn [lift fst snd app]
    end.
  Ltac nextm := match goal with
    | H : bind (pmul dbg live CV ?P ?s) _ = Ok _ |- context [tbind (pmul_t dbg live CV ?P ?s) _] =>
        let x := fresh "x" in let E := fresh "E" in apply bind_Ok in H; destruct H as [x [E H]];
        rewrite (tbind_ok (pmul_t dbg live CV P s) _ x) by (rewrite pmul_snd; exact E); cbn [fst snd]
    | H : bind (pmulz dbg live CV ?P ?s) _ = Ok _ |- context [tbind (pmulz_t dbg live CV ?P ?s) _] =>
        let x := fresh "x" in let E := fresh "E" in apply bind_Ok in H; destruct H as [x [E H]];
        rewrite (tbind_ok (pmulz_t dbg live CV P s) _ x) by (rewrite pmulz_snd; exact E); cbn [fst snd]
    | H : bind (padd dbg live CV ?P ?s) _ = Ok _ |- context [tbind (padd_t dbg live CV ?P ?s) _] =>
        let x := fresh "x" in let E := fresh "E" in apply bind_Ok in H; destruct H as [x [E H]];
        rewrite (tbind_ok (padd_t dbg live CV P s) _ x) by (rewrite padd_snd; exact E); cbn [fst snd]
    end.

  Lemma row_fst S j o : prep_row dbg live e iv S j = Ok o -> fst (prep_row_t dbg live e iv S j) = row_events (sr S) (ga S) (ok S) j.
  Proof.
    intros H. unfold prep_row in H. unfold prep_row_t. cbv zeta in *.
    do 7 nextl. unfold row_events.
    replace (Z.of_nat (Datatypes.S j) - 1) with (Z.of_nat j) in * by lia.
    destruct (negb (tbit S j)); repeat first [nextl|nextm];
      (match goal with E : vat (ok S) (Z.of_nat j) = Ok _ |- _ => rewrite E end);
      (match goal with E : pmulz dbg live CV (ga S) _ = Ok _ |- _ => rewrite E end);
      (match goal with E : pmul dbg live CV (sr S) _ = Ok ?a, E' : pmul dbg live CV (sr S) _ = Ok ?b |- _ => rewrite E in E'; injection E' as <-; rewrite E end);
      rewrite app_nil_r; reflexivity.
  Qed.

  Lemma step_fst S j o : prep_step dbg live e iv S j = Ok o ->
    fst (prep_step_t dbg live e iv S j) = row_events (sr S) (ga S) (ok S) j /\ sr o = sr S /\ ga o = ga S /\ ok o = ok S.
  Proof.
    intros H. unfold prep_step in H. apply bind_Ok in H. destruct H as [r [ER H]]. unfold prep_step_t.
    rewrite (tbind_ok _ _ r) by (rewrite prep_row_snd; exact ER). cbn [fst]. rewrite (row_fst S j r ER).
    nextl. nextl. injection H as <-. split; [|split; [|split]; reflexivity]. apply app_nil_r.
  Qed.

  Lemma rows_fst l : forall S o, foldM (prep_step dbg live e iv) l S = Ok o ->
    fst (foldM_t (prep_step_t dbg live e iv) l S) = flat_map (row_events (sr S) (ga S) (ok S)) l.
  Proof.
    induction l as [|j l IH]; intros S o H; [reflexivity|]. cbn [foldM] in H. apply bind_Ok in H. destruct H as [S' [E H]].
    cbn [foldM_t flat_map]. rewrite (tbind_ok _ _ S') by (rewrite prep_step_snd; exact E). cbn [fst].
    destruct (step_fst S j S' E) as [-> [E1 [E2 E3]]]. rewrite (IH S' o H), E1, E2, E3. reflexivity.
  Qed.

  Lemma top_fst S o : prep_top dbg live S = Ok o ->
    fst (prep_top_t dbg live S) = row_events (sr S) (ga S) (ok S) (MSG_BITS - 1) /\ sr o = sr S /\ ga o = ga S /\ ok o = ok S.
  Proof.
    intros H. unfold prep_top in H. unfold prep_top_t. cbv zeta in *.
    nextl. nextm. nextm. rewrite (tbind_ok _ _ x0) by (rewrite pmul_snd; exact E0). cbn [fst snd]. nextm. nextl. nextl.
    injection H as <-. split; [|split; [|split]; reflexivity]. unfold row_events.
    change (Z.of_nat (MSG_BITS - 1)) with (BITS - 1) in E1 |- *. rewrite E, E1, E0, app_nil_r. reflexivity.
  Qed.

  Lemma prepare_fst S d o : prepareKeysAndInputs dbg live e iv S d = Ok o ->
    exists kp r oks, getRandomPoint dbg live CV (scur S) (d_kopprf d) = Ok kp /\ getRandomPoint dbg live CV (scur S) (d_r d) = Ok r /\
      mapM (fun j => getRandomScalar live CV (scur S) (d_ok d j)) (seq 0 MSG_BITS) = Ok oks /\
    fst (prepareKeysAndInputs_t dbg live e iv S d) =
      fst (getRandomPoint_t dbg live CV (scur S) (d_kopprf d)) ++ fst (getRandomPoint_t dbg live CV (scur S) (d_r d)) ++
      flat_map (row_events r (ga S) (ok S ++ oks)) (rev (seq 0 MSG_BITS)).
  Proof.
    intros H. unfold prepareKeysAndInputs in H. unfold prepareKeysAndInputs_t.
    apply bind_Ok in H. destruct H as [kp [EK H]]. apply bind_Ok in H. destruct H as [r [ER H]].
    rewrite (tbind_ok _ _ kp) by (rewrite random_snd; exact EK). cbn [fst]. rewrite (tbind_ok _ _ r) by (rewrite random_snd; exact ER). cbn [fst].
    apply bind_Ok in H. destruct H as [oks [EO H]]. rewrite (tbind_ok _ _ oks) by exact EO. cbn [lift fst app]. cbv zeta in *.
    exists kp, r, oks. split; [exact EK|split; [exact ER|split; [exact EO|]]]. do 2 apply (f_equal (app _)).
    apply bind_Ok in H. destruct H as [S2 [E2 H]]. rewrite (tbind_ok _ _ S2) by (rewrite prep_top_snd; exact E2). cbn [fst].
    destruct (top_fst _ _ E2) as [-> [A [B C]]]. rewrite (rows_fst _ _ _ H), A, B, C. cbn [sr ga ok]. reflexivity.
  Qed.

  Lemma L_C97_threshold S th d o o' : prepareKeysAndInputs dbg live e iv S d = Ok o -> prepareKeysAndInputs dbg live e iv (set_theta S th) d = Ok o' ->
    fst (prepareKeysAndInputs_t dbg live e iv S d) = fst (prepareKeysAndInputs_t dbg live e iv (set_theta S th) d).
  Proof.
    intros H H'. destruct (prepare_fst S d o H) as [kp [r [oks [K [R [Os ->]]]]]]. destruct (prepare_fst (set_theta S th) d o' H') as [kp' [r' [oks' [K' [R' [Os' ->]]]]]].
    cbn [set_theta scur ga ok] in *. rewrite R in R'. injection R' as <-. rewrite Os in Os'. injection Os' as <-. reflexivity.
  Qed.

  (** reading without an outcome *)
  Definition reads (l : list event) (v : list Z) : Prop := forall st, snd (fold_left look l st) = snd st ++ v.
  Lemma reads_app l l' v v' : reads l v -> reads l' v' -> reads (l ++ l') (v ++ v').
  Proof. intros H H' st. rewrite fold_left_app, H', H, app_assoc. reflexivity. Qed.
  Lemma reads_flat {A} (f : A -> list event) (g : A -> list Z) l : (forall a, In a l -> reads (f a) (g a)) -> reads (flat_map f l) (flat_map g l).
  Proof.
    induction l as [|a l IH]; intros H; cbn [flat_map].
    - intros st. cbn [fold_left]. rewrite app_nil_r. reflexivity.
    - apply reads_app; [apply H; left; reflexivity|apply IH; intros b B; apply H; right; exact B].
  Qed.

  Lemma L_C97_prepare S d c o : scur S = Some c -> live c = true -> ok S = [] -> finite live (ga S) -> ~ (order | d_r d) ->
    prepareKeysAndInputs dbg live e iv S d = Ok o ->
    observed (fst (prepareKeysAndInputs_t dbg live e iv S d)) = [d_kopprf d mod order; d_r d mod order] ++
      flat_map (fun j => [d_ok d j mod order; 2 ^ Z.of_nat j; d_ok d j mod order]) (rev (seq 0 MSG_BITS)).
  Proof.
    intros SC L OK FG NR H. destruct (prepare_fst S d o H) as [kp [r [oks [K [R [Os ->]]]]]].
    rewrite SC in *. rewrite OK. cbn [app].
    assert (EO : oks = map (fun j => fe_new FIELD_n (d_ok d j)) (seq 0 MSG_BITS)).
    { rewrite (OpprfProofs2.mapM_same _ (fun j => Ok (fe_new FIELD_n (d_ok d j)))) in Os by (intros j _; unfold getRandomScalar, deref; rewrite L; reflexivity).
      rewrite ShamirProofs.mapM_Ok in Os. injection Os as <-. reflexivity. }
    assert (FR : finite live r).
    { destruct (getRandomPoint_rf dbg live CV good_CV c (d_r d) L) as [r' [ER KR]]. rewrite R in ER. injection ER as <-.
      apply (rf_finite live CV good_CV _ _ KR). intros Z0. apply (mk_0_iff (fieldn CV) (prime_n CV good_CV)) in Z0. apply NR, Z0. }
    assert (RP : forall x, sees (getRandomPoint_t dbg live CV (Some c) x) [x mod order]).
    { intros x. unfold getRandomPoint_t. apply (sees_bind0 _ _ (gen CV c)); [unfold getDefaultGen; cbn [lift snd]; rewrite L; reflexivity|apply sees_lift|].
      apply sees_mulz. exact (gen_finite Secp256r1 live c L). }
    match goal with |- observed ?l = ?v => enough (RD : reads l v) by exact (RD (1, 0, [])) end.
    apply (reads_app _ _ [d_kopprf d mod order] (_ :: _)); [exact (RP _)|].
    apply (reads_app _ _ [d_r d mod order]); [exact (RP _)|].
    apply reads_flat. intros j Hj. apply in_rev, in_seq in Hj. unfold row_events.
    assert (EV : vat oks (Z.of_nat j) = Ok (fe_new FIELD_n (d_ok d j))).
    { unfold vat. assert (X : (Z.of_nat j <? 0) = false) by (apply Z.ltb_ge; lia). rewrite X, Nat2Z.id, EO.
      rewrite (map_nth_error (fun j => fe_new FIELD_n (d_ok d j)) j (d := j) (seq 0 MSG_BITS)); [reflexivity|].
      rewrite (nth_error_nth' _ 0%nat) by (rewrite seq_length; lia). rewrite seq_nth by lia. reflexivity. }
    rewrite EV. set (s := fe_new FIELD_n (d_ok d j)). assert (SS : scal s) by exact (scal_new _).
    destruct (mul_ok dbg live (ga S) (fe_new FIELD_n (2 ^ Z.of_nat j)) (or_intror FG) (scal_new _)) as [a [EA _]].
    unfold pmulz. change (fe_new (fieldn CV) (2 ^ Z.of_nat j)) with (fe_new FIELD_n (2 ^ Z.of_nat j)). rewrite EA.
    destruct (mul_ok dbg live r s (or_intror FR) SS) as [b [EB _]]. rewrite EB.
    apply (reads_app _ _ [d_ok d j mod order] [2 ^ Z.of_nat j; d_ok d j mod order]); [exact (sees_mul dbg live r s FR SS)|].
    apply (reads_app _ _ [2 ^ Z.of_nat j] [d_ok d j mod order]).
    - intros st. rewrite (sees_mulz dbg live (ga S) (2 ^ Z.of_nat j) FG st), Z.mod_small; [reflexivity|].
      split; [apply Z.pow_nonneg; lia|]. apply Z.lt_trans with (2 ^ 17); [|vm_compute; reflexivity].
      apply Z.pow_lt_mono_r; unfold MSG_BITS in Hj; lia.
    - rewrite <- (app_nil_r [d_ok d j mod order]). apply reads_app; [exact (sees_mul dbg live r s FR SS)|]. apply sees_add.
  Qed.
End Prepare.
