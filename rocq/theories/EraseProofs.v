(** Leaving out the asserts changes no value. *)
From Coq Require Import ZArith Bool List.
From Verif Require Import Outcome FieldModel CurveParams EccModel ShamirModel DmeModel OtModel ElgamalModel PudaModel CrcModel AesModel OpprfModel
  TestModel HistModel SpecErase.
Import ListNotations.
Open Scope Z_scope.

Section Rules.
  Context {F G : fault -> Prop}.
  Lemma sp_refl {A} (r : res A) : spared F r r.
  Proof. left. reflexivity. Qed.
  Lemma sp_bind {A B} (d r : res A) (k k' : A -> res B) : spared F d r -> (forall a, spared F (k a) (k' a)) -> spared F (bind d k) (bind r k').
  Proof.
    intros [->|(f & H & ->)] K.
    - destruct r as [a|f]; [apply K|left; reflexivity].
    - right. exists f. split; [exact H|reflexivity].
  Qed.
  Lemma sp_weaken {A} (d r : res A) : (forall f, F f -> G f) -> spared F d r -> spared G d r.
  Proof. intros W [->|(f & H & ->)]; [left; reflexivity|right; exists f; split; [apply W, H|reflexivity]]. Qed.
  Lemma sp_mapM {A B} (f g : A -> res B) l : (forall a, spared F (f a) (g a)) -> spared F (mapM f l) (mapM g l).
  Proof.
    intros H. induction l as [|a l IH]; [apply sp_refl|]. cbn [mapM]. apply sp_bind; [apply H|]. intros b. apply sp_bind; [exact IH|]. intros bs. apply sp_refl.
  Qed.
  Lemma sp_foldM {A S} (f g : S -> A -> res S) l : (forall s a, spared F (f s a) (g s a)) -> forall s, spared F (foldM f l s) (foldM g l s).
  Proof.
    intros H. induction l as [|a l IH]; intros s; [apply sp_refl|]. cbn [foldM]. apply sp_bind; [apply H|]. intros b. apply IH.
  Qed.
  (** loops: [inl] to go on, [inr] with an outcome *)
  Definition sp_sum {S A} (x y : S + res A) : Prop :=
    match x, y with
    | inr d, inr r => spared F d r
    | inl s, inl t => s = t
    | inr d, inl _ => exists f, F f /\ d = Err f
    | inl _, inr _ => False
    end.
  Lemma sp_loop {S A} (f g : S -> S + res A) k : (forall s, sp_sum (f s) (g s)) -> forall s, sp_sum (loop_upto k f s) (loop_upto k g s).
  Proof.
    intros H. induction k as [k IH|k IH|]; intros s; cbn [loop_upto].
    - pose proof (H s) as H0. destruct (f s) as [s1|d], (g s) as [t1|r]; cbn [sp_sum] in H0 |- *; try contradiction; try exact H0.
      + subst t1. pose proof (IH s1) as H1. destruct (loop_upto k f s1) as [s2|d], (loop_upto k g s1) as [t2|r]; cbn [sp_sum] in H1 |- *; try contradiction; try exact H1.
        * subst t2. apply IH.
        * destruct (loop_upto k g t2) as [t3|r]; [exact H1|right; exact H1].
      + destruct (loop_upto k g t1) as [t2|r]; [destruct (loop_upto k g t2) as [t3|r]|]; first [exact H0|right; exact H0].
    - pose proof (IH s) as H1. destruct (loop_upto k f s) as [s2|d], (loop_upto k g s) as [t2|r]; cbn [sp_sum] in H1 |- *; try contradiction; try exact H1.
      + subst t2. apply IH.
      + destruct (loop_upto k g t2) as [t3|r]; [exact H1|right; exact H1].
    - apply H.
  Qed.
End Rules.

Lemma moduli_curves f : moduli f -> curves f.
Proof. intros ->. left. reflexivity. Qed.
Lemma curves_validity f : curves f -> validity f.
Proof. intros [->|[->| ->]]; [left|right; left|right; right; left]; reflexivity. Qed.

Create HintDb spare.
Ltac spare1 :=
  match goal with
  | |- spared _ ?x ?x => apply sp_refl
  | |- spared _ (bind _ _) (bind _ _) => apply sp_bind; [|intros ?]
  | |- spared _ (mapM _ ?l) (mapM _ ?l) => apply sp_mapM; intros ?
  | |- spared _ (foldM _ ?l ?s) (foldM _ ?l ?s) => apply sp_foldM; intros ? ?
  | |- _ => solve [auto 2 with spare nocore]
  | |- spared _ (if ?b then _ else _) (if ?b then _ else _) => destruct b
  | |- spared _ (match ?b with _ => _ end) (match ?b with _ => _ end) => destruct b
  | |- spared curves _ _ => solve [apply (sp_weaken (F := moduli)); [exact moduli_curves|auto 2 with spare nocore]]
  | |- spared validity _ _ => solve [apply (sp_weaken (F := curves)); [exact curves_validity|auto 2 with spare nocore]]
  | s : _ * _ |- _ => destruct s; cbn beta iota
  end.
Ltac spare := cbv zeta; repeat spare1.

Section Fields.
  Lemma sp_assert c : spared moduli (assert_ true c) (assert_ false c).
  Proof. unfold assert_, check. destruct c; [left; reflexivity|right; exists AssertFail; split; reflexivity]. Qed.
  Hint Resolve sp_assert : spare.
  Variable q : Z.
  Lemma sp_add x y : spared moduli (fe_add true q x y) (fe_add false q x y).
  Proof. unfold fe_add. spare. Qed.
  Lemma sp_add_eq x y : spared moduli (fe_add_eq true x y) (fe_add_eq false x y).
  Proof. unfold fe_add_eq. spare. Qed.
  Lemma sp_sub x y : spared moduli (fe_sub true q x y) (fe_sub false q x y).
  Proof. unfold fe_sub. spare. Qed.
  Lemma sp_sub_eq x y : spared moduli (fe_sub_eq true x y) (fe_sub_eq false x y).
  Proof. unfold fe_sub_eq. spare. Qed.
  Lemma sp_mul x y : spared moduli (fe_mul true q x y) (fe_mul false q x y).
  Proof. unfold fe_mul. spare. Qed.
  Lemma sp_mul_eq x y : spared moduli (fe_mul_eq true x y) (fe_mul_eq false x y).
  Proof. unfold fe_mul_eq. spare. Qed.
  Hint Resolve sp_mul sp_mul_eq : spare.
  Lemma sp_div x y : spared moduli (fe_div true q x y) (fe_div false q x y).
  Proof. unfold fe_div. spare. Qed.
  Lemma sp_div_eq x y : spared moduli (fe_div_eq true q x y) (fe_div_eq false q x y).
  Proof. unfold fe_div_eq. spare. Qed.
  Lemma sp_exec s c : spared moduli (exec true q s c) (exec false q s c).
  Proof. unfold exec. spare. Qed.
  Hint Resolve sp_exec : spare.
  Lemma sp_exec_all s l : spared moduli (exec_all true q s l) (exec_all false q s l).
  Proof. unfold exec_all. spare. Qed.
End Fields.
#[export] Hint Resolve sp_assert sp_add sp_add_eq sp_sub sp_sub_eq sp_mul sp_mul_eq sp_div sp_div_eq sp_exec sp_exec_all : spare.

Section Points.
  Variables (live : Z -> bool) (C : cparams).
  Lemma sp_same P Q : spared curves (assert_same_curve true live C P Q) (assert_same_curve false live C P Q).
  Proof.
    unfold assert_same_curve. destruct (pcur P) as [c|]; cbn [deref bind]; [|right; exists NullDeref; split; [right; left|]; reflexivity].
    destruct (live c); cbn [bind]; [|right; exists UseAfterFree; split; [right; right|]; reflexivity].
    destruct (pcur Q) as [c'|]; cbn [deref bind]; [|right; exists NullDeref; split; [right; left|]; reflexivity].
    destruct (live c'); cbn [bind]; [|right; exists UseAfterFree; split; [right; right|]; reflexivity].
    unfold check. destruct (curve_eq C C); [left; reflexivity|right; exists AssertFail; split; [left|]; reflexivity].
  Qed.
  Hint Resolve sp_same : spare.
  Lemma sp_double P : spared moduli (pdouble true live C P) (pdouble false live C P).
  Proof. unfold pdouble. spare. Qed.
  Hint Resolve sp_double : spare.
  Lemma sp_padd P Q : spared curves (padd true live C P Q) (padd false live C P Q).
  Proof. unfold padd. spare. Qed.
  Hint Resolve sp_padd : spare.
  Lemma sp_psub P Q : spared curves (psub true live C P Q) (psub false live C P Q).
  Proof. unfold psub. spare. Qed.
  Lemma sp_mulloop l : forall R P, spared curves (mulloop true live C l R P) (mulloop false live C l R P).
  Proof.
    induction l as [|b l IH]; intros R P; [apply sp_refl|]. cbn [mulloop]. apply sp_bind; [spare|]. intros R'. destruct l as [|b' l']; [apply sp_refl|].
    apply sp_bind; [spare|]. intros P'. apply IH.
  Qed.
  Lemma sp_pmul P s : spared curves (pmul true live C P s) (pmul false live C P s).
  Proof. unfold pmul. destruct (pinf P); [apply sp_refl|apply sp_mulloop]. Qed.
  Hint Resolve sp_pmul : spare.
  Lemma sp_pmulz P a : spared curves (pmulz true live C P a) (pmulz false live C P a).
  Proof. unfold pmulz. spare. Qed.
  Hint Resolve sp_pmulz : spare.
  Lemma sp_rhs x a b : spared moduli (rhs true C x a b) (rhs false C x a b).
  Proof. unfold rhs. spare. Qed.
  Hint Resolve sp_rhs : spare.
  Lemma sp_valid P : spared moduli (isValid true live C P) (isValid false live C P).
  Proof. unfold isValid. spare. Qed.
  Lemma sp_py2 c x : spared moduli (evaluatePy2 true live C c x) (evaluatePy2 false live C c x).
  Proof. unfold evaluatePy2. spare. Qed.
  Lemma sp_evaluateP c x : spared moduli (evaluateP true live C c x) (evaluateP false live C c x).
  Proof. unfold evaluateP. spare. Qed.
  Lemma sp_evaluatePneg c x : spared moduli (evaluatePneg true live C c x) (evaluatePneg false live C c x).
  Proof. unfold evaluatePneg. spare. Qed.
  Hint Resolve sp_evaluateP sp_evaluatePneg : spare.
  Lemma sp_getEncodedX P : spared moduli (getEncodedX true live C P) (getEncodedX false live C P).
  Proof. unfold getEncodedX. spare. Qed.
  Lemma sp_setEncodedX P x : spared moduli (setEncodedX true live C P x) (setEncodedX false live C P x).
  Proof. unfold setEncodedX. spare. Qed.
  Lemma sp_getRandomPoint c d : spared curves (getRandomPoint true live C c d) (getRandomPoint false live C c d).
  Proof. unfold getRandomPoint. spare. Qed.
End Points.
#[export] Hint Resolve sp_same sp_double sp_padd sp_psub sp_pmul sp_pmulz sp_rhs sp_valid sp_py2 sp_evaluateP sp_evaluatePneg sp_getEncodedX sp_setEncodedX sp_getRandomPoint : spare.

Lemma sp_hexec C s h : spared curves (hexec true C s h) (hexec false C s h).
Proof. destruct h; cbn [hexec]; try match goal with b : bool |- _ => destruct b end; spare. Qed.
#[export] Hint Resolve sp_hexec : spare.
Lemma sp_hexec_all C l s : spared curves (hexec_all true C l s) (hexec_all false C l s).
Proof. unfold hexec_all. spare. Qed.

Section Protocols.
  Variable live : Z -> bool.
  Notation both F f := (spared F (f true) (f false)) (only parsing).

  (** ** dual-mode encryption *)
  Lemma sp_dme_new c mu a b d e : both curves (fun g => dme_new g live c mu a b d e).
  Proof. unfold dme_new. spare. Qed.
  Lemma sp_dme_new_random c a b d e : both curves (fun g => dme_new_random g live c a b d e).
  Proof. unfold dme_new_random. spare. Qed.
  Lemma sp_KeyGen D b r : both curves (fun g => KeyGen g live D b r).
  Proof. unfold KeyGen. spare. Qed.
  Lemma sp_encode_step c x : sp_sum (F := moduli) (encode_step true live c x) (encode_step false live c x).
  Proof.
    unfold encode_step. destruct (sp_evaluateP live CV c (fe_new FIELD_p x)) as [->|(f & H & ->)].
    - destruct (evaluateP false live CV c (fe_new FIELD_p x)) as [P|f]; [destruct (pinf P)|]; cbn [sp_sum]; [reflexivity|left; reflexivity|left; reflexivity].
    - destruct (evaluateP false live CV c (fe_new FIELD_p x)) as [P|f']; [destruct (pinf P)|]; cbn [sp_sum].
      + exists f. split; [exact H|reflexivity].
      + right. exists f. split; [exact H|reflexivity].
      + right. exists f. split; [exact H|reflexivity].
  Qed.
  Lemma sp_encode_loop k c x : both moduli (fun g => match loop_upto k (encode_step g live c) x with inl _ => Err Diverge | inr r => r end).
  Proof.
    pose proof (sp_loop (F := moduli) (encode_step true live c) (encode_step false live c) k (sp_encode_step c) x) as H. cbn beta.
    destruct (loop_upto k (encode_step true live c) x) as [s|d], (loop_upto k (encode_step false live c) x) as [t|r]; cbn [sp_sum] in H.
    - apply sp_refl.
    - contradiction.
    - right. exact H.
    - exact H.
  Qed.
  Lemma sp_encode D m : both moduli (fun g => encode g live D m).
  Proof. exact (sp_encode_loop (Z.to_pos FIELD_p) (dcurve D) (m * 2 ^ ENCODING_SHIFT)). Qed.
  Lemma sp_Enc D pk b m r r' : both curves (fun g => Enc g live D pk b m r r').
  Proof. unfold Enc. spare. Qed.
  Lemma sp_Dec sk c : both curves (fun g => Dec g live sk c).
  Proof. unfold Dec. spare. Qed.
  Hint Resolve sp_KeyGen sp_encode sp_Enc sp_Dec : spare.
  Lemma sp_EncZ D pk b m r r' : both curves (fun g => EncZ g live D pk b m r r').
  Proof. unfold EncZ. spare. Qed.
  Lemma sp_DecDecode sk c : both curves (fun g => DecDecode g live sk c).
  Proof. unfold DecDecode. spare. Qed.
  Lemma sp_FindMessy D pk : both curves (fun g => FindMessy g live D pk).
  Proof. unfold FindMessy. spare. Qed.
  Lemma sp_TrapKeyGen D r : both curves (fun g => TrapKeyGen g live D r).
  Proof. unfold TrapKeyGen. spare. Qed.
  Lemma sp_Eval a b : both curves (fun g => Eval g live a b).
  Proof. unfold Eval. spare. Qed.
  Hint Resolve sp_EncZ sp_DecDecode sp_FindMessy sp_TrapKeyGen sp_Eval sp_dme_new sp_dme_new_random : spare.

  (** ** oblivious transfer *)
  Lemma sp_selectMsg R b r : both curves (fun g => selectMsg g live R b r).
  Proof. unfold selectMsg. spare. Qed.
  Lemma sp_decryptMsg R c : both curves (fun g => decryptMsg g live R c).
  Proof. unfold decryptMsg. spare. Qed.
  Lemma sp_decryptMsgDecode R c : both curves (fun g => decryptMsgDecode g live R c).
  Proof. unfold decryptMsgDecode. spare. Qed.
  Lemma sp_encMsgs S pk m0 m1 a b c d : both curves (fun g => encMsgs g live S pk m0 m1 a b c d).
  Proof. unfold encMsgs. spare. Qed.
  Lemma sp_encMsgsZ S pk m0 m1 a b c d : both curves (fun g => encMsgsZ g live S pk m0 m1 a b c d).
  Proof. unfold encMsgsZ. spare. Qed.
  Lemma sp_agg_step c v : both curves (fun g => agg_step g live c v).
  Proof. unfold agg_step. spare. Qed.
  Hint Resolve sp_agg_step : spare.
  Lemma sp_aggregate c : both curves (fun g => aggregate g live c).
  Proof. unfold aggregate. spare. Qed.
  Hint Resolve sp_selectMsg sp_decryptMsg sp_decryptMsgDecode sp_encMsgs sp_encMsgsZ sp_aggregate : spare.

  (** ** ElGamal *)
  Lemma sp_keyGen E r : both curves (fun g => keyGen g live E r).
  Proof. unfold keyGen. spare. Qed.
  Lemma sp_eg_encrypt E pk m r : both curves (fun g => eg_encrypt g live E pk m r).
  Proof. unfold eg_encrypt. spare. Qed.
  Lemma sp_eg_decrypt sk c : both curves (fun g => eg_decrypt g live sk c).
  Proof. unfold eg_decrypt. spare. Qed.
  Lemma sp_eg_encode E m : both moduli (fun g => eg_encode g live E m).
  Proof. exact (sp_encode_loop (Z.to_pos FIELD_p) (Some (eaddr E)) (m * 2 ^ EG_SHIFT)). Qed.
  Hint Resolve sp_eg_encrypt sp_eg_encode : spare.
  Lemma sp_eg_encryptZ E pk m r : both curves (fun g => eg_encryptZ g live E pk m r).
  Proof. unfold eg_encryptZ. spare. Qed.

  (** ** aggregation *)
  Lemma sp_dlog_step pp c i : sp_sum (F := curves) (dlog_step true live pp c i) (dlog_step false live pp c i).
  Proof.
    unfold dlog_step. destruct (sp_pmulz live CV (ppg1 pp) i) as [->|(f & H & ->)].
    - destruct (pmulz false live CV (ppg1 pp) i) as [R|f]; [destruct (peq live CV R c) as [b|f]; [destruct b|]|]; cbn [sp_sum]; (reflexivity || apply sp_refl).
    - destruct (pmulz false live CV (ppg1 pp) i) as [R|f']; [destruct (peq live CV R c) as [b|f']; [destruct b|]|]; cbn [sp_sum].
      + right. exists f. split; [exact H|reflexivity].
      + exists f. split; [exact H|reflexivity].
      + right. exists f. split; [exact H|reflexivity].
      + right. exists f. split; [exact H|reflexivity].
  Qed.
  Lemma sp_compute_dlog pp c : both curves (fun g => compute_dlog g live pp c).
  Proof.
    pose proof (sp_loop (F := curves) (dlog_step true live pp c) (dlog_step false live pp c) (Z.to_pos USHRT_MAX) (sp_dlog_step pp c) 0) as H.
    cbn beta. unfold compute_dlog. destruct (loop_upto (Z.to_pos USHRT_MAX) (dlog_step true live pp c) 0) as [s|d], (loop_upto (Z.to_pos USHRT_MAX) (dlog_step false live pp c) 0) as [t|r]; cbn [sp_sum] in H.
    - apply sp_refl.
    - contradiction.
    - right. exact H.
    - exact H.
  Qed.
  Hint Resolve sp_compute_dlog : spare.
  Lemma sp_setup_step c a s d : both curves (fun g => setup_step g live c a s d).
  Proof. unfold setup_step. spare. Qed.
  Hint Resolve sp_setup_step : spare.
  Lemma sp_Setup pp rh ra ds : both curves (fun g => Setup g live pp rh ra ds).
  Proof. unfold Setup. spare. Qed.
  Lemma sp_PEnc pp ek m t : both curves (fun g => PEnc g live pp ek m t).
  Proof. unfold PEnc. spare. Qed.
  Lemma sp_PTag pp ek m t : both curves (fun g => PTag g live pp ek m t).
  Proof. unfold PTag. spare. Qed.
  Lemma sp_Agg pp ak c tg t : both curves (fun g => Agg g live pp ak c tg t).
  Proof. unfold Agg. spare. Qed.

  (** ** secret sharing *)
  Lemma sp_evalPoly x l : both moduli (fun g => evalPoly g x l).
  Proof. unfold evalPoly. spare. Qed.
  Hint Resolve sp_evalPoly : spare.
  Lemma sp_getShares cap rnd t n s : both moduli (fun g => getShares g cap rnd t n s).
  Proof. unfold getShares. spare. Qed.
  Lemma sp_reconSecret l : both moduli (fun g => reconSecret g l).
  Proof. unfold reconSecret. spare. Qed.

  (** ** oblivious PRF *)
  Variables (e : env) (iv : list Z).
  Lemma sp_server_new c th k d : both curves (fun g => server_new g live c th k d).
  Proof. unfold server_new. spare. Qed.
  Lemma sp_setSecret S P : both validity (fun g => setSecret g live S P).
  Proof.
    unfold setSecret. cbv zeta. set (P' := set_curve P (scur S)).
    assert (V : (exists b, isValid true live CV P' = Ok b) \/ exists f, validity f /\ isValid true live CV P' = Err f).
    { unfold isValid. destruct (pinf P'); [left; eexists; reflexivity|]. destruct (pcur P') as [c|]; [|left; eexists; reflexivity].
      unfold deref. destruct (live c); cbn [bind]; [|right; exists UseAfterFree; split; [right; right; left|]; reflexivity].
      unfold rhs, fe_mul, fe_mulz, fe_add, assert_, check, mpz_mod.
      repeat match goal with |- context [if ?b then _ else _] =>
        lazymatch b with andb _ _ => fail | _ => destruct b; cbn [bind] end end;
        first [left; eexists; reflexivity | right; exists AssertFail; split; [left|]; reflexivity | right; exists DivByZero; split; [right; right; right|]; reflexivity]. }
    destruct V as [[b ->]|(f & V & ->)]; cbn [bind].
    - unfold assert_, check. destruct b; cbn [bind]; [left; reflexivity|right; exists AssertFail; split; [left|]; reflexivity].
    - right. exists f. split; [exact V|reflexivity].
  Qed.
  Lemma sp_prep_row S j : both curves (fun g => prep_row g live e iv S j).
  Proof. unfold prep_row. spare. Qed.
  Hint Resolve sp_prep_row : spare.
  Lemma sp_prep_step S j : both curves (fun g => prep_step g live e iv S j).
  Proof. unfold prep_step. spare. Qed.
  Lemma sp_prep_top S : both curves (fun g => prep_top g live S).
  Proof. unfold prep_top. spare. Qed.
  Hint Resolve sp_prep_step sp_prep_top : spare.
  Lemma sp_prepare S d : both curves (fun g => prepareKeysAndInputs g live e iv S d).
  Proof. unfold prepareKeysAndInputs. spare. Qed.
  Lemma sp_encZ S pk a b q : both curves (fun g => encZ g live S pk a b q).
  Proof. unfold encZ. spare. Qed.
  Lemma sp_encP S pk a b q : both curves (fun g => encP g live S pk a b q).
  Proof. unfold encP. spare. Qed.
  Hint Resolve sp_encZ sp_encP : spare.
  Lemma sp_runOTRound S r pk a b c d u v : both curves (fun g => runOTRound g live S r pk a b c d u v).
  Proof. unfold runOTRound. spare. Qed.
  Lemma sp_masks S d u v : both curves (fun g => sendEncryptedMasks g live e iv S d u v).
  Proof. unfold sendEncryptedMasks. spare. Qed.
  Lemma sp_server_clean S d : both curves (fun g => server_clean g live S d).
  Proof. unfold server_clean. spare. Qed.
  Lemma sp_start C r d : both curves (fun g => runOTRound_start g live C r d).
  Proof. unfold runOTRound_start. spare. Qed.
  Lemma sp_open_key R k l : both curves (fun g => open_key g live e iv R k l).
  Proof. cbn beta. induction l as [|v l IH]; [apply sp_refl|]. cbn [open_key]. spare. Qed.
  Lemma sp_thrown {A} : both curves (fun g : bool => if g then @Err A AssertFail else Err Thrown).
  Proof. right. exists AssertFail. split; [left|]; reflexivity. Qed.
  Hint Resolve sp_open_key sp_thrown : spare.
  Lemma sp_end C r c : both curves (fun g => runOTRound_end g live e iv C r c).
  Proof. unfold runOTRound_end. spare. Qed.
  Lemma sp_unmask C m d : both curves (fun g => unmaskResult g live e iv C m d).
  Proof. unfold unmaskResult. spare. Qed.
  Hint Resolve sp_prepare sp_runOTRound sp_masks sp_start sp_end sp_unmask sp_server_new sp_setSecret sp_server_clean : spare.
  Lemma sp_one_round SC rd : both curves (fun g => one_round g live e iv SC rd).
  Proof. unfold one_round. spare. Qed.
  Hint Resolve sp_one_round : spare.
  Lemma sp_session S C d : both curves (fun g => session g live e iv S C d).
  Proof. unfold session. spare. Qed.
End Protocols.

#[export] Hint Resolve sp_dme_new sp_dme_new_random sp_KeyGen sp_encode sp_Enc sp_Dec sp_EncZ sp_DecDecode sp_FindMessy sp_TrapKeyGen sp_Eval
  sp_selectMsg sp_decryptMsg sp_decryptMsgDecode sp_encMsgs sp_encMsgsZ sp_aggregate sp_Setup sp_PEnc sp_PTag sp_Agg sp_getShares sp_reconSecret
  sp_server_new sp_setSecret sp_server_clean sp_session : spare.

(** ** The test programs *)
Section Tests.
  Notation both F f := (spared F (f true) (f false)) (only parsing).
  Lemma sp_tally F l l' : Forall2 (spared F) l l' -> forall s, spared F (tally l s) (tally l' s).
  Proof.
    intros H. induction H as [|t t' l l' H0 H IH]; intros s; [apply sp_refl|]. cbn [tally]. apply sp_bind; [exact H0|]. intros b. apply IH.
  Qed.
  Lemma bind_bind {A B D} (r : res A) (k : A -> res B) (k' : B -> res D) : bind (bind r k) k' = bind r (fun a => bind (k a) k').
  Proof. destruct r; reflexivity. Qed.
  Lemma sp_fsame F a a' b b' : spared F a a' -> spared F b b' -> spared F (fsame a b) (fsame a' b').
  Proof. intros H H'. unfold fsame. apply sp_bind; [exact H|]. intros x. apply sp_bind; [exact H'|]. intros y. apply sp_refl. Qed.
  Lemma sp_psame F live a a' b b' : spared F a a' -> spared F b b' -> spared F (psame live a b) (psame live a' b').
  Proof. intros H H'. unfold psame. apply sp_bind; [exact H|]. intros x. apply sp_bind; [exact H'|]. intros y. apply sp_refl. Qed.
  Ltac same := match goal with
    | |- spared _ (fsame _ _) (fsame _ _) => apply sp_fsame; spare
    | |- spared _ (psame _ _ _) (psame _ _ _) => apply sp_psame; spare
    | |- _ => spare
    end.
  Ltac tests := apply sp_tally; repeat (apply Forall2_cons; [same|]); apply Forall2_nil.

  Lemma sp_main_fields : both moduli main_fields.
  Proof. unfold main_fields. cbv zeta. apply sp_bind; [apply sp_refl|]. intros a. apply sp_bind; [apply sp_refl|]. intros b. tests. Qed.
  Lemma sp_main_ecc live c r1 r2 : both curves (fun g => main_ecc g live c r1 r2).
  Proof. unfold main_ecc. cbv zeta. repeat match goal with |- spared _ (bind _ _) _ => apply sp_bind; [solve [spare]|intros ?] end. tests. Qed.
  Lemma sp_main_shamirss cap rnd : both moduli (fun g => main_shamirss g cap rnd).
  Proof. unfold main_shamirss. spare. Qed.
  Lemma sp_puda_user live pp ekv skv m t s k : both curves (fun g => puda_user g live pp ekv skv m t s k).
  Proof. unfold puda_user. spare. Qed.
  Hint Resolve sp_puda_user : spare.
  Lemma sp_main_puda live c1 c2 rh ra d : both curves (fun g => main_puda g live c1 c2 rh ra d).
  Proof. unfold main_puda. spare. Qed.

  Variable live : Z -> bool.
  Lemma sp_trip D b b' d : both curves (fun g => dme_trip g live D b b' d).
  Proof. unfold dme_trip. spare. Qed.
  Hint Resolve sp_trip : spare.
  Lemma sp_find D b r : both curves (fun g => dme_find g live D b r).
  Proof. unfold dme_find. spare. Qed.
  Lemma sp_eval D d : both curves (fun g => dme_eval g live D d).
  Proof. unfold dme_eval. spare. Qed.
  Lemma sp_number D d : both curves (fun g => dme_number g live D d).
  Proof. unfold dme_number. spare. Qed.
  Hint Resolve sp_find sp_eval sp_number : spare.
  Lemma sp_four D d l l' : Forall2 (spared curves) l l' -> Forall2 (spared curves) (dme_four true live D d ++ l) (dme_four false live D d ++ l').
  Proof. intros H. unfold dme_four. cbn [app]. repeat (apply Forall2_cons; [spare|]). exact H. Qed.
  Lemma sp_trap {A} D d (k k' : res bool * res bool -> res A) :
    (forall a a' b b', spared curves a a' -> spared curves b b' -> spared curves (k (a, b)) (k' (a', b'))) ->
    spared curves (do t <- dme_trapdoor true live D d; k t) (do t <- dme_trapdoor false live D d; k' t).
  Proof.
    intros H. unfold dme_trapdoor. rewrite !bind_bind. apply sp_bind; [spare|]. intros [[pk sk0] sk1]. rewrite !bind_bind. apply sp_bind; [spare|]. intros msg.
    rewrite !bind_bind. apply sp_bind; [spare|]. intros c0. rewrite !bind_bind. apply sp_bind; [spare|]. intros c1. cbn [bind]. apply H; spare.
  Qed.
  Lemma sp_main_dme cm cd cc d : both curves (fun g => main_dme g live cm cd cc d).
  Proof.
    unfold main_dme. cbv zeta. apply sp_bind; [spare|]. intros M. apply sp_bind.
    { apply sp_tally, sp_four. repeat (apply Forall2_cons; [spare|]). apply Forall2_nil. }
    intros s. apply sp_bind; [spare|]. intros D. apply sp_bind.
    { apply sp_tally. rewrite <- (app_nil_r (dme_four true live D (on_dec d))), <- (app_nil_r (dme_four false live D (on_dec d))). apply sp_four, Forall2_nil. }
    intros s'. apply sp_trap. intros a a' b b' Ha Hb. apply sp_bind.
    { apply sp_tally. cbn [fst snd]. repeat (apply Forall2_cons; [assumption|]). apply Forall2_nil. }
    intros s''. apply sp_tally, sp_four. repeat (apply Forall2_cons; [spare|]). apply Forall2_nil.
  Qed.

  Lemma sp_randomMsg S r : both curves (fun g => getRandomMsg g live S r).
  Proof. unfold getRandomMsg. spare. Qed.
  Hint Resolve sp_randomMsg : spare.
  Lemma sp_ot_points R S b d : both curves (fun g => ot_points g live R S b d).
  Proof. unfold ot_points. spare. Qed.
  Lemma sp_ot_integers R S k q : both curves (fun g => ot_integers g live R S k q).
  Proof. unfold ot_integers. spare. Qed.
  Lemma sp_dot_send S pk d : both curves (fun g => dot_send g live S pk d).
  Proof. unfold dot_send. spare. Qed.
  Hint Resolve sp_ot_points sp_ot_integers sp_dot_send : spare.
  Lemma sp_dot_three k a b c d r x y z : both curves (fun g => dot_three g live k a b c d r x y z).
  Proof. unfold dot_three. spare. Qed.
  Hint Resolve sp_dot_three : spare.
  Lemma sp_main_ot a b c d e f h p : both curves (fun g => main_ot g live a b c d e f h p).
  Proof. unfold main_ot. cbv zeta. repeat match goal with |- spared _ (bind _ _) _ => apply sp_bind; [solve [spare]|intros ?] end. tests. Qed.

  Lemma sp_opprf_eval e iv s x d g0 : both validity (fun g => opprf_eval g e live iv s x d g0).
  Proof. unfold opprf_eval. spare. Qed.
  Hint Resolve sp_opprf_eval : spare.
  Lemma sp_opprf_loop e iv l : forall s k, both validity (fun g => opprf_loop g e live iv s l k).
  Proof.
    cbn beta. induction l as [|[[x d] g] l IH]; intros s k; [apply sp_refl|]. cbn [opprf_loop]. apply sp_bind; [spare|]. intros r. apply IH.
  Qed.
  Hint Resolve sp_opprf_loop : spare.
  Lemma sp_main_opprf e a b c d p : both validity (fun g => main_opprf g e live a b c d p).
  Proof. unfold main_opprf. spare. Qed.
End Tests.
