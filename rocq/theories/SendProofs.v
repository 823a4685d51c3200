(** Oblivious transfers with a cheating sender, and the world in which both messages are read off its answers. *)
From Coq Require Import ZArith Znumtheory Bool List Lia Field.
From Verif Require Import Outcome FieldModel ZpField SpecField FieldProofs ECGroup ECOrder CurveParams CurveFacts EccModel EccProofs SpecEcc EccThms Emb RF DmeModel SpecDme DmeProofs OtModel OtProofs OtProofs2 SpecCount CountMath SpecDdh SpecDdh2 SpecDdh3 SpecDdh4 DdhProofs DdhProofs2 DdhCases DdhMany DdhMany2 DdhHear DdhHear5 CheatProofs IdealProofs SpecSend.
Import ListNotations.
Open Scope Z_scope.

Lemma of_heads {A} (dom : A -> Prop) (R : A -> list A -> Prop) n N :
  how_many (fun z : A * list A => dom (fst z) /\ (length (snd z) = n /\ Forall dom (snd z) /\ R (fst z) (snd z))) N ->
  how_many (fun ds => length ds = Datatypes.S n /\ Forall dom ds /\ match ds with q :: l => R q l | [] => False end) N.
Proof.
  intros H. refine (how_many_map (fun z => fst z :: snd z) _ _ _ H _ _).
  - intros [q l] [q' l'] _ _ E. cbn [fst snd] in E. congruence.
  - intros ds. split.
    + intros [L [F X]]. destruct ds as [|q l]; [destruct X|]. exists (q, l). cbn [fst snd]. split; [|reflexivity]. cbn [length] in L.
      split; [exact (Forall_inv F)|]. split; [lia|]. split; [exact (Forall_inv_tail F)|exact X].
    + intros [[q l] [[Q [L [F X]]] <-]]. cbn [fst snd length] in *. split; [lia|]. split; [constructor; assumption|exact X].
Qed.

Section Send.
  Variables (dbg : bool) (live : Z -> bool).
  Notation n' := (fieldn CV).
  Let Hn : prime n' := prime_n CV good_CV.
  Let HF := field_Fp n' Hn.
  Add Field SendField : HF.

  Variables (c c2 r1 r2 r3 r4 : Z) (D : dme).
  Hypothesis LC : live c = true.
  Hypothesis LC2 : live c2 = true.
  Hypothesis ED : dme_new dbg live c dec r1 r2 r3 r4 = Ok D.

  Lemma dec_like : dlike live (dme_new_crs c2 (dcrs D)) c2 r2 (r1 * r2) (r3 * r2) (r3 * (r1 * r2)).
  Proof.
    destruct (new_dec_rf dbg live c r1 r2 r3 r4 LC) as [D1 [E1 [T0 K]]]. rewrite ED in E1. apply Ok_inj in E1. subst D1.
    apply (moved_like live D c c2 _ _ _ _ LC2). rewrite <- !mk_mul. exact K.
  Qed.
  Lemma wanted R b r : rdme R = dme_new_crs c2 (dcrs D) -> branch b -> exists R' pk, selectMsg dbg live R b r = Ok (R', pk) /\ rdme R' = rdme R /\
    elts pk = (if b =? 0 then (pow (r * r2), pow (r * (r3 * r2))) else (pow (r * (r1 * r2)), pow (r * (r3 * (r1 * r2))))) /\
    forall cs, decryptMsg dbg live R' cs = (do ct <- vat cs b; Dec dbg live (em n' (ZpField.mk n' r)) ct).
  Proof.
    intros ER Hb. pose proof dec_like as HD. rewrite <- ER in HD. destruct (select_like dbg live R c2 _ _ _ _ b r HD Hb) as [R' [pk [E [EM EV]]]]. exists R', pk. split; [exact E|]. split; [exact EM|].
    split; [rewrite EV; destruct Hb as [-> | ->]; reflexivity|].
    assert (X : R' = mkrecv (rdme R) (em n' (ZpField.mk n' r)) (Some b)).
    { unfold selectMsg, KeyGen in E. destruct HD as [EC L _ _ _ _]. rewrite EC, (getRandomScalar_em live CV c2 r L) in E. cbn [bind] in E.
      destruct Hb as [-> | ->]; cbn [Z.eqb Pos.eqb] in E; (destruct (EccModel.pmul dbg live DmeModel.CV _ _) as [P|] in E; [|discriminate E]); cbn [bind] in E;
        (destruct (EccModel.pmul dbg live DmeModel.CV _ _) as [Q|] in E; [|discriminate E]); cbn [bind] in E; apply Ok_inj in E; cbn [ksk] in E; congruence. }
    intros cs. rewrite X. reflexivity.
  Qed.

  Hypothesis N1 : ~ (order | r1).
  Lemma opened r : exists pk, TrapKeyGen dbg live D r = Ok (pk, em n' (ZpField.mk n' r), em n' (fdiv n' (ZpField.mk n' r) (ZpField.mk n' r1))) /\ elts pk = (pow (r * r2), pow (r * (r3 * r2))).
  Proof.
    destruct (trap_rf dbg live c r1 r2 r3 r4 D r LC N1 ED) as [pk [E [X [Y _]]]]. exists pk. split; [exact E|]. rewrite !mk_mul in X. rewrite !mk_mul in Y. unfold elts. rewrite (rf_pow live _ _ X), (rf_pow live _ _ Y). reflexivity.
  Qed.
  Definition times (k r : Z) : Z := (k * r) mod order.
  Lemma times_draw k r : draw (times k r).
  Proof. unfold times, draw. apply Z.mod_pos_bound. pose proof order_pos. lia. Qed.
  Lemma times_times k l r : (order | k * l - 1) -> draw r -> times k (times l r) = r.
  Proof.
    intros [q E] DR. unfold times. rewrite Zmult_mod_idemp_r. replace (k * (l * r)) with (r + (q * r) * order) by (transitivity ((k * l - 1) * r + r); [rewrite E; ring|ring]).
    rewrite Z_mod_plus_full. apply Z.mod_small, DR.
  Qed.
  Lemma times_mk k r : ZpField.mk n' (times k r) = fmul n' (ZpField.mk n' k) (ZpField.mk n' r).
  Proof. rewrite mk_mul. unfold times. apply mk_order_eq. exists (- (k * r / order)). pose proof (Z_div_mod_eq_full (k * r) order). lia. Qed.
  Lemma quotient r : fdiv n' (ZpField.mk n' (times r1 r)) (ZpField.mk n' r1) = ZpField.mk n' r.
  Proof. rewrite times_mk. field. intros X. apply N1. apply mk_order_0. exact X. Qed.
  Lemma pow_times r k : pow (times r1 r * k) = pow (r * (r1 * k)).
  Proof. unfold times. rewrite Z.mul_comm, pow_mulmod. f_equal. ring. Qed.

  Variables (B : list exchange -> Z) (G : list exchange -> elt * elt -> list ctxt).
  Hypothesis HB : forall h, branch (B h).

  Lemma same_worlds A : forall n R h, rdme R = dme_new_crs c2 (dcrs D) ->
    exists N, tried (fun rs => received dbg live R B G rs h) n A N /\ tried (fun rs => extracted dbg live D B G rs h) n A N.
  Proof.
    induction n as [|n IH]; intros R h ER.
    - unfold tried. destruct (A h) eqn:EA.
      + exists 1. split; (exists [[]]; split; [constructor; [intros []|constructor]|split; [|reflexivity]]; intros ds; split;
          [intros [<-|[]]; split; [reflexivity|split; [constructor|exists h; split; [reflexivity|exact EA]]]|intros [L _]; destruct ds; [left; reflexivity|discriminate L]]).
      + exists 0. split; apply how_many_none; intros ds [L [_ [h' [E EA']]]]; (destruct ds; [|discriminate L]); apply Ok_inj in E; congruence.
    - destruct (order_inv r1 N1) as [i I]. set (k := if B h =? 0 then 1 else r1). set (j := if B h =? 0 then 1 else i).
      assert (KJ : (order | k * j - 1)) by (unfold k, j; destruct (B h =? 0); [exists 0; reflexivity|rewrite Z.mul_comm; exact I]). assert (JK : (order | j * k - 1)) by (rewrite Z.mul_comm; exact KJ).
      set (Q := fun r l => exists h', (do x <- selectMsg dbg live R (B h) r; received dbg live (fst x) B G l (h ++ [(elts (snd x), decryptMsg dbg live (fst x) (G h (elts (snd x))))])) = Ok h' /\ A h' = true).
      set (Q' := fun r l => exists h', extracted dbg live D B G (r :: l) h = Ok h' /\ A h' = true).
      destruct (along (times k) (times j) draw _ (fun r l => length l = n /\ Forall draw l /\ Q r l) (fun r l => length l = n /\ Forall draw l /\ Q' r l) draws) as [N [C1 C2]].
      + intros r DR. split; [apply times_draw|apply times_times; assumption].
      + intros r DR. split; [apply times_draw|apply times_times; assumption].
      + intros r DR. destruct (wanted R (B h) r ER (HB h)) as [R' [pk [E [EM [EV ED']]]]]. destruct (opened (times k r)) as [pk' [E' EV']].
        assert (V : elts pk = elts pk').
        { rewrite EV, EV'. unfold k. destruct (HB h) as [-> | ->]; cbn [Z.eqb].
          - unfold times. rewrite Z.mul_1_l, (Z.mod_small r) by exact DR. reflexivity.
          - rewrite !pow_times. replace (r1 * (r3 * r2)) with (r3 * (r1 * r2)) by ring. reflexivity. }
        set (o := if B h =? 0 then (do ct <- vat (G h (elts pk')) 0; Dec dbg live (em n' (ZpField.mk n' (times k r))) ct) else (do ct <- vat (G h (elts pk')) 1; Dec dbg live (em n' (fdiv n' (ZpField.mk n' (times k r)) (ZpField.mk n' r1))) ct)).
        assert (O : decryptMsg dbg live R' (G h (elts pk)) = o).
        { rewrite ED', V. unfold o, k. destruct (HB h) as [-> | ->]; cbn [Z.eqb Pos.eqb].
          - unfold times. rewrite Z.mul_1_l, (Z.mod_small r) by exact DR. reflexivity.
          - rewrite quotient. reflexivity. }
        destruct (IH R' (h ++ [(elts pk', o)])) as [N [C1 C2]]; [rewrite EM; exact ER|]. exists N. unfold Q, Q'. cbn [extracted]. rewrite E, E'. cbn [bind fst snd]. rewrite O, V. split; assumption.
      + exists N. split.
        * refine (how_many_same _ _ _ _ (of_heads draw Q n N C1)). intros ds. destruct ds as [|r l]; [split; intros [L _]; discriminate L|]. reflexivity.
        * refine (how_many_same _ _ _ _ (of_heads draw Q' n N C2)). intros ds. destruct ds as [|r l]; [split; intros [L _]; discriminate L|]. reflexivity.
  Qed.
End Send.
