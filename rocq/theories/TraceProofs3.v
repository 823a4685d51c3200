(** Proofs about the number of multiplications of a client of the oblivious PRF. *)
From Coq Require Import ZArith Bool List Lia.
From Verif Require Import Outcome FieldModel CurveParams EccModel SpecEcc DmeModel SpecDme OtModel SpecOt AesModel SpecAes OpprfModel SpecOpprf SpecOpprf2 SpecOpprf4 OpprfProofs10 TraceModel SpecTrace TraceProofs TraceModel2 TraceProofs2 SpecTrace3.
Import ListNotations.
Open Scope Z_scope.

Notation muls := (occurrences Multiply).
Lemma muls_app l l' : muls (l ++ l') = muls l + muls l'.
Proof. unfold occurrences. rewrite filter_app, app_length. lia. Qed.

Section Counts.
  Variables (dbg : bool) (live : Z -> bool).

  Lemma muls_bind {A B} (r : traced A) (k : A -> traced B) a : snd r = Ok a -> muls (fst (tbind r k)) = muls (fst r) + muls (fst (k a)).
  Proof. intros E. rewrite (tbind_ok _ _ _ E). cbn [fst]. apply muls_app. Qed.
  Lemma muls_free {A B} (r : traced A) (k : A -> traced B) : muls (fst r) = 0 -> (forall a, snd r = Ok a -> muls (fst (k a)) = 0) -> muls (fst (tbind r k)) = 0.
  Proof.
    intros H H'. unfold tbind. destruct (snd r) as [a|f] eqn:E; cbn [fst]; [|exact H]. rewrite muls_app, H, (H' a eq_refl). reflexivity.
  Qed.
  Lemma muls_add C P Q : muls (fst (padd_t dbg live C P Q)) = 0.
  Proof.
    unfold padd_t. destruct (pinf P); [reflexivity|]. destruct (pinf Q); [reflexivity|]. apply muls_free; [reflexivity|]. intros _ _.
    destruct (fe_eq (px P) (px Q)); [destruct (fe_eq (py P) (py Q))|]; reflexivity.
  Qed.
  Lemma muls_sub C P Q : muls (fst (psub_t dbg live C P Q)) = 0.
  Proof.
    unfold psub_t. apply muls_free; [reflexivity|]. intros _ _. apply muls_free; [reflexivity|]. intros ny _. apply muls_add.
  Qed.
  Lemma muls_loop C bits : forall R P, muls (fst (mulloop_t dbg live C bits R P)) = 0.
  Proof.
    induction bits as [|b rest IH]; intros R P; cbn [mulloop_t]; [reflexivity|]. apply muls_free; [destruct b; [apply muls_add|reflexivity]|].
    intros R' _. destruct rest as [|b' rest]; [reflexivity|]. apply muls_free; [reflexivity|]. intros P' _. apply IH.
  Qed.
  Lemma muls_mul C P s : muls (fst (pmul_t dbg live C P s)) = 1.
  Proof.
    unfold pmul_t. rewrite (muls_bind ([Multiply], Ok tt) _ tt eq_refl). change (muls (fst ([Multiply], Ok tt))) with 1.
    rewrite muls_free; [reflexivity| |intros; reflexivity]. destruct (pinf P); [reflexivity|apply muls_loop].
  Qed.
  Lemma muls_dec sk c P : Dec dbg live sk c = Ok P -> muls (fst (Dec_t dbg live sk c)) = 1.
  Proof.
    intros H. unfold Dec in H. apply bind_Ok in H. destruct H as [us [E _]]. unfold Dec_t.
    rewrite (muls_bind _ _ us) by (rewrite pmul_snd; exact E). rewrite muls_mul, muls_sub. reflexivity.
  Qed.
  Lemma muls_decode R v t : decryptMsgDecode dbg live R v = Ok t -> muls (fst (decryptMsgDecode_t dbg live R v)) = 1.
  Proof.
    intros H. unfold decryptMsgDecode in H. apply bind_Ok in H. destruct H as [ct [EC H]]. unfold DecDecode in H. apply bind_Ok in H. destruct H as [m [EM _]].
    unfold decryptMsgDecode_t. rewrite (muls_bind _ _ ct) by exact EC. rewrite (muls_bind _ _ m) by (rewrite Dec_snd; exact EM).
    rewrite (muls_dec _ _ _ EM). reflexivity.
  Qed.

  Variables (e : env) (iv : list Z).
  Lemma muls_open R k l : forall p a, first_row dbg live e iv R k l = Ok p -> open_key dbg live e iv R k l = Ok (Some a) ->
    muls (fst (open_key_t dbg live e iv R k l)) = Z.of_nat p + 1.
  Proof.
    induction l as [|v l IH]; intros p a F O; [discriminate O|]. cbn [first_row open_key open_key_t] in *.
    apply bind_Ok in F. destruct F as [t [ET F]]. apply bind_Ok in F. destruct F as [t' [EC F]].
    rewrite ET in O. cbn [bind] in O. rewrite EC in O. cbn [bind] in O.
    rewrite (muls_bind _ _ t) by (rewrite decryptMsgDecode_snd; exact ET). rewrite (muls_decode _ _ _ ET).
    rewrite (muls_bind _ _ t') by exact EC. change (muls (fst (lift (decryptCRC e iv k t)))) with 0.
    destruct (t' =? 0).
    - apply bind_Ok in F. destruct F as [q [EQ F]]. injection F as <-. rewrite (IH q a EQ O). lia.
    - injection F as <-. reflexivity.
  Qed.

  Lemma L_C99_count C round c C' p : round <> BITS -> first_row dbg live e iv (otr C) (key C) (oc c) = Ok p ->
    runOTRound_end dbg live e iv C round c = Ok C' ->
    muls (fst (runOTRound_end_t dbg live e iv C round c)) = Z.of_nat p + 2.
  Proof.
    intros NB F H. assert (B : (round =? BITS) = false) by (apply Z.eqb_neq; exact NB).
    unfold runOTRound_end in H. unfold runOTRound_end_t. rewrite B in *.
    apply bind_Ok in H. destruct H as [k [EK H]]. apply bind_Ok in EK. destruct EK as [r [ER EK]].
    apply bind_Ok in H. destruct H as [P [EP H]]. apply bind_Ok in H. destruct H as [Q [EQ _]].
    destruct r as [a|]; [|destruct dbg; discriminate EK]. injection EK as <-.
    rewrite (muls_bind _ _ a) by (rewrite tbind_snd, open_key_snd, ER; reflexivity).
    rewrite (muls_bind _ _ (Some a)) by (rewrite open_key_snd; exact ER). rewrite (muls_open _ _ _ _ _ F ER).
    rewrite (muls_bind _ _ P) by (rewrite decryptMsg_snd; exact EP). rewrite (muls_bind _ _ Q) by (rewrite padd_snd; exact EQ). rewrite muls_add.
    unfold decryptMsg in EP. apply bind_Ok in EP. destruct EP as [ct [EC EP]]. unfold decryptMsg_t. rewrite (muls_bind _ _ ct) by exact EC.
    rewrite (muls_dec _ _ _ EP). change (muls (fst (lift (chosen (otr C) (ocprf c))))) with 0. cbn [lift fst].
    change (muls []) with 0. lia.
  Qed.

  Lemma counted l : forall C t ps C', rows_opened dbg live e iv C l t = Ok (ps, C') ->
    multiplications dbg live e iv C l t = Ok (map (fun p => Z.of_nat p + 2) ps).
  Proof.
    induction l as [|[round d] l IH]; intros C t ps C' H.
    - cbn [rows_opened] in H. apply Ok_inj in H. injection H as <- <-. reflexivity.
    - destruct t as [|[pk c] t]; [cbn [rows_opened] in H; apply Ok_inj in H; injection H as <- <-; reflexivity|].
      cbn [rows_opened multiplications] in *. apply bind_Ok in H. destruct H as [s [ES H]]. apply bind_Ok in H. destruct H as [p [EP H]].
      apply bind_Ok in H. destruct H as [C1 [E1 H]]. apply bind_Ok in H. destruct H as [r [ER H]]. apply Ok_inj in H. injection H as <- <-.
      rewrite ES. cbn [bind]. rewrite E1. cbn [bind]. destruct r as [ps C2]. rewrite (IH _ _ _ _ ER). cbn [bind fst].
      apply (f_equal Ok). rewrite map_app. apply (f_equal (fun x => x ++ map (fun p => Z.of_nat p + 2) ps)).
      destruct (Z.eqb_spec round BITS) as [EB|NB].
      + apply Ok_inj in EP. subst p. reflexivity.
      + apply bind_Ok in EP. destruct EP as [q [EQ EP]]. apply Ok_inj in EP. subst p. cbn [map]. rewrite (L_C99_count _ _ _ _ _ NB EQ E1). reflexivity.
  Qed.

  Lemma L_C99_server S C d a x : aes_ready e iv -> server_ready live S a -> client_ready live C x ->
    same_crs (dcrs (sdme (ots S))) (dcrs (rdme (otr C))) ->
    good_draws dbg live e iv (dcrs (rdme (otr C))) (sdme (ots S)) (theta S) a x d ->
    exists t ns, talk dbg live e iv S C d = Ok t /\ multiplications dbg live e iv C (schedule d) (tr_rounds t) = Ok ns /\
      letters_counted d ns = map (fun j => Some (prefix_cmp x (theta S) j)) levels_above.
  Proof.
    intros A SR CR SC GD. destruct (L_C89 dbg live e iv S C d a x A SR CR SC GD) as [t [ps [ET [EP [LP EL]]]]].
    unfold places in EP. apply bind_Ok in EP. destruct EP as [[qs C'] [ER EP]]. apply bind_Ok in EP. destruct EP as [q [_ EP]]. apply Ok_inj in EP.
    cbn [fst] in EP. subst ps. rewrite app_length in LP. cbn [length] in LP.
    exists t, (map (fun p => Z.of_nat p + 2) qs). split; [exact ET|]. split; [exact (counted _ _ _ _ _ ER)|].
    unfold letters_counted. unfold letters in EL.
    apply (f_equal (firstn 15)) in EL. rewrite !firstn_map, combine_firstn in EL.
    assert (Q15 : length qs = 15%nat) by lia.
    assert (FQ : firstn 15 (qs ++ [q]) = qs).
    { rewrite firstn_app, Q15. change (firstn (15 - 15) [q]) with (@nil nat). rewrite app_nil_r. apply firstn_all2. lia. }
    rewrite FQ in EL. change (firstn 15 levels) with levels_above in EL. rewrite <- EL.
    rewrite (combine_firstn_r (shuffles d)), map_length, Q15.
    generalize (firstn 15 (shuffles d)). clear. induction qs as [|p qs IH]; intros [|s l]; cbn [map combine]; try reflexivity.
    cbn [fst snd]. rewrite IH. apply (f_equal (fun x => x :: _)). apply (f_equal (letter_at s)). lia.
  Qed.

  (** the places of C89 give the numbers *)
  Lemma places_counted C d t ps : places dbg live e iv C d t = Ok ps ->
    multiplications dbg live e iv C (schedule d) (tr_rounds t) = Ok (map (fun p => Z.of_nat p + 2) (removelast ps)).
  Proof.
    intros EP. unfold places in EP. apply bind_Ok in EP. destruct EP as [[qs C'] [ER EP]]. apply bind_Ok in EP. destruct EP as [q [_ EP]]. apply Ok_inj in EP.
    cbn [fst] in EP. subst ps. rewrite removelast_last. exact (counted _ _ _ _ _ ER).
  Qed.
End Counts.

Lemma prefix_half x t j : prefix_cmp x t (Datatypes.S j) = prefix_cmp (x / 2) (t / 2) j.
Proof.
  unfold prefix_cmp. rewrite !Z.div_div by lia. rewrite Nat2Z.inj_succ, Z.pow_succ_r by lia. reflexivity.
Qed.
Lemma prefix_sym x t j : prefix_cmp t x j = CompOpp (prefix_cmp x t j).
Proof. unfold prefix_cmp. apply Z.compare_antisym. Qed.

Lemma L_C99_input t x x' : 0 <= t < 2 ^ 16 -> 0 <= x < 2 ^ 16 -> 0 <= x' < 2 ^ 16 -> x / 2 <> t / 2 -> let k := Z.log2 (Z.lxor (x / 2) (t / 2)) in
  map (fun j => prefix_cmp x' t j) levels_above = map (fun j => prefix_cmp x t j) levels_above <-> x' / 2 / 2 ^ k = x / 2 / 2 ^ k.
Proof.
  intros T X X' N k.
  assert (B : forall z, 0 <= z < 2 ^ 16 -> 0 <= z / 2 < 2 ^ 15) by (intros z Z; split; [apply Z.div_pos; lia|apply Z.div_lt_upper_bound; lia]).
  pose proof (B t T) as T1. pose proof (B x X) as X1. pose proof (B x' X') as X1'.
  assert (P : forall a b, map (fun j => prefix_cmp a b j) levels_above = map (fun j => prefix_cmp (a / 2) (b / 2) j) (rev (seq 0 15))).
  { intros a b. change levels_above with (map Datatypes.S (rev (seq 0 15))). rewrite map_map. apply map_ext. intros j. apply prefix_half. }
  rewrite !P. unfold k. rewrite Z.lxor_comm. rewrite <- (L_C89_differ (t / 2) (x / 2) (x' / 2)) by lia.
  change levels with (15%nat :: rev (seq 0 15)). cbn [map].
  assert (Z15 : forall a b, 0 <= a < 2 ^ 15 -> 0 <= b < 2 ^ 15 -> prefix_cmp a b 15 = Eq).
  { intros a b A A'. unfold prefix_cmp. change (Z.of_nat 15) with 15. rewrite !Z.div_small by lia. reflexivity. }
  rewrite (Z15 (t / 2) (x' / 2) T1 X1'), (Z15 (t / 2) (x / 2) T1 X1).
  assert (M : forall a b l, map (fun j => prefix_cmp b a j) l = map CompOpp (map (fun j => prefix_cmp a b j) l)).
  { intros a b l. rewrite map_map. apply map_ext. intros j. apply prefix_sym. }
  assert (I : forall l l', map CompOpp l = map CompOpp l' -> l = l').
  { induction l as [|c l IH]; intros [|c' l'] H; try discriminate H; [reflexivity|]. inversion H as [[H1 H2]].
    rewrite (IH _ H2). destruct c, c'; try discriminate H1; reflexivity. }
  rewrite (M (x' / 2) (t / 2)), (M (x / 2) (t / 2)). split.
  - intros H. rewrite H. reflexivity.
  - intros H. exact (I _ _ (f_equal (@tl comparison) H)).
Qed.
Lemma L_C99_input_equal t x x' : 0 <= x < 2 ^ 16 -> x / 2 = t / 2 ->
  map (fun j => prefix_cmp x' t j) levels_above = map (fun j => prefix_cmp x t j) levels_above <-> x' / 2 = t / 2.
Proof.
  intros X E. assert (Q : forall a, a / 2 = t / 2 -> map (fun j => prefix_cmp a t j) levels_above = map (fun _ => Eq) levels_above).
  { intros a A. apply map_ext_in. intros j J. unfold levels_above in J. apply in_rev, in_seq in J. destruct j as [|j]; [lia|]. rewrite prefix_half, A.
    unfold prefix_cmp. apply Z.compare_refl. }
  rewrite (Q x E). split; [|apply Q]. intros H.
  assert (L : last (map (fun j => prefix_cmp x' t j) levels_above) Lt = Eq) by (rewrite H; reflexivity).
  change (prefix_cmp x' t 1 = Eq) in L. unfold prefix_cmp in L. apply Z.compare_eq in L. exact L.
Qed.
