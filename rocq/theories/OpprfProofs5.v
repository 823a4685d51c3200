(** Transcripts of the oblivious PRF: proofs. *)
From Coq Require Import ZArith Znumtheory Bool List Lia Field.
From Verif Require Import Outcome FieldModel ZpField SpecField FieldProofs ECGroup ECOrder CurveParams CurveFacts EccModel EccProofs SpecEcc EccThms Emb RF.
From Verif Require Import DmeModel SpecDme DmeProofs DmeProofs2 OtModel SpecOt OtProofs OtProofs2 CrcModel AesModel SpecAes OpprfModel SpecOpprf SpecOpprf2.
From Verif Require Import OpprfProofs OpprfProofs2.
Import ListNotations.
Open Scope Z_scope.

Section Opprf5.
  Variables (dbg : bool) (live : Z -> bool) (e : env) (iv : list Z).
  Notation n := (fieldn CV).
  Let Hn : prime n := prime_n CV good_CV.
  Let HF := field_Fp n Hn.
  Add Field OpprfField5 : HF.
  Notation F := (Fp n).
  Notation rf := (rf live CV).
  Notation em := (em n).
  Notation mk := (mk n).
  Notation drf := (drf live).
  Notation multiple := (multiple live).

  Ltac inv H := let a := fresh "v" in let E := fresh "Q" in apply bind_Ok in H; destruct H as [a [E H]].

  Lemma bind_cong (A B : Type) (m : res A) (f g : A -> res B) : (forall a, f a = g a) -> bind m f = bind m g.
  Proof. intros H. destruct m; [apply H|reflexivity]. Qed.

  (** ** Sessions and transcripts *)
  (** the part of a client that decides what it publishes *)
  Definition voice (C D : client) : Prop := rdme (otr C) = rdme (otr D) /\ cx C = cx D.
  Lemma start_voice C D round d : voice C D ->
    alike (fun a b => voice (fst a) (fst b) /\ snd a = snd b) (runOTRound_start dbg live C round d) (runOTRound_start dbg live D round d).
  Proof.
    intros [V1 V2]. unfold runOTRound_start, selectMsg. rewrite V2. destruct (cx D) as [x|] eqn:X; [|reflexivity].
    apply alike_same. intros s. rewrite V1. destruct (KeyGen dbg live (rdme (otr D)) _ d); cbn; [|reflexivity].
    split; [split; cbn [otr rdme cx]; congruence|reflexivity].
  Qed.
  Lemma end_voice C round c C' : runOTRound_end dbg live e iv C round c = Ok C' -> voice C' C.
  Proof.
    unfold runOTRound_end. intros H. inv H. inv H. inv H. apply Ok_inj in H. subst C'. split; reflexivity.
  Qed.
  Lemma voice_trans C D E : voice C D -> voice D E -> voice C E.
  Proof. intros [A1 A2] [B1 B2]. split; congruence. Qed.

  Lemma exchanges_voice l : forall S C D, voice C D -> exchanges dbg live S C l = exchanges dbg live S D l.
  Proof.
    induction l as [|[round d] l IH]; intros S C D V; [reflexivity|]. cbn [exchanges].
    pose proof (start_voice C D round (rd_key d) V) as H.
    destruct (runOTRound_start dbg live C round (rd_key d)) as [[c k]|], (runOTRound_start dbg live D round (rd_key d)) as [[c' k']|];
      cbn in H; try contradiction; [|rewrite H; reflexivity].
    destruct H as [V' ->]. cbn [bind fst snd]. destruct (runOTRound dbg live S round k' _ _ _ _ _ _) as [[s a]|]; [|reflexivity].
    cbn [bind fst snd]. rewrite (IH s c c' V'). reflexivity.
  Qed.

  Lemma rounds_talk l : forall S C S' C', foldM (one_round dbg live e iv) l (S, C) = Ok (S', C') ->
    exists t, exchanges dbg live S C l = Ok (S', t) /\ replay dbg live e iv C l t = Ok C'.
  Proof.
    induction l as [|[round d] l IH]; intros S C S' C' H; cbn [foldM] in H.
    - apply Ok_inj in H. injection H as <- <-. exists []. split; reflexivity.
    - inv H. unfold one_round in Q. cbn [fst snd] in Q. inv Q. inv Q. inv Q. apply Ok_inj in Q. subst v.
      apply IH in H. destruct H as [t [E1 E2]]. exists ((snd v0, snd v1) :: t). cbn [exchanges replay]. rewrite Q0. cbn [bind]. rewrite Q1. cbn [bind].
      rewrite Q2. cbn [bind]. rewrite <- (exchanges_voice l (fst v1) v2 (fst v0)) by (apply end_voice in Q2; exact Q2).
      rewrite E1. cbn [bind fst snd]. split; [reflexivity|exact E2].
  Qed.

  Lemma L_session_talk S C d S' C' : session dbg live e iv S C d = Ok (S', C') ->
    exists t, talk dbg live e iv S C d = Ok t /\ offline dbg live e iv C d t = Ok C'.
  Proof.
    unfold session, talk, offline, schedule. intros H. inv H. inv H. inv H. inv H. apply Ok_inj in H.
    destruct v0 as [S1 C1]. cbn [fst snd] in *. injection H as <- <-.
    destruct (rounds_talk _ _ _ _ _ Q0) as [t [E1 E2]]. exists (mktr t v1). rewrite Q. cbn [bind]. rewrite E1. cbn [bind fst snd].
    rewrite Q1. cbn [bind tr_rounds tr_masks]. split; [reflexivity|]. rewrite E2. cbn [bind]. exact Q2.
  Qed.
  Lemma session_evaluate S C d : session dbg live e iv S C d =
    bind (prepareKeysAndInputs dbg live e iv S (sd_prep d)) (fun S1 => evaluate dbg live e iv S1 C d).
  Proof. reflexivity. Qed.

  (** ** Public keys *)
  Lemma rf_det P Q z : rf P z -> rf Q z -> (pinf P = false -> pcur P = pcur Q) -> P = Q.
  Proof.
    intros [c [_ ->]] [c' [_ ->]] H. destruct (EccProofs.gk CV (val n z)) as [[u v]|]; [|reflexivity].
    cbn [inj pinf pcur] in H. specialize (H eq_refl). cbn [inj]. rewrite H. reflexivity.
  Qed.

  Lemma fin_any P z : rf P z -> z <> f0 n -> finite all_alive P.
  Proof.
    intros K N. destruct (rf_finite live CV good_CV P _ K N) as [I [X [Y [[c [E _]] Q]]]].
    split; [exact I|]. split; [exact X|]. split; [exact Y|]. split; [exists c; split; [exact E|reflexivity]|exact Q].
  Qed.

  (** a client that received the CRS of [D] *)
  Lemma received_drf c c' D a0 a1 b0 b1 : live c' = true -> drf D c a0 a1 b0 b1 ->
    a0 <> f0 n -> a1 <> f0 n -> b0 <> f0 n -> b1 <> f0 n -> drf (dme_new_crs c' (dcrs D)) c' a0 a1 b0 b1.
  Proof.
    intros L K A B A' B'. pose proof K as K0. destruct K0 as [E Lc X Y X' Y'].
    pose proof (fin_any _ _ X A) as F1.
    pose proof (fin_any _ _ Y B) as F2.
    pose proof (fin_any _ _ X' A') as F3.
    pose proof (fin_any _ _ Y' B') as F4.
    destruct (L_new_crs live c' (dcrs D) L F1 F2 F3 F4) as [OK SC].
    destruct (same_drf live _ _ _ _ _ _ _ K OK SC) as [c2 K2]. pose proof (dr_cur _ _ _ _ _ _ _ K2) as E2.
    cbn [dme_new_crs dcurve] in E2. injection E2 as <-. exact K2.
  Qed.

  Lemma KeyGen_cur c k b r kp : live c = true -> branch b -> KeyGen dbg live (dme_new_crs c k) b r = Ok kp ->
    (pinf (pg (kpk kp)) = false -> pcur (pg (kpk kp)) = Some c) /\ (pinf (ph (kpk kp)) = false -> pcur (ph (kpk kp)) = Some c).
  Proof.
    intros L B. unfold KeyGen. intros H. inv H.
    destruct B as [-> | ->]; cbn [Z.eqb Pos.eqb] in H; inv H; apply Ok_inj in H; subst kp; inv Q0; inv Q0; apply Ok_inj in Q0; subst v0; cbn [kpk pg ph];
      (split; intros I; [rewrite (L_C19_prov_mul _ _ CV good_CV _ _ _ Q1 I); reflexivity|rewrite (L_C19_prov_mul _ _ CV good_CV _ _ _ Q2 I); reflexivity]).
  Qed.

  Lemma KeyGen_same c k a0 a1 b0 b1 b r b' r' : drf (dme_new_crs c k) c a0 a1 b0 b1 -> branch b -> branch b' ->
    fmul n (mk r) (pick b a0 a1) = fmul n (mk r') (pick b' a0 a1) -> fmul n (mk r) (pick b b0 b1) = fmul n (mk r') (pick b' b0 b1) ->
    exists kp kp', KeyGen dbg live (dme_new_crs c k) b r = Ok kp /\ KeyGen dbg live (dme_new_crs c k) b' r' = Ok kp' /\ kpk kp = kpk kp'.
  Proof.
    intros K B B' E1 E2. pose proof (dr_live _ _ _ _ _ _ _ K) as L.
    destruct (KeyGen_rf dbg live _ c _ _ _ _ b r K B) as [kp [EK [X [Y _]]]].
    destruct (KeyGen_rf dbg live _ c _ _ _ _ b' r' K B') as [kp' [EK' [X' [Y' _]]]].
    exists kp, kp'. split; [exact EK|]. split; [exact EK'|].
    destruct (KeyGen_cur _ _ _ _ _ L B EK) as [C1 C2], (KeyGen_cur _ _ _ _ _ L B' EK') as [C1' C2'].
    rewrite <- E1 in X'. rewrite <- E2 in Y'.
    assert (G : pg (kpk kp) = pg (kpk kp')).
    { apply (rf_det _ _ _ X X'). intros I. rewrite (C1 I). symmetry. apply C1'.
      apply (rf_pinf_false live CV good_CV _ _ X'). apply (rf_pinf_false live CV good_CV _ _ X). exact I. }
    assert (H : ph (kpk kp) = ph (kpk kp')).
    { apply (rf_det _ _ _ Y Y'). intros I. rewrite (C2 I). symmetry. apply C2'.
      apply (rf_pinf_false live CV good_CV _ _ Y'). apply (rf_pinf_false live CV good_CV _ _ Y). exact I. }
    destruct (kpk kp) as [u v], (kpk kp') as [u' v']. cbn [pg ph] in G, H. subst u' v'. reflexivity.
  Qed.

  Lemma start_eq C x round r : cx C = Some x -> 1 <= round <= 16 ->
    runOTRound_start dbg live C round r =
    bind (KeyGen dbg live (rdme (otr C)) (round_bit x round) r)
      (fun kp => Ok (mkcli (mkrecv (rdme (otr C)) (ksk kp) (Some (round_bit x round))) (ccur C) (cx C) (result C) (key C), kpk kp)).
  Proof.
    intros X R. unfold runOTRound_start. rewrite X.
    pose proof (shl1_small (Z.to_nat (round - 1)) ltac:(lia)) as E. replace (Z.of_nat (S (Z.to_nat (round - 1))) - 1) with (round - 1) in E by lia.
    rewrite E. cbn [bind]. rewrite land_pow2 by lia. unfold round_bit. rewrite bit_testbit.
    unfold selectMsg. destruct (Z.testbit x (Z.of_nat (Z.to_nat (round - 1)))); cbn [Z.b2z];
      destruct (KeyGen dbg live (rdme (otr C)) _ r); cbn [bind fst snd]; rewrite ?X; reflexivity.
  Qed.

  Lemma round_bit_branch x r : branch (round_bit x r).
  Proof. apply bit_branch. Qed.

  (** ** C78 *)
  Section Dec.
    Variables (c c' r1 r2 r3 r4 : Z) (D : dme).
    Hypotheses (L : live c = true) (L' : live c' = true) (N1 : ~ (order | r1)) (N2 : ~ (order | r2)) (N3 : ~ (order | r3)).
    Hypothesis (ED : dme_new dbg live c dec r1 r2 r3 r4 = Ok D).

    Lemma dec_received : drf (dme_new_crs c' (dcrs D)) c' (mk r2) (fmul n (mk r1) (mk r2)) (fmul n (mk r3) (mk r2)) (fmul n (mk r3) (fmul n (mk r1) (mk r2))).
    Proof.
      destruct (new_dec_rf dbg live c r1 r2 r3 r4 L) as [D1 [E1 [_ K]]]. rewrite ED in E1. apply Ok_inj in E1. subst D1.
      pose proof N1 as M1. pose proof N2 as M2. pose proof N3 as M3. rewrite <- mk_order_0 in M1, M2, M3.
      assert (P : forall u v : F, u <> f0 n -> v <> f0 n -> fmul n u v <> f0 n).
      { intros u v U V Z0. apply fmul_0 in Z0; [|exact Hn]. tauto. }
      apply (received_drf c c' D _ _ _ _ L' K); auto.
    Qed.

    Lemma pick_pow b : branch b -> mk (r1 ^ b) = pick b (f1 n) (mk r1).
    Proof. intros [-> | ->]; unfold pick; cbn [Z.eqb Pos.eqb]; [reflexivity|]. rewrite Z.pow_1_r. reflexivity. Qed.
    Lemma pick_mul b u : branch b -> pick b u (fmul n (mk r1) u) = fmul n (mk (r1 ^ b)) u.
    Proof. intros B. rewrite (pick_pow b B). destruct B as [-> | ->]; unfold pick; cbn [Z.eqb Pos.eqb]; ring. Qed.
    Lemma pick_mul3 b u w : branch b -> pick b (fmul n w u) (fmul n w (fmul n (mk r1) u)) = fmul n (mk (r1 ^ b)) (fmul n w u).
    Proof. intros B. rewrite (pick_pow b B). destruct B as [-> | ->]; unfold pick; cbn [Z.eqb Pos.eqb]; ring. Qed.

    Lemma exchanges_same d f f' x x' : interchange r1 x x' f f' -> forall l, Forall (fun r => 1 <= r <= 16) l ->
      forall S C C1, rdme (otr C) = dme_new_crs c' (dcrs D) -> rdme (otr C1) = dme_new_crs c' (dcrs D) -> cx C = Some x -> cx C1 = Some x' ->
      exchanges dbg live S C (map (fun r => (r, sd_round (with_keys d f) r)) l) =
      exchanges dbg live S C1 (map (fun r => (r, sd_round (with_keys d f') r)) l).
    Proof.
      intros I l FL. induction FL as [|r l R FL IH]; intros S C C1 E E1 X X1; [reflexivity|].
      cbn [map exchanges]. cbn [with_keys sd_round rd_key rd_a rd_b rd_c rd_p rd_u rd_v].
      rewrite (start_eq C x r _ X R), (start_eq C1 x' r _ X1 R), E, E1.
      pose proof (round_bit_branch x r) as B. pose proof (round_bit_branch x' r) as B'.
      specialize (I r R). apply mk_order_eq in I. rewrite <- !mk_mul in I.
      destruct (KeyGen_same c' (dcrs D) _ _ _ _ (round_bit x r) (f r) (round_bit x' r) (f' r) dec_received B B') as [kp [kp' [K1 [K2 K3]]]].
      - rewrite !pick_mul by assumption. transitivity (fmul n (fmul n (mk (f r)) (mk (r1 ^ round_bit x r))) (mk r2)); [ring|]. rewrite <- I. ring.
      - rewrite !pick_mul3 by assumption.
        transitivity (fmul n (fmul n (mk (f r)) (mk (r1 ^ round_bit x r))) (fmul n (mk r3) (mk r2))); [ring|]. rewrite <- I. ring.
      - rewrite K1, K2. cbn [bind fst snd]. rewrite K3.
        destruct (runOTRound dbg live S r (kpk kp') _ _ _ _ _ _) as [[s a]|]; [|reflexivity]. cbn [bind fst snd].
        match goal with |- bind (exchanges _ _ s ?A ?u) _ = bind (exchanges _ _ s ?B ?v) _ => replace (exchanges dbg live s A u) with (exchanges dbg live s B v); [reflexivity|] end.
        symmetry. apply IH; cbn [otr rdme cx]; congruence.
    Qed.

    Lemma rounds_range : Forall (fun r => 1 <= r <= 16) rounds.
    Proof.
      apply Forall_forall. intros r H. unfold rounds in H. apply in_map_iff in H. destruct H as [j [<- H]].
      apply in_rev, in_seq in H. unfold MSG_BITS in H. lia.
    Qed.
    Lemma rounds_all r : 1 <= r <= 16 -> In r rounds.
    Proof.
      intros H. unfold rounds. apply in_map_iff. exists (Z.to_nat r). split; [lia|]. apply in_rev. rewrite rev_involutive. apply in_seq. unfold MSG_BITS. lia.
    Qed.

    Lemma L_C78_same S C d f f' x x' : rdme (otr C) = dme_new_crs c' (dcrs D) -> interchange r1 x x' f f' ->
      talk dbg live e iv S (setMessage C x) (with_keys d f) = talk dbg live e iv S (setMessage C x') (with_keys d f').
    Proof.
      intros E I. unfold talk, schedule. cbn [with_keys sd_prep sd_random sd_u sd_v].
      apply bind_cong. intros S1.
      rewrite (exchanges_same d f f' x x' I rounds rounds_range S1 (setMessage C x) (setMessage C x')); [reflexivity|exact E|exact E|reflexivity|reflexivity].
    Qed.

    (** keys under which two inputs publish the same *)
    Lemma exchanges_key d f f' x l : Forall (fun r => 1 <= r <= 16) l ->
      forall S S2 C C1 t T T', rdme (otr C) = dme_new_crs c' (dcrs D) -> rdme (otr C1) = dme_new_crs c' (dcrs D) -> cx C = Some x -> cx C1 = Some x ->
      exchanges dbg live S C (map (fun r => (r, sd_round (with_keys d f) r)) l) = Ok (T, t) ->
      exchanges dbg live S2 C1 (map (fun r => (r, sd_round (with_keys d f') r)) l) = Ok (T', t) ->
      forall r, In r l -> mk (f r) = mk (f' r).
    Proof.
      intros FL. induction FL as [|r l R FL IH]; intros S S2 C C1 t T T' E E1 X X1 H H1 s I; [destruct I|].
      cbn [map exchanges] in H, H1. cbn [with_keys sd_round rd_key rd_a rd_b rd_c rd_p rd_u rd_v] in H, H1.
      rewrite (start_eq C x r _ X R), E in H. rewrite (start_eq C1 x r _ X1 R), E1 in H1.
      destruct (KeyGen_rf dbg live _ c' _ _ _ _ (round_bit x r) (f r) dec_received (round_bit_branch x r)) as [kp [EK [KX _]]].
      destruct (KeyGen_rf dbg live _ c' _ _ _ _ (round_bit x r) (f' r) dec_received (round_bit_branch x r)) as [kp' [EK' [KX' _]]].
      rewrite EK in H. rewrite EK' in H1. cbn [bind fst snd] in H, H1. inv H. inv H. apply Ok_inj in H. inv H1. inv H1. apply Ok_inj in H1.
      destruct v0 as [T0 t0], v2 as [T1 t1]. cbn [fst snd] in H, H1. injection H as -> <-. injection H1 as -> PK _ TT. subst t1.
      destruct I as [<-|I].
      - rewrite <- PK in KX. pose proof (rf_fun live CV good_CV _ _ _ KX KX') as EQ. rewrite !pick_mul in EQ by apply round_bit_branch.
        pose proof N1 as M1. pose proof N2 as M2. rewrite <- mk_order_0 in M1, M2.
        assert (P : fmul n (mk (r1 ^ round_bit x r)) (mk r2) <> f0 n).
        { rewrite (pick_pow _ (round_bit_branch x r)). intros Z0. apply fmul_0 in Z0; [|exact Hn]. destruct Z0 as [Z0|Z0]; [|contradiction].
          destruct (round_bit_branch x r) as [W|W]; rewrite W in Z0; unfold pick in Z0; cbn [Z.eqb Pos.eqb] in Z0; [|contradiction].
          exact (F_1_neq_0 HF Z0). }
        assert (Z0 : fmul n (fsub n (mk (f r)) (mk (f' r))) (fmul n (mk (r1 ^ round_bit x r)) (mk r2)) = f0 n).
        { transitivity (fsub n (fmul n (mk (f r)) (fmul n (mk (r1 ^ round_bit x r)) (mk r2))) (fmul n (mk (f' r)) (fmul n (mk (r1 ^ round_bit x r)) (mk r2)))); [ring|].
          rewrite EQ. ring. }
        apply fmul_0 in Z0; [|exact Hn]. destruct Z0 as [Z0|Z0]; [|contradiction]. apply fsub0. exact Z0.
      - eapply (IH _ _ _ _ _ _ _ _ _ _ _ Q0 Q2 s I). Unshelve. all: cbn [otr rdme cx]; congruence.
    Qed.

    Lemma L_C78_hides S C d f x x' t : rdme (otr C) = dme_new_crs c' (dcrs D) ->
      talk dbg live e iv S (setMessage C x) (with_keys d f) = Ok t ->
      exists f', (forall r, draw (f' r)) /\ talk dbg live e iv S (setMessage C x') (with_keys d f') = Ok t /\
        forall g, (forall r, 1 <= r <= 16 -> draw (g r)) -> talk dbg live e iv S (setMessage C x') (with_keys d g) = Ok t ->
          forall r, 1 <= r <= 16 -> g r = f' r.
    Proof.
      intros E H. set (f' := fun r => val n (fdiv n (fmul n (mk (f r)) (mk (r1 ^ round_bit x r))) (mk (r1 ^ round_bit x' r)))).
      pose proof N1 as M1. rewrite <- mk_order_0 in M1.
      assert (I : interchange r1 x x' f f').
      { intros r R. apply mk_order_eq. rewrite <- !mk_mul. unfold f'. rewrite mk_val. field.
        rewrite (pick_pow _ (round_bit_branch x' r)). destruct (round_bit_branch x' r) as [W|W]; rewrite W; unfold pick; cbn [Z.eqb Pos.eqb]; [|exact M1].
        exact (F_1_neq_0 HF). }
      assert (H' : talk dbg live e iv S (setMessage C x') (with_keys d f') = Ok t) by (rewrite <- (L_C78_same S C d f f' x x' E I); exact H).
      exists f'. split; [intros r; apply val_draw|]. split; [exact H'|].
      intros g G HG r R. unfold talk, schedule in H', HG. cbn [with_keys sd_prep sd_random sd_u sd_v] in H', HG.
      inv H'. inv H'. inv H'. apply Ok_inj in H'. inv HG. inv HG. inv HG. apply Ok_inj in HG. destruct v0 as [T0 t0], v3 as [T1 t1]. cbn [fst snd] in *.
      subst t. injection HG as -> _.
      pose proof (exchanges_key d f' g x' rounds rounds_range _ _ (setMessage C x') (setMessage C x') _ _ _ E E eq_refl eq_refl Q0 Q3 r (rounds_all r R)) as EQ.
      rewrite <- (draw_val (g r)) by (apply G; exact R). rewrite <- EQ. unfold f'. rewrite mk_val. reflexivity.
    Qed.
  End Dec.
End Opprf5.
