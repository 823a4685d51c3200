(** Transcripts changed on one branch: proofs. *)
From Coq Require Import ZArith Znumtheory Bool List Lia Field.
From Verif Require Import Outcome FieldModel ZpField SpecField FieldProofs ECGroup ECOrder CurveParams CurveFacts EccModel EccProofs SpecEcc EccThms Emb RF.
From Verif Require Import DmeModel SpecDme DmeProofs DmeProofs2 OtModel SpecOt OtProofs OtProofs2 CrcModel AesModel SpecAes OpprfModel SpecOpprf SpecOpprf2 SpecOpprf3.
From Verif Require Import OpprfProofs OpprfProofs2 OpprfProofs3 OpprfProofs4 OpprfProofs5 OpprfProofs6 OpprfProofs7.
Import ListNotations.
Open Scope Z_scope.

Section Opprf9.
  Variables (dbg : bool) (live : Z -> bool) (e : env) (iv : list Z).
  Notation n := (fieldn CV).
  Let Hn : prime n := prime_n CV good_CV.
  Let HF := field_Fp n Hn.
  Add Field OpprfField9 : HF.
  Notation F := (Fp n).
  Notation rf := (rf live CV).
  Notation em := (em n).
  Notation mk := (mk n).
  Notation multiple := (multiple live).

  Ltac inv H := let a := fresh "v" in let E := fresh "Q" in apply bind_Ok in H; destruct H as [a [E H]].

  Lemma bind_ret' (A B : Type) (x : A) (f : A -> res B) : bind (Ok x) f = f x.
  Proof. reflexivity. Qed.

  (** ** Only the chosen branch matters *)
  Lemma start_branch C x r q C1 pk : cx C = Some x -> 1 <= r <= 16 -> runOTRound_start dbg live C r q = Ok (C1, pk) ->
    rbr (otr C1) = Some (round_bit x r) /\ cx C1 = Some x.
  Proof.
    intros X R E. rewrite (start_eq dbg live C x r q X R) in E. inv E. apply Ok_inj in E. injection E as <- <-. cbn [otr rbr cx]. split; [reflexivity|exact X].
  Qed.

  Lemma open_same R b k l l' : rbr R = Some b -> Forall2 (fun v v' => vat v b = vat v' b) l l' ->
    open_key dbg live e iv R k l = open_key dbg live e iv R k l'.
  Proof.
    intros B H. induction H as [|v v' l l' Hv _ IH]; [reflexivity|]. cbn [open_key]. unfold decryptMsgDecode, chosen. rewrite B, Hv, IH. reflexivity.
  Qed.
  Lemma vat0_same (A : Type) (P : A -> A -> Prop) l l' : Forall2 P l l' ->
    match vat l 0, vat l' 0 with Ok a, Ok b => P a b | Err f, Err g => f = g | _, _ => False end.
  Proof. intros [|a b l1 l2 H _]; [reflexivity|exact H]. Qed.

  Lemma end_same C b r c c' : rbr (otr C) = Some b -> Forall2 (fun v v' => vat v b = vat v' b) (oc c) (oc c') ->
    vat (ocprf c) b = vat (ocprf c') b -> runOTRound_end dbg live e iv C r c = runOTRound_end dbg live e iv C r c'.
  Proof.
    intros B H HP. unfold runOTRound_end. rewrite (open_same _ b (key C) _ _ B H).
    assert (Hd : decryptMsg dbg live (otr C) (ocprf c) = decryptMsg dbg live (otr C) (ocprf c')) by (unfold decryptMsg, chosen; rewrite B, HP; reflexivity).
    rewrite Hd.
    assert (Hz : (do v <- vat (oc c) 0; decryptMsgDecode dbg live (otr C) v) = (do v <- vat (oc c') 0; decryptMsgDecode dbg live (otr C) v)).
    { pose proof (vat0_same _ _ _ _ H) as V. destruct (vat (oc c) 0) as [v|], (vat (oc c') 0) as [v'|]; try contradiction V; [|rewrite V; reflexivity].
      rewrite !bind_ret'. unfold decryptMsgDecode, chosen. rewrite B, V. reflexivity. }
    rewrite Hz. reflexivity.
  Qed.

  Lemma replay_same x d l t t' : same_for x l t t' -> Forall (fun r => 1 <= r <= 16) l -> forall C, cx C = Some x ->
    replay dbg live e iv C (map (fun r => (r, sd_round d r)) l) t = replay dbg live e iv C (map (fun r => (r, sd_round d r)) l) t'.
  Proof.
    intros H. induction H as [l|r l m m' t t' H1 H2 _ IH]; intros FL C X; [reflexivity|].
    inversion FL as [|? ? R FL']; subst. cbn [map replay]. destruct m as [pk c], m' as [pk' c']. cbn [snd] in *.
    destruct (runOTRound_start dbg live C r (rd_key (sd_round d r))) as [[C1 p]|f] eqn:ES; [|reflexivity]. cbn [bind fst].
    destruct (start_branch C x r _ C1 p X R ES) as [B X1]. rewrite (end_same C1 _ r c c' B H1 H2).
    destruct (runOTRound_end dbg live e iv C1 r c') as [C2|f] eqn:EE; [|reflexivity]. cbn [bind].
    apply (IH FL'). rewrite (proj2 (end_voice dbg live e iv _ _ _ _ EE)). exact X1.
  Qed.

  Lemma L_C87_same C x d t t' : cx C = Some x -> same_for x rounds (tr_rounds t) (tr_rounds t') -> tr_masks t' = tr_masks t ->
    offline dbg live e iv C d t' = offline dbg live e iv C d t.
  Proof.
    intros X H M. unfold offline, schedule. rewrite (replay_same x d rounds _ _ H rounds_range C X), M. reflexivity.
  Qed.

  (** ** A missing branch *)
  Lemma vat_firstn0 (A : Type) (l : list A) : vat (firstn 1 l) 0 = vat l 0.
  Proof. destruct l; reflexivity. Qed.
  Lemma vat_firstn1 (A : Type) (l : list A) : vat (firstn 1 l) 1 = Err OutOfBounds.
  Proof. destruct l as [|a [|b l]]; reflexivity. Qed.
  Lemma cut_vectors l b : b = 0 -> Forall2 (fun v v' : list ctxt => vat v b = vat v' b) l (map (firstn 1) l).
  Proof. intros ->. induction l as [|v l IH]; constructor; [symmetry; apply vat_firstn0|exact IH]. Qed.
  Lemma same_vectors l b : Forall2 (fun v v' : list ctxt => vat v b = vat v' b) l l.
  Proof. induction l as [|v l IH]; constructor; [reflexivity|exact IH]. Qed.

  Lemma same_refl x l : forall t, (length t <= length l)%nat -> same_for x l t t.
  Proof.
    induction l as [|r l IH]; intros t LE; destruct t as [|m t]; [constructor|cbn in LE; lia|constructor|].
    constructor; [apply same_vectors|reflexivity|apply IH; cbn in LE; lia].
  Qed.
  Lemma cut_same x r0 l : round_bit x r0 = 0 -> forall t, (length t <= length l)%nat ->
    same_for x l t (map (fun z => if fst z =? r0 then cut (snd z) else snd z) (combine l t)).
  Proof.
    intros B. induction l as [|r l IH]; intros t LE; destruct t as [|m t]; [constructor|cbn in LE; lia|constructor|].
    cbn [combine map fst snd]. destruct (Z.eqb_spec r r0) as [->|N]; constructor; try (apply IH; cbn in LE; lia).
    - cbn [cut snd oc]. apply cut_vectors, B.
    - cbn [cut snd ocprf]. rewrite B. symmetry. apply vat_firstn0.
    - apply same_vectors.
    - reflexivity.
  Qed.

  Lemma end_cut C r m C1 : rbr (otr C) = Some 1 -> runOTRound_end dbg live e iv C r (snd m) = Ok C1 ->
    runOTRound_end dbg live e iv C r (snd (cut m)) = Err OutOfBounds.
  Proof.
    intros B E. unfold runOTRound_end in *. inv E. clear E. cbn [cut snd oc ocprf].
    destruct (r =? BITS).
    - inv Q. destruct (oc (snd m)) as [|v1 l]; [discriminate Q0|]. cbn [map].
      change (vat (firstn 1 v1 :: map (firstn 1) l) 0) with (Ok (firstn 1 v1)). rewrite bind_ret'.
      unfold decryptMsgDecode, chosen. rewrite B, vat_firstn1. reflexivity.
    - inv Q. destruct (oc (snd m)) as [|v1 l].
      + cbn [open_key] in Q0. apply Ok_inj in Q0. subst v0. destruct dbg; discriminate Q.
      + cbn [map open_key]. unfold decryptMsgDecode at 1, chosen. rewrite B, vat_firstn1. reflexivity.
  Qed.

  Lemma replay_cut x d r0 l : round_bit x r0 = 1 -> In r0 l -> Forall (fun r => 1 <= r <= 16) l -> forall t C C1, length t = length l -> cx C = Some x ->
    replay dbg live e iv C (map (fun r => (r, sd_round d r)) l) t = Ok C1 ->
    replay dbg live e iv C (map (fun r => (r, sd_round d r)) l) (map (fun z => if fst z =? r0 then cut (snd z) else snd z) (combine l t)) = Err OutOfBounds.
  Proof.
    intros B. induction l as [|r l IH]; intros I FL t C C1 LE X E; [contradiction|].
    destruct t as [|m t]; [discriminate LE|]. inversion FL as [|? ? R FL']; subst. cbn [combine map fst snd replay] in *.
    destruct m as [pk c]. inv E. inv E. destruct v as [Cs p]. cbn [fst] in *. destruct (start_branch C x r _ Cs p X R Q) as [BR X1].
    destruct (Z.eqb_spec r r0) as [->|N].
    - cbn [cut fst snd]. rewrite Q. rewrite bind_ret'. cbn [fst]. rewrite B in BR.
      pose proof (end_cut Cs r0 (pk, c) v0 BR Q0) as EC. cbn [cut snd] in EC. rewrite EC. reflexivity.
    - destruct I as [->|I]; [congruence|]. rewrite Q. rewrite bind_ret'. cbn [fst]. rewrite Q0, bind_ret'.
      apply (IH I FL' t v0 C1); [injection LE; auto| |exact E].
      rewrite (proj2 (end_voice dbg live e iv _ _ _ _ Q0)). exact X1.
  Qed.

  Lemma rounds_length : length rounds = 16%nat.
  Proof. reflexivity. Qed.

  Lemma L_C87_cut C x d t C1 r : cx C = Some x -> 1 <= r <= 16 -> length (tr_rounds t) = 16%nat -> offline dbg live e iv C d t = Ok C1 ->
    offline dbg live e iv C d (cut_round r t) = if round_bit x r =? 0 then Ok C1 else Err OutOfBounds.
  Proof.
    intros X R LE E. destruct (round_bit_branch x r) as [B|B]; rewrite B; cbn [Z.eqb].
    - rewrite <- E. apply (L_C87_same C x d t (cut_round r t) X); [|reflexivity].
      apply cut_same; [exact B|]. rewrite LE, rounds_length. constructor.
    - unfold offline, schedule in *. inv E. cbn [cut_round tr_rounds tr_masks].
      rewrite (replay_cut x d r rounds B (rounds_all r R) rounds_range (tr_rounds t) C v); [reflexivity| |exact X|exact Q].
      rewrite LE, rounds_length. reflexivity.
  Qed.

  Lemma L_C87_reads C x d t C1 : cx C = Some x -> 0 <= x < 2 ^ 16 -> length (tr_rounds t) = 16%nat -> offline dbg live e iv C d t = Ok C1 ->
    number (map (fun r => match offline dbg live e iv C d (cut_round r t) with Ok _ => 0 | Err _ => 1 end) rounds) = x.
  Proof.
    intros X B LE E. rewrite <- (number_rounds x B). apply (f_equal number). apply map_ext_in. intros r I.
    pose proof (proj1 (Forall_forall _ _) rounds_range r I) as R. cbv beta in R.
    rewrite (L_C87_cut C x d t C1 r X R LE E). destruct (round_bit_branch x r) as [->| ->]; reflexivity.
  Qed.

  (** ** Different shifts for the two branches *)
  Lemma end_tilt C C' k0 b k r m m' C1 s : apart live k0 C C' -> rsk (otr C) = em s -> s <> f0 n -> branch b -> rbr (otr C) = Some b -> tilt_round live k m m' ->
    runOTRound_end dbg live e iv C r (snd m) = Ok C1 ->
    exists C1', runOTRound_end dbg live e iv C' r (snd m') = Ok C1' /\ apart live (fadd n k0 (mk (if b =? 0 then fst k else snd k))) C1 C1'.
  Proof.
    intros A SK N Hb RB [EO [c0 [c1 [c0' [c1' [P1 [P2 [S0 S1]]]]]]]] E. destruct A as [A1 A2 A3 A4 [z [Kz Kz']]]. unfold runOTRound_end in *. rewrite A1, A4, EO.
    inv E. rewrite Q. cbn [bind]. inv E. inv E. apply Ok_inj in E. subst C1.
    unfold decryptMsg in *. inv Q0. unfold chosen in *. rewrite RB in *. rewrite P1 in Q2. rewrite P2. rewrite (vat_pick b c0 c1 Hb) in Q2. rewrite (vat_pick b c0' c1' Hb).
    apply Ok_inj in Q2. cbn [bind].
    assert (HS : shift_ctxt live (if b =? 0 then fst k else snd k) v2 (if b =? 0 then c0' else c1')).
    { subst v2. destruct Hb as [-> | ->]; cbn [Z.eqb Pos.eqb]; assumption. }
    rewrite SK in *.
    destruct (Dec_shift dbg live s _ _ _ N HS) as [P [P' [w [D1 [D2 [KP KP']]]]]]. rewrite Q0 in D1. apply Ok_inj in D1. subst P. rewrite D2. cbn [bind].
    destruct (padd_rf dbg live CV good_CV _ _ _ _ Kz KP) as [R [ER KR]]. rewrite Q1 in ER. apply Ok_inj in ER. subst R.
    destruct (padd_rf dbg live CV good_CV _ _ _ _ Kz' KP') as [R' [ER' KR']]. rewrite ER'. cbn [bind].
    eexists. split; [reflexivity|]. constructor; cbn [otr ccur cx key result]; try assumption; try reflexivity.
    exists (fadd n z w). split; [exact KR|]. apply (rf_cong live CV _ _ _ KR'). ring.
  Qed.

  Lemma replay_tilt d x ks t t' : tilt_rounds live ks t t' -> forall l, Forall (fun r => 1 <= r <= 16) l ->
    (forall r, 1 <= r <= 16 -> ~ (order | rd_key (sd_round d r))) ->
    forall C C' k0 C1, (length t <= length l)%nat -> apart live k0 C C' -> dme_ok live (rdme (otr C)) -> cx C = Some x ->
    replay dbg live e iv C (map (fun r => (r, sd_round d r)) l) t = Ok C1 ->
    exists C1', replay dbg live e iv C' (map (fun r => (r, sd_round d r)) l) t' = Ok C1' /\ apart live (fadd n k0 (mk (tilted x l ks))) C1 C1'.
  Proof.
    intros SH. induction SH as [|k ks m m' t t' HM SH IH]; intros l FL NK C C' k0 C1 LE A OK X E.
    - assert (E' : C1 = C) by (destruct l; cbn [map replay] in E; apply Ok_inj in E; congruence). subst C1.
      exists C'. split; [destruct l; reflexivity|]. destruct A as [A1 A2 A3 A4 [z [K1 K2]]]. constructor; try assumption.
      exists z. split; [exact K1|]. apply (rf_cong live CV _ _ _ K2).
      assert (T0 : tilted x l [] = 0) by (destruct l; reflexivity). rewrite T0. change (mk 0) with (f0 n). ring.
    - destruct FL as [|r l R FL]; [cbn in LE; lia|]. cbn [map replay tilted] in *. destruct m as [pk c], m' as [pk' c'].
      inv E. destruct v as [Cs p0]. cbn [fst] in *. inv E.
      destruct (start_branch C x r _ Cs p0 X R Q) as [RB _].
      destruct (start_shift dbg live C C' k0 r _ x Cs p0 A OK X R Q) as [Cs' [ES [A' [SK [ED X']]]]]. rewrite ES. cbn [bind fst].
      pose proof (NK r R) as NR. rewrite <- mk_order_0 in NR.
      destruct (end_tilt Cs Cs' k0 _ k r (pk, c) (pk', c') v _ A' SK NR (round_bit_branch x r) RB HM Q0) as [C2' [EE A2]]. cbn [snd] in EE. rewrite EE. cbn [bind].
      pose proof (end_voice dbg live e iv _ _ _ _ Q0) as [V1 V2].
      destruct (IH l FL NK v C2' _ C1 ltac:(cbn in LE; lia) A2 ltac:(rewrite V1, ED; exact OK) ltac:(rewrite V2; exact X') E) as [C1' [ER A3]].
      exists C1'. split; [exact ER|]. destruct A3 as [B1 B2 B3 B4 [z [K1 K2]]]. constructor; try assumption. exists z. split; [exact K1|].
      apply (rf_cong live CV _ _ _ K2). rewrite <- mk_add. ring.
  Qed.

  Lemma L_C88_tilt C x d ks t t' C1 : dme_ok live (rdme (otr C)) -> cx C = Some x -> is_valid live (result C) ->
    (forall r, 1 <= r <= 16 -> ~ (order | rd_key (sd_round d r))) -> (length (tr_rounds t) <= 16)%nat ->
    tilt_rounds live ks (tr_rounds t) (tr_rounds t') -> tr_masks t' = tr_masks t -> offline dbg live e iv C d t = Ok C1 ->
    exists C1', offline dbg live e iv C d t' = Ok C1' /\ key C1' = key C1 /\ is_valid live (result C1') /\
      den CV (result C1') = gadd CV (den CV (result C1)) (gmul CV (tilted x rounds ks) (ggen CV)).
  Proof.
    intros OK X V NK LE SH EM E. destruct (val_rf live _ V) as [z K].
    assert (A : apart live (f0 n) C C).
    { constructor; try reflexivity. exists z. split; [exact K|]. apply (rf_cong live CV _ _ _ K). ring. }
    unfold offline, schedule in *. inv E.
    destruct (replay_tilt d x ks _ _ SH rounds rounds_range NK C C (f0 n) v LE A OK X Q) as [C' [ER A']]. rewrite ER. cbn [bind]. rewrite EM.
    destruct (unmask_shift dbg live e iv _ _ _ _ _ _ A' E) as [C1' [EU A2]]. exists C1'. split; [exact EU|]. destruct A2 as [_ _ _ AK [w [W W']]].
    split; [exact AK|]. split; [exact (rf_val live _ _ W')|].
    rewrite (rf_den live CV _ _ W), (rf_den live CV _ _ W'). set (T := tilted x rounds ks) in *. clearbody T.
    change (EccProofs.gk CV (val n (fadd n w (fadd n (f0 n) (mk T)))) = gadd CV (EccProofs.gk CV (val n w)) (EccProofs.gk CV T)).
    unfold gadd. rewrite (gk_add CV good_CV). apply (gk_eq CV good_CV), (mkn_eq CV good_CV). rewrite mk_val, <- mk_add, mk_val. ring.
  Qed.

  (** ** Another secret *)
  Lemma tilted_weighted x k : 0 <= x < 2 ^ 16 -> tilted x rounds (weighted k) = k * x.
  Proof.
    intros B. rewrite <- (number_rounds x B) at 2.
    unfold weighted, number. change rounds with [16;15;14;13;12;11;10;9;8;7;6;5;4;3;2;1].
    cbn [map tilted fold_left fst snd].
    assert (H : forall r w, (if round_bit x r =? 0 then 0 else k * w) = k * (w * round_bit x r)).
    { intros r w. destruct (round_bit_branch x r) as [-> | ->]; cbn [Z.eqb]; lia. }
    rewrite !H. repeat match goal with |- context [2 ^ (?a - 1)] => let v := eval vm_compute in (2 ^ (a - 1)) in change (2 ^ (a - 1)) with v end.
    ring.
  Qed.

  Lemma good_keys crs D th a x d : good_draws dbg live e iv crs D th a x d -> crs_valid live crs -> 
    forall r, 1 <= r <= 16 -> ~ (order | rd_key (sd_round d r)).
  Proof.
    intros GD V r R D1.
    pose proof (gd_ot_prf _ _ _ _ _ _ _ _ _ _ GD (Z.to_nat (r - 1)) ltac:(lia)) as H. cbv zeta in H.
    replace (Z.of_nat (S (Z.to_nat (r - 1)))) with r in H by lia.
    destruct (crs_g_valid live (bit x (Z.to_nat (r - 1))) crs V) as [VG VH].
    destruct (valid_multiple live _ VG) as [g MG]. destruct (valid_multiple live _ VH) as [h MH].
    destruct (H g h MG MH) as [H1 _]. apply H1. apply Z.divide_mul_l. exact D1.
  Qed.

  Lemma L_C88_secret S C d a x z k : aes_ready e iv -> server_ready live S a -> client_ready live C x ->
    same_crs (dcrs (sdme (ots S))) (dcrs (rdme (otr C))) ->
    good_draws dbg live e iv (dcrs (rdme (otr C))) (sdme (ots S)) (theta S) a x d -> multiple (result C) z ->
    exists t, talk dbg live e iv S C d = Ok t /\
      forall t', tilt_rounds live (weighted k) (tr_rounds t) (tr_rounds t') -> tr_masks t' = tr_masks t ->
      exists C', offline dbg live e iv C d t' = Ok C' /\ multiple (result C') (z + outcome_log d (theta S) (a + k) x).
  Proof.
    intros A SR CR SC GD MZ. destruct (L_session dbg live e iv S C d a x z A SR CR SC GD MZ) as [S1 [C1 [ES [_ [_ [_ [_ [_ M]]]]]]]].
    destruct (L_session_talk dbg live e iv S C d S1 C1 ES) as [t [T O]]. exists t. split; [exact T|]. intros t' TI EM.
    destruct (cr_x _ _ _ CR) as [X B].
    assert (LE : (length (tr_rounds t) <= 16)%nat).
    { assert (L : forall ks t1 t2, tilt_rounds live ks t1 t2 -> length t1 = length ks) by (induction 1; cbn [length]; congruence).
      rewrite (L _ _ _ TI). unfold weighted. rewrite map_length, rounds_length. constructor. }
    assert (VC : crs_valid live (dcrs (rdme (otr C)))).
    { exact (proj2 (cr_otr _ _ _ CR)). }
    destruct (L_C88_tilt C x d (weighted k) t t' C1 (cr_otr _ _ _ CR) X (cr_result _ _ _ CR) (good_keys _ _ _ _ _ _ GD VC) LE TI EM O)
      as [C1' [O' [_ [V' R]]]].
    exists C1'. split; [exact O'|]. split; [exact V'|]. rewrite R. destruct M as [_ ->]. rewrite (tilted_weighted x k B).
    change (gadd CV (EccProofs.gk CV (z + outcome_log d (theta S) a x)) (EccProofs.gk CV (k * x)) = EccProofs.gk CV (z + outcome_log d (theta S) (a + k) x)).
    unfold gadd. rewrite (gk_add CV good_CV). f_equal. unfold outcome_log. generalize (sum_to (d_ok (sd_prep d)) 16). intros w. cbv zeta. generalize (d_r (sd_prep d)), (sd_random d), (d_kopprf (sd_prep d)). intros u1 u2 u3. clear. destruct (x ?= theta S); ring.
  Qed.
End Opprf9.
