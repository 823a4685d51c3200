(** A receiver that sends a point of order three which is not on the curve: transfers and the oblivious PRF. *)
From Coq Require Import ZArith Znumtheory Bool List Lia.
From Verif Require Import Outcome FieldModel ZpField SpecField FieldProofs ECGroup ECOrder CurveParams CurveFacts EccModel EccProofs SpecEcc EccThms Emb RF DmeModel SpecDme DmeProofs OtModel OtProofs SpecCount CountMath SpecDdh SpecDdh3 DdhProofs DdhProofs2 DdhCases DdhMany DdhMany2 DdhHear DdhHear5 CheatProofs2 SpecTrick TrickProofs.
From Verif Require Import CrcModel AesModel SpecAes OpprfModel SpecOpprf SpecOpprf6 OpprfProofs OpprfProofs2 OpprfProofs3 OpprfProofs13 OpprfProofs14 OpprfProofs15 TestProofs2.
Import ListNotations.
Open Scope Z_scope.

Section Trick.
  Variables (dbg : bool) (live : Z -> bool).
  Notation guesses := (guesses dbg live).
  Definition told (c : Z) (ct : ctxt) (m : point) : Prop := exists M, In (Ok M) (guesses c ct) /\ is_valid live M /\ same_point M m.
  Definition third_of (s t : Z) : Prop := (s + t) mod 3 = 0.

  Lemma inj_isValid c E : isValid dbg live CV (inj CV c E) = Ok true -> is_valid live (inj CV c E).
  Proof.
    apply (L_C17_valid dbg live CV good_CV); destruct E as [[x y]|]; cbn [inj px py pinf]; try apply (emb_canon CV good_CV); try discriminate; try reflexivity.
    - unfold pt_inf. cbn [px]. rewrite (emb_default CV). apply (emb_canon CV good_CV).
    - unfold pt_inf. cbn [py]. rewrite (emb_default CV). apply (emb_canon CV good_CV).
  Qed.
  Lemma sum_inj c k m R : live c = true -> is_valid live m -> padd dbg live CV (inj CV c (T k)) m = Ok R -> is_valid live R \/ exists E, R = inj CV c E.
  Proof.
    intros L V E. destruct (valid_inj live CV good_CV m V) as [c' [F [HE [LV ->]]]].
    rewrite (OffProofs.padd_y dbg live CV good_CV (T k) F c c' (fun _ => L) LV (T_y k)) in E. injection E as <-.
    destruct (T k) as [u|]; [right; eexists; reflexivity|]. left. exact V.
  Qed.

  (** the second part of a ciphertext says the message *)
  Lemma part c k m ct : live c = true -> is_valid live m -> padd dbg live CV (inj CV c (T k)) m = Ok (cmv ct) ->
    told c ct m /\ (isValid dbg live CV (cmv ct) = Ok true -> same_point (cmv ct) m \/ gadd CV (den CV (cmv ct)) (den CV m) = None) /\ (same_point (cmv ct) m <-> k mod 3 = 0).
  Proof.
    intros L V E. destruct (masked dbg live c k m L V) as [R [E' [H0 H1]]]. rewrite E in E'. injection E' as <-.
    destruct (Z.eq_dec (k mod 3) 0) as [Z0|N].
    - specialize (H0 Z0). split; [|split].
      + exists (cmv ct). rewrite H0. split; [|split; [exact V|reflexivity]]. left. rewrite H0. reflexivity.
      + intros _. left. rewrite H0. reflexivity.
      + split; [intros _; exact Z0|intros _; rewrite H0; reflexivity].
    - destruct (H1 N) as [NS [[M [EM [VM SM]]] HV]]. split; [|split].
      + exists M. split; [|split; assumption]. unfold SpecTrick.guesses. destruct (mod3 k) as [F|[F|F]]; [contradiction| |].
        * right. right. left. rewrite <- EM, <- inj_T2. rewrite (T_mod (- k) 2); [reflexivity|]. pose proof (Z_div_mod_eq_full k 3). rewrite F in *. replace (- k) with (2 + (- (k / 3) - 1) * 3) by lia. apply Z_mod_plus_full.
        * right. left. rewrite <- EM, <- inj_T1. rewrite (T_mod (- k) 1); [reflexivity|]. pose proof (Z_div_mod_eq_full k 3). rewrite F in *. replace (- k) with (1 + (- (k / 3) - 1) * 3) by lia. apply Z_mod_plus_full.
      + intros IV. right. apply HV. destruct (sum_inj c k m _ L V E) as [W|[F W]]; [exact W|]. rewrite W in IV |- *. exact (inj_isValid c F IV).
      + split; [intros S; contradiction|intros S; contradiction].
  Qed.

  Lemma enc_trick D c b m s t : dme_ok live D -> live c = true -> branch b -> is_valid live m ->
    exists ct, Enc dbg live D (trick_key c) b m s t = Ok ct /\ padd dbg live CV (inj CV c (T (s mod order + t mod order))) m = Ok (cmv ct).
  Proof.
    intros OK L Hb V. destruct (ok_like live D OK) as [d [a0 [a1 [b0 [b1 [E LD A B A' B']]]]]].
    unfold Enc. rewrite E, !(getRandomScalar_em live CV d _ LD). cbn [bind trick_key pg ph].
    assert (F : forall z, fval (em (fieldn CV) (ZpField.mk (fieldn CV) z)) = z mod order) by (intros z; reflexivity).
    assert (F0 : forall z, 0 <= z mod order) by (intros z; apply Z.mod_pos_bound; reflexivity).
    rewrite (trick_mul dbg live c (em (fieldn CV) (ZpField.mk (fieldn CV) s)) L), (trick_mul dbg live c (em (fieldn CV) (ZpField.mk (fieldn CV) t)) L) by (rewrite F; apply F0).
    cbn [bind]. rewrite (trick_add dbg live c _ _ L), !F. cbn [bind]. destruct (masked dbg live c (s mod order + t mod order) m L V) as [R [ER _]].
    destruct Hb as [-> | ->]; cbn [Z.eqb Pos.eqb].
    - destruct (like_mul' dbg live _ _ s A) as [P4 [-> L4]]. cbn [bind]. destruct (like_mul' dbg live _ _ t A') as [P5 [-> L5]]. cbn [bind]. destruct (like_add dbg live _ _ _ _ L4 L5) as [P6 [-> L6]]. cbn [bind].
      rewrite ER. cbn [bind]. eexists. split; [reflexivity|reflexivity].
    - destruct (like_mul' dbg live _ _ s B) as [P4 [-> L4]]. cbn [bind]. destruct (like_mul' dbg live _ _ t B') as [P5 [-> L5]]. cbn [bind]. destruct (like_add dbg live _ _ _ _ L4 L5) as [P6 [-> L6]]. cbn [bind].
      rewrite ER. cbn [bind]. eexists. split; [reflexivity|reflexivity].
  Qed.
  Lemma two_parts S c m0 m1 s0 t0 s1 t1 : dme_ok live (sdme S) -> live c = true -> is_valid live m0 -> is_valid live m1 ->
    exists S' c0 c1, encMsgs dbg live S (trick_key c) m0 m1 s0 t0 s1 t1 = Ok (S', [c0; c1]) /\ sdme S' = sdme S /\
      padd dbg live CV (inj CV c (T (s0 mod order + t0 mod order))) m0 = Ok (cmv c0) /\ padd dbg live CV (inj CV c (T (s1 mod order + t1 mod order))) m1 = Ok (cmv c1).
  Proof.
    intros OK L V0 V1. unfold encMsgs. destruct (enc_trick _ c 0 m0 s0 t0 OK L (or_introl eq_refl) V0) as [c0 [-> E0]].
    destruct (enc_trick _ c 1 m1 s1 t1 OK L (or_intror eq_refl) V1) as [c1 [-> E1]]. cbn [bind app]. do 3 eexists. split; [reflexivity|]. split; [reflexivity|]. split; assumption.
  Qed.

  Lemma L_C118_off c : live c = true -> isValid dbg live CV (trick c) = Ok false /\ pinf (trick c) = false.
  Proof.
    intros L. split; [|reflexivity]. pose proof (inj_isValid c (T 1)) as H. rewrite inj_T1 in H.
    assert (W : exists b, isValid dbg live CV (trick c) = Ok b).
    { rewrite (L_C17_canonical dbg live CV good_CV); [|unfold trick, pt_z; cbn [px]; rewrite (emb_new CV good_CV); apply (emb_canon CV good_CV)|unfold trick, pt_z; cbn [py]; rewrite (emb_new CV good_CV); apply (emb_canon CV good_CV)].
      cbn [trick pt_z pinf pcur]. rewrite L. eexists. reflexivity. }
    destruct W as [[|] W]; [|exact W]. specialize (H W). rewrite <- inj_T1 in H. apply (valid_eon live CV good_CV) in H. rewrite (den_inj CV) in H. destruct (off_T 1 ltac:(discriminate) H).
  Qed.

  Lemma L_C118_guesses S c m0 m1 s0 t0 s1 t1 : dme_ok live (sdme S) -> live c = true -> is_valid live m0 -> is_valid live m1 ->
    exists S' c0 c1, encMsgs dbg live S (trick_key c) m0 m1 s0 t0 s1 t1 = Ok (S', [c0; c1]) /\ 
      (exists M, In (Ok M) (guesses c c0) /\ is_valid live M /\ same_point M m0) /\ (exists M, In (Ok M) (guesses c c1) /\ is_valid live M /\ same_point M m1).
  Proof.
    intros OK L V0 V1. destruct (two_parts S c m0 m1 s0 t0 s1 t1 OK L V0 V1) as [S' [c0 [c1 [E [_ [E0 E1]]]]]]. exists S', c0, c1. split; [exact E|].
    split; [exact (proj1 (part c _ m0 c0 L V0 E0))|exact (proj1 (part c _ m1 c1 L V1 E1))].
  Qed.
  Lemma L_C118_known S c m0 m1 s0 t0 s1 t1 S' c0 c1 : dme_ok live (sdme S) -> live c = true -> is_valid live m0 -> is_valid live m1 ->
    encMsgs dbg live S (trick_key c) m0 m1 s0 t0 s1 t1 = Ok (S', [c0; c1]) ->
    (isValid dbg live CV (cmv c0) = Ok true -> same_point (cmv c0) m0 \/ gadd CV (den CV (cmv c0)) (den CV m0) = None) /\
    (isValid dbg live CV (cmv c1) = Ok true -> same_point (cmv c1) m1 \/ gadd CV (den CV (cmv c1)) (den CV m1) = None).
  Proof.
    intros OK L V0 V1 H. destruct (two_parts S c m0 m1 s0 t0 s1 t1 OK L V0 V1) as [S2 [d0 [d1 [E [_ [E0 E1]]]]]]. rewrite H in E.
    assert (c0 = d0 /\ c1 = d1) as [-> ->] by (split; congruence).
    split; [exact (proj1 (proj2 (part c _ m0 d0 L V0 E0)))|exact (proj1 (proj2 (part c _ m1 d1 L V1 E1)))].
  Qed.

  (** ** How often *)
  Lemma residues r : 0 <= r < 3 -> how_many (fun z => draw z /\ z mod 3 = r) (if r =? 0 then (order - 1) / 3 + 1 else (order - 1) / 3).
  Proof.
    intros R. assert (O3 : order = 3 * ((order - 1) / 3) + 1) by reflexivity. set (k := (order - 1) / 3) in *.
    assert (K0 : 0 <= k) by (apply Z.div_pos; vm_compute; congruence). clearbody k.
    set (n := if r =? 0 then k + 1 else k). assert (H : how_many (fun i => 0 <= i < n) n).
    { assert (N0 : 0 <= n) by (unfold n; destruct (r =? 0); lia). clearbody n. pose proof (range_count 0 n N0) as W. rewrite Z.sub_0_r in W. exact W. }
    refine (how_many_map (fun i => 3 * i + r) _ _ _ H _ _).
    - intros x y _ _ E. lia.
    - intros z. unfold draw. split.
      + intros [D M]. exists (z / 3). pose proof (Z_div_mod_eq_full z 3) as Q. rewrite M in Q. split; [|lia]. unfold n. destruct (Z.eqb_spec r 0); lia.
      + intros [i [I <-]]. unfold n in I. split; [destruct (Z.eqb_spec r 0); lia|]. rewrite Z.add_comm, Z.mul_comm, Z_mod_plus_full. apply Z.mod_small. exact R.
  Qed.
  Lemma third_cases u v : (u + v) mod 3 = 0 <-> (u mod 3 = 0 /\ v mod 3 = 0) \/ (u mod 3 = 1 /\ v mod 3 = 2) \/ (u mod 3 = 2 /\ v mod 3 = 1).
  Proof. rewrite Zplus_mod. destruct (mod3 u) as [E|[E|E]], (mod3 v) as [F|[F|F]]; rewrite E, F; cbn; lia. Qed.
  Lemma third_sum (A B : Prop) u v : (A /\ B) /\ third_of u v <-> (((A /\ u mod 3 = 0) /\ B /\ v mod 3 = 0) \/ ((A /\ u mod 3 = 1) /\ B /\ v mod 3 = 2)) \/ ((A /\ u mod 3 = 2) /\ B /\ v mod 3 = 1).
  Proof. unfold third_of. rewrite third_cases. tauto. Qed.
  Lemma thirds : how_many (fun z : Z * Z => (draw (fst z) /\ draw (snd z)) /\ third_of (fst z) (snd z)) ((order ^ 2 + 2) / 3).
  Proof.
    pose proof (how_many_prod _ _ _ _ (residues 0 ltac:(lia)) (residues 0 ltac:(lia))) as H0.
    pose proof (how_many_prod _ _ _ _ (residues 1 ltac:(lia)) (residues 2 ltac:(lia))) as H1.
    pose proof (how_many_prod _ _ _ _ (residues 2 ltac:(lia)) (residues 1 ltac:(lia))) as H2. cbn [Z.eqb Pos.eqb] in H0, H1, H2.
    assert (H01 := how_many_or _ _ _ _ H0 H1). assert (J01 : how_many (fun x : Z * Z => ((draw (fst x) /\ fst x mod 3 = 0) /\ draw (snd x) /\ snd x mod 3 = 0) \/ ((draw (fst x) /\ fst x mod 3 = 1) /\ draw (snd x) /\ snd x mod 3 = 2)) (((order - 1) / 3 + 1) * ((order - 1) / 3 + 1) + (order - 1) / 3 * ((order - 1) / 3))).
    { apply H01. intros [u v]. cbn [fst snd]. lia. }
    assert (J := how_many_or _ _ _ _ J01 H2). assert (C : ((order - 1) / 3 + 1) * ((order - 1) / 3 + 1) + (order - 1) / 3 * ((order - 1) / 3) + (order - 1) / 3 * ((order - 1) / 3) = (order ^ 2 + 2) / 3) by (vm_compute; reflexivity).
    rewrite C in J. refine (how_many_same _ _ _ _ (J _)).
    - intros [u v]. cbn [fst snd]. symmetry. apply third_sum.
    - intros [u v]. cbn [fst snd]. lia.
  Qed.
  Lemma L_C118_often S c m0 m1 : dme_ok live (sdme S) -> live c = true -> is_valid live m0 -> is_valid live m1 ->
    how_many (fun '(s0, t0, s1, t1) => draw s0 /\ draw t0 /\ draw s1 /\ draw t1 /\
      exists S' c0 c1, encMsgs dbg live S (trick_key c) m0 m1 s0 t0 s1 t1 = Ok (S', [c0; c1]) /\ same_point (cmv c0) m0 /\ same_point (cmv c1) m1)
      (((order ^ 2 + 2) / 3) ^ 2).
  Proof.
    intros OK L V0 V1. rewrite Z.pow_2_r.
    refine (how_many_map (fun z : (Z * Z) * (Z * Z) => (fst (fst z), snd (fst z), fst (snd z), snd (snd z))) _ _ _ (how_many_prod _ _ _ _ thirds thirds) _ _).
    - intros [[a b] [c' d]] [[a' b'] [c'' d']] _ _ E. cbn [fst snd] in E. congruence.
    - intros [[[s0 t0] s1] t1]. destruct (two_parts S c m0 m1 s0 t0 s1 t1 OK L V0 V1) as [S' [c0 [c1 [E [_ [E0 E1]]]]]].
      pose proof (proj2 (proj2 (part c _ m0 c0 L V0 E0))) as P0. pose proof (proj2 (proj2 (part c _ m1 c1 L V1 E1))) as P1.
      assert (MD : forall z, draw z -> z mod order = z) by (intros z D; apply Z.mod_small; exact D). split.
      + intros [D0 [D1 [D2 [D3 [S2 [d0 [d1 [E' [Q0 Q1]]]]]]]]]. rewrite E in E'. assert (c0 = d0 /\ c1 = d1) as [<- <-] by (split; congruence).
        rewrite !MD in P0, P1 by assumption. exists ((s0, t0), (s1, t1)). cbn [fst snd]. split; [|reflexivity]. unfold third_of. tauto.
      + intros [[[a b] [c' d]] [H EQ]]. cbn [fst snd] in H, EQ. assert (a = s0 /\ b = t0 /\ c' = s1 /\ d = t1) as [-> [-> [-> ->]]] by (split; [|split; [|split]]; congruence).
        destruct H as [[[D0 D1] H0] [[D2 D3] H1]]. rewrite !MD in P0, P1 by assumption. split; [exact D0|]. split; [exact D1|]. split; [exact D2|]. split; [exact D3|].
        exists S', c0, c1. split; [exact E|]. split; [apply P0; exact H0|apply P1; exact H1].
  Qed.

  (** ** The oblivious PRF *)
  Lemma encP_trick V c m0 m1 q : dme_ok live (sdme (ots V)) -> live c = true -> is_valid live m0 -> is_valid live m1 ->
    exists o c0 c1, encP dbg live V (trick_key c) m0 m1 q = Ok (set_ots V o, [c0; c1]) /\ sdme o = sdme (ots V) /\ told c c0 m0 /\ told c c1 m1.
  Proof.
    intros OK L V0 V1. unfold encP. destruct (two_parts (ots V) c m0 m1 (q_s0 q) (q_t0 q) (q_s1 q) (q_t1 q) OK L V0 V1) as [o [c0 [c1 [-> [E [E0 E1]]]]]]. cbn [bind fst snd].
    exists o, c0, c1. split; [reflexivity|]. split; [exact E|]. split; [exact (proj1 (part c _ m0 c0 L V0 E0))|exact (proj1 (part c _ m1 c1 L V1 E1))].
  Qed.
  Lemma encZ_trick V c m0 m1 q : dme_ok live (sdme (ots V)) -> live c = true ->
    exists o v, encZ dbg live V (trick_key c) m0 m1 q = Ok (set_ots V o, v) /\ sdme o = sdme (ots V).
  Proof.
    intros OK L. pose proof OK as [[d [E LD]] _]. unfold encZ, encMsgsZ, EncZ.
    destruct (encode_log dbg live (sdme (ots V)) d m0 E LD) as [P0 [a0 [-> [_ M0]]]]. destruct (encode_log dbg live (sdme (ots V)) d m1 E LD) as [P1 [a1 [-> [_ M1]]]]. cbn [bind].
    destruct (enc_trick _ c 0 P0 (q_s0 q) (q_t0 q) OK L (or_introl eq_refl) (multiple_valid live _ _ M0)) as [c0 [-> E0]].
    destruct (enc_trick _ c 1 P1 (q_s1 q) (q_t1 q) OK L (or_intror eq_refl) (multiple_valid live _ _ M1)) as [c1 [-> E1]].
    cbn [bind app fst snd]. do 2 eexists. split; [reflexivity|reflexivity].
  Qed.
  Lemma round_trick V c r qa qb qc qp u v : dme_ok live (sdme (ots V)) -> live c = true -> 1 <= r <= 16 -> length (Si0 V) = 16%nat -> length (Si1 V) = 16%nat ->
    is_valid live (share V r 0) -> is_valid live (share V r 1) ->
    exists V' o c0 c1, runOTRound dbg live V r (trick_key c) qa qb qc qp u v = Ok (V', o) /\ ocprf o = [c0; c1] /\ told c c0 (share V r 0) /\ told c c1 (share V r 1).
  Proof.
    intros OK L RG L0 L1. unfold runOTRound, share. change BITS with 16. destruct (Z.eqb_spec r 16) as [->|NE]; intros W0 W1.
    - destruct (encZ_trick V c (lk (Sl0 V)) (lk (Sl1 V)) qa OK L) as [o1 [v1 [-> D1]]]. cbn [bind fst snd].
      destruct (encP_trick (set_ots V o1) c (lprf (Sl0 V)) (lprf (Sl1 V)) qp) as [o2 [c0 [c1 [-> [D2 [E0 E1]]]]]]; [cbn [set_ots ots]; rewrite D1; exact OK|exact L|exact W0|exact W1|]. cbn [bind fst snd].
      do 4 eexists. split; [reflexivity|]. split; [reflexivity|]. split; [exact E0|exact E1].
    - destruct (nth_error (Si0 V) (Z.to_nat r)) as [r0|] eqn:N0; [|apply nth_error_None in N0; lia].
      destruct (nth_error (Si1 V) (Z.to_nat r)) as [r1|] eqn:N1; [|apply nth_error_None in N1; lia].
      unfold vat. rewrite (proj2 (Z.ltb_ge r 0)) by lia. change (1 =? 0) with false in W1. change (0 =? 0) with true in W0. cbv iota in W0, W1. rewrite N0 in W0. rewrite N1 in W1. rewrite N0, N1. cbn [bind Z.eqb].
      destruct (encZ_trick V c (ilt r0) (ilt r1) qa OK L) as [o1 [v1 [-> D1]]]. cbn [bind fst snd].
      assert (OK1 : dme_ok live (sdme (ots (set_ots V o1)))) by (cbn [set_ots ots]; rewrite D1; exact OK).
      destruct (encZ_trick (set_ots V o1) c (ieq r0) (ieq r1) qb OK1 L) as [o2 [v2 [-> D2]]]. cbn [bind fst snd].
      assert (OK2 : dme_ok live (sdme (ots (set_ots (set_ots V o1) o2)))) by (cbn [set_ots ots]; rewrite D2; exact OK1).
      destruct (encZ_trick _ c (igt r0) (igt r1) qc OK2 L) as [o3 [v3 [-> D3]]]. cbn [bind fst snd].
      assert (OK3 : dme_ok live (sdme (ots (set_ots (set_ots (set_ots V o1) o2) o3)))) by (cbn [set_ots ots]; rewrite D3; exact OK2).
      destruct (encP_trick _ c (iprf r0) (iprf r1) qp OK3 L W0 W1) as [o4 [c0 [c1 [-> [D4 [E0 E1]]]]]]. cbn [bind fst snd].
      do 4 eexists. split; [reflexivity|]. split; [reflexivity|]. change (0 =? 0) with true. change (1 =? 0) with false. cbv iota. rewrite N0, N1. split; [exact E0|exact E1].
  Qed.

  Variables (e : env) (iv : list Z).
  Lemma L_C118_secret S0 C0 a l S C c r qa qb qc qp u v : fresh_server S0 -> server_ready live S0 a -> history dbg live e iv l (S0, C0) = Ok (S, C) ->
    live c = true -> 1 <= r <= 16 -> loaded l r ->
    exists S' o c0 c1 P0 P1 N Q G, runOTRound dbg live S r (trick_key c) qa qb qc qp u v = Ok (S', o) /\ ocprf o = [c0; c1] /\
      In (Ok P0) (guesses c c0) /\ In (Ok P1) (guesses c c1) /\
      pmulz dbg live CV P0 (-1) = Ok N /\ padd dbg live CV P1 N = Ok Q /\ pmulz dbg live CV Q (halve (r - 1)) = Ok G /\
      is_valid live G /\ same_point G (ga S0).
  Proof.
    intros F SR H L RG LD. destruct (history_share dbg live e iv S0 C0 a l S C r F SR H RG LD) as [w [M0 M1]].
    pose proof (history_keeps dbg live e iv l S0 C0 S C H) as [[CF RO] _]. unfold config in CF.
    assert (CF0 : sdme (ots S) = sdme (ots S0)) by congruence. destruct (RO (sr_rows _ _ _ SR)) as [L0 L1].
    assert (OKS : dme_ok live (sdme (ots S))) by (rewrite CF0; apply (sr_ots _ _ _ SR)).
    destruct (round_trick S c r qa qb qc qp u v OKS L RG L0 L1 (multiple_valid live _ _ M0) (multiple_valid live _ _ M1)) as [S' [o [c0 [c1 [E [EO [[P0 [I0 [V0 S0']]] [P1 [I1 [V1 S1']]]]]]]]]].
    assert (N0 : multiple live P0 w) by (split; [exact V0|rewrite S0'; exact (proj2 M0)]). assert (N1 : multiple live P1 (2 ^ (r - 1) * a + w)) by (split; [exact V1|rewrite S1'; exact (proj2 M1)]).
    destruct (pmulz_m dbg live _ _ (-1) N0) as [N [EN MN]]. destruct (padd_m dbg live _ N _ _ N1 MN) as [Q [EQ MQ]].
    destruct (pmulz_m dbg live Q _ (halve (r - 1)) MQ) as [G [EG MG]].
    exists S', o, c0, c1, P0, P1, N, Q, G. split; [exact E|]. split; [exact EO|]. split; [exact I0|]. split; [exact I1|]. split; [exact EN|]. split; [exact EQ|]. split; [exact EG|].
    destruct (halve_ok (r - 1)) as [q Eq]; [lia|].
    assert (MA : multiple live G a).
    { apply (mult_mod live _ _ _ MG). exists (q * a). replace (halve (r - 1) * (2 ^ (r - 1) * a + w + -1 * w) - a) with ((halve (r - 1) * 2 ^ (r - 1) - 1) * a) by ring.
      rewrite Eq. ring. }
    split; [exact (multiple_valid live _ _ MA)|]. unfold same_point. rewrite (proj2 MA). symmetry. apply (sr_ga _ _ _ SR).
  Qed.
End Trick.
