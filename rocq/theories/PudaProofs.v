(** Proofs about private data aggregation. *)
From Coq Require Import ZArith Znumtheory Bool List Lia Field.
From Verif Require Import Outcome FieldModel ZpField SpecField FieldProofs ECGroup ECOrder CurveParams CurveFacts EccModel EccProofs SpecEcc EccThms Emb RF DmeModel SpecDme DmeProofs OtModel SpecOt OtProofs PudaModel SpecPuda.
Import ListNotations.
Open Scope Z_scope.

Section Puda.
  Variables (dbg : bool) (live : Z -> bool).
  Notation n := (fieldn CV).
  Let Hn : prime n := prime_n CV good_CV.
  Let HF := field_Fp n Hn.
  Add Field PudaField : HF.
  Notation F := (Fp n).
  Notation rf := (rf live CV).
  Notation em := (em n).
  Notation mk := (mk n).
  Infix "+" := (fadd n).
  Infix "*" := (fmul n).
  Infix "-" := (fsub n).
  Notation "'O'" := (f0 n).

  (** public parameters with residues *)
  Record prf (pp : pp_t) (h : F) : Prop := mkprf {
    pr_1 : rf (ppg1 pp) (f1 n); pr_2 : rf (ppg2 pp) (f1 n); pr_h : rf (pphash pp) h }.

  Lemma fold_padd ps zs : Forall2 rf ps zs -> forall A a, rf A a ->
    exists R, foldM (padd dbg live CV) ps A = Ok R /\ rf R (a + zsum zs).
  Proof.
    induction 1 as [|P z ps zs HP _ IH]; intros A a HA.
    - exists A. split; [reflexivity|]. apply (rf_cong live CV _ _ _ HA). cbn [zsum]. ring.
    - cbn [foldM]. destruct (padd_rf dbg live CV good_CV _ _ _ _ HA HP) as [R [-> KR]]. cbn [bind].
      destruct (IH R _ KR) as [R' [E K]]. exists R'. split; [exact E|]. apply (rf_cong live CV _ _ _ K). cbn [zsum]. ring.
  Qed.

  Lemma dlog_rf pp h c z : prf pp h -> rf c z ->
    compute_dlog dbg live pp c = Ok (if val n z <? 65535 then val n z else 0).
  Proof.
    intros [G _ _] K. unfold compute_dlog.
    destruct (loop_search (dlog_step dbg live pp c) (fun i => mk i = z) (fun i r => r = Ok i)) with (k := Z.to_pos USHRT_MAX) (x := 0)
      as [[-> N]|[i [r [Hi [Fi [_ [-> ->]]]]]]].
    - intros i. unfold dlog_step. destruct (pmulz_rf dbg live CV good_CV _ _ i G) as [R [-> KR]].
      destruct (peq_rf live CV good_CV _ _ _ _ KR K) as [b [-> Hb]].
      assert (Hb' : b = true <-> mk i = z) by (rewrite Hb; replace (mk i * f1 n) with (mk i) by ring; reflexivity).
      destruct b; [right|left].
      + split; [apply Hb'; reflexivity|]. eexists; split; reflexivity.
      + split; [|reflexivity]. intros E. apply Hb' in E. discriminate.
    - change (Z.pos (Z.to_pos USHRT_MAX)) with 65535 in N. destruct (Z.ltb_spec (val n z) 65535) as [Lt|_]; [|reflexivity].
      exfalso. pose proof (val_range n Hn z). apply (N (val n z)); [lia|]. rewrite Z.add_0_l. apply mk_val.
    - change (Z.pos (Z.to_pos USHRT_MAX)) with 65535 in Hi. rewrite Z.add_0_l in *. subst z.
      assert (V : val n (mk i) = i). { cbn. apply Z.mod_small. split; [lia|]. apply Z.lt_trans with 65535; [lia|reflexivity]. }
      rewrite V. destruct (Z.ltb_spec i 65535); [reflexivity|lia].
  Qed.

  Lemma PEnc_rf pp h k m t : prf pp h -> exists R, PEnc dbg live pp (em k) m t = Ok R /\ rf R (k * (mk t * h) + mk m).
  Proof.
    intros [G _ H]. unfold PEnc.
    destruct (pmulz_rf dbg live CV good_CV _ _ t H) as [ht [-> Kt]]. cbn [bind].
    destruct (pmul_rf dbg live CV good_CV _ _ k Kt) as [x [-> Kx]]. cbn [bind].
    destruct (pmulz_rf dbg live CV good_CV _ _ m G) as [y [-> Ky]]. cbn [bind].
    destruct (padd_rf dbg live CV good_CV _ _ _ _ Kx Ky) as [R [-> K]]. exists R. split; [reflexivity|].
    apply (rf_cong live CV _ _ _ K). ring.
  Qed.

  Lemma PTag_rf pp h a k m t : prf pp h ->
    exists R, PTag dbg live pp (mksk a (em k)) m t = Ok R /\ rf R (k * (mk t * h) + mk a * mk m).
  Proof.
    intros [G _ H]. unfold PTag. cbn [ska sktk].
    destruct (pmulz_rf dbg live CV good_CV _ _ t H) as [ht [-> Kt]]. cbn [bind].
    destruct (pmul_rf dbg live CV good_CV _ _ k Kt) as [x [-> Kx]]. cbn [bind].
    destruct (pmulz_rf dbg live CV good_CV _ _ a G) as [ga [-> Ka]]. cbn [bind].
    destruct (pmulz_rf dbg live CV good_CV _ _ m Ka) as [y [-> Ky]]. cbn [bind].
    destruct (padd_rf dbg live CV good_CV _ _ _ _ Kx Ky) as [R [-> K]]. exists R. split; [reflexivity|].
    apply (rf_cong live CV _ _ _ K). ring.
  Qed.

  Lemma setup_fold c1 a ds : live c1 = true -> forall ekv skv x y,
    foldM (setup_step dbg live c1 a) ds (ekv, skv, em x, em y) =
    Ok (ekv ++ map (fun d => em (mk (fst d))) ds, skv ++ map (fun d => mksk a (em (mk (snd d)))) ds,
        em (x - zsum (map (fun d => mk (fst d)) ds)), em (y + zsum (map (fun d => mk (snd d)) ds))).
  Proof.
    intros L. induction ds as [|d ds IH]; intros ekv skv x y.
    - cbn [foldM map zsum]. rewrite !app_nil_r. f_equal. f_equal; [f_equal|]; f_equal; ring.
    - cbn [foldM]. unfold setup_step at 1. rewrite (getRandomScalar_em live CV c1 (fst d) L). cbn [bind].
      rewrite (getRandomScalar_em live CV c1 (snd d) L). cbn [bind].
      rewrite (em_sub_eq dbg n Hn). cbn [bind]. rewrite (em_add_eq dbg n Hn). cbn [bind].
      rewrite IH. cbn [map zsum]. rewrite <- !app_assoc. f_equal. f_equal; [f_equal|]; f_equal; ring.
  Qed.

  Lemma Setup_rf c1 c2 rh ra ds : live c1 = true -> live c2 = true ->
    exists pp vk, Setup dbg live (puda_new c1 c2) rh ra ds =
        Ok (pp, (map (fun d => em (mk (fst d))) ds, map (fun d => mksk (val n (mk ra)) (em (mk (snd d)))) ds,
                 em (O - zsum (map (fun d => mk (fst d)) ds)), vk)) /\
      prf pp (mk rh) /\ rf (vk_1 vk) (zsum (map (fun d => mk (snd d)) ds)) /\ rf (vk_2 vk) (mk ra).
  Proof.
    intros L1 L2. unfold Setup. cbn [curve1 curve2 puda_new]. unfold getDefaultGen at 1 2. rewrite L1, L2. cbn [bind].
    destruct (getRandomPoint_rf dbg live CV good_CV c1 rh L1) as [h [-> Kh]]. cbn [bind].
    rewrite (getRandomScalar_em live CV c1 ra L1). cbn [bind].
    change (fe_new FIELD_n 0) with (em O). change (fe_default FIELD_n) with (em O).
    rewrite (setup_fold c1 _ ds L1). cbn [bind app].
    pose proof (rf_gen live CV good_CV c1 L1) as G1. pose proof (rf_gen live CV good_CV c2 L2) as G2.
    destruct (pmul_rf dbg live CV good_CV _ _ (O + zsum (map (fun d => mk (snd d)) ds)) G2) as [v1 [-> K1]]. cbn [bind].
    destruct (pmulz_rf dbg live CV good_CV _ _ (fval (em (mk ra))) G2) as [v2 [-> K2]]. cbn [bind].
    do 2 eexists. split; [reflexivity|]. split; [constructor; assumption|]. cbn [vk_1 vk_2]. split.
    - apply (rf_cong live CV _ _ _ K1). ring.
    - apply (rf_cong live CV _ _ _ K2). change (fval (em (mk ra))) with (val n (mk ra)). rewrite mk_val. ring.
  Qed.

  Lemma enc_list pp h t : prf pp h -> forall ds ms, length ds = length ms ->
    exists cs, mapM (fun x => PEnc dbg live pp (fst x) (snd x) t) (combine (map (fun d : Z * Z => em (mk (fst d))) ds) ms) = Ok cs /\
      Forall2 rf cs (map (fun x => mk (fst (fst x)) * (mk t * h) + mk (snd x)) (combine ds ms)).
  Proof.
    intros P. induction ds as [|d ds IH]; intros ms E; destruct ms as [|m ms]; try discriminate E.
    - exists []. split; [reflexivity|constructor].
    - destruct (IH ms) as [cs [Ec Kc]]; [injection E; auto|]. cbn [map combine mapM fst snd].
      destruct (PEnc_rf pp h (mk (fst d)) m t P) as [R [-> K]]. cbn [bind]. rewrite Ec. cbn [bind].
      eexists. split; [reflexivity|]. constructor; assumption.
  Qed.
  Lemma tag_list pp h a z t : prf pp h -> mk a = z -> forall ds ms, length ds = length ms ->
    exists cs, mapM (fun x => PTag dbg live pp (fst x) (snd x) t) (combine (map (fun d : Z * Z => mksk a (em (mk (snd d)))) ds) ms) = Ok cs /\
      Forall2 rf cs (map (fun x => mk (snd (fst x)) * (mk t * h) + z * mk (snd x)) (combine ds ms)).
  Proof.
    intros P Ez. induction ds as [|d ds IH]; intros ms E; destruct ms as [|m ms]; try discriminate E.
    - exists []. split; [reflexivity|constructor].
    - destruct (IH ms) as [cs [Ec Kc]]; [injection E; auto|]. cbn [map combine mapM fst snd].
      destruct (PTag_rf pp h a (mk (snd d)) m t P) as [R [-> K]]. rewrite Ez in K. cbn [bind]. rewrite Ec. cbn [bind].
      eexists. split; [reflexivity|]. constructor; assumption.
  Qed.

  Lemma zsum_comb (f : Z * Z -> F) (g : Z -> F) u : forall ds ms, length ds = length ms ->
    zsum (map (fun x => f (fst x) * u + g (snd x)) (combine ds ms)) = zsum (map f ds) * u + zsum (map g ms).
  Proof.
    induction ds as [|d ds IH]; intros ms E; destruct ms as [|m ms]; try discriminate E; cbn [map combine zsum fst snd].
    - ring.
    - rewrite IH by (injection E; auto). ring.
  Qed.
  Lemma zsum_scale a ms : zsum (map (fun m => a * mk m) ms) = a * mk (sumz ms).
  Proof. rewrite <- zsum_mk. induction ms as [|m ms IH]; cbn [map zsum]; [ring|]. rewrite IH. ring. Qed.
  Lemma zsum_map (f : Z * Z -> Z) ds : zsum (map (fun d => mk (f d)) ds) = mk (sumz (map f ds)).
  Proof. rewrite <- zsum_mk, map_map. reflexivity. Qed.

  Lemma L_puda c1 c2 rh ra ds ms t : live c1 = true -> live c2 = true -> length ds = length ms ->
    exists o, session dbg live c1 c2 rh ra ds ms t = Ok o /\
      o_sum o = (let s := (sumz ms mod order)%Z in if s <? 65535 then s else 0) /\
      is_valid live (o_tag o) /\ den CV (o_tag o) = total (o_tags o) /\
      multiple live (vk_1 (o_vk o)) (sumz (map snd ds)) /\ multiple live (vk_2 (o_vk o)) ra /\
      multiple live (o_tag o) (sumz (map snd ds) * (t * rh) + ra * sumz ms)%Z /\
      multiple live (ppg1 (o_pp o)) 1 /\ multiple live (ppg2 (o_pp o)) 1 /\ multiple live (pphash (o_pp o)) rh /\
      Forall2 (fun c x => multiple live c (fst (fst x) * (t * rh) + snd x)%Z) (o_ctxts o) (combine ds ms) /\
      Forall2 (fun c x => multiple live c (snd (fst x) * (t * rh) + ra * snd x)%Z) (o_tags o) (combine ds ms).
  Proof.
    intros L1 L2 E. destruct (Setup_rf c1 c2 rh ra ds L1 L2) as [pp [vk [ES [P [K1 K2]]]]].
    unfold session. rewrite ES. cbn [bind].
    destruct (enc_list pp _ t P ds ms E) as [cs [-> Kc]]. cbn [bind].
    destruct (tag_list pp _ (val n (mk ra)) (mk ra) t P (mk_val n (mk ra)) ds ms E) as [ts [-> Kt]]. cbn [bind].
    unfold Agg. pose proof (rf_inf live CV good_CV) as I.
    destruct (fold_padd _ _ Kc _ _ I) as [C [-> KC]]. cbn [bind].
    destruct (fold_padd _ _ Kt _ _ I) as [T [-> KT]]. cbn [bind]. pose proof P as [G1 G2 PH].
    destruct (pmulz_rf dbg live CV good_CV _ _ t PH) as [ht [-> Kh]]. cbn [bind].
    destruct (pmul_rf dbg live CV good_CV _ _ (O - zsum (map (fun d => mk (fst d)) ds)) Kh) as [x [-> Kx]]. cbn [bind].
    destruct (padd_rf dbg live CV good_CV _ _ _ _ KC Kx) as [C' [-> KC']]. cbn [bind].
    assert (KS : rf C' (mk (sumz ms))).
    { apply (rf_cong live CV _ _ _ KC').
      rewrite (zsum_comb (fun d => mk (fst d)) mk (mk t * mk rh) ds ms E), zsum_mk. ring. }
    assert (KT' : rf T (mk (sumz (map snd ds)) * (mk t * mk rh) + mk ra * mk (sumz ms))).
    { apply (rf_cong live CV _ _ _ KT).
      rewrite (zsum_comb (fun d => mk (snd d)) (fun m => mk ra * mk m) (mk t * mk rh) ds ms E).
      rewrite zsum_scale, zsum_map. ring. }
    rewrite (dlog_rf pp _ C' _ P KS). cbn [bind]. eexists. split; [reflexivity|]. cbn [o_sum o_tag o_tags o_vk o_pp o_ctxts fst snd].
    split. { change (val n (mk (sumz ms))) with (sumz ms mod n)%Z. rewrite order_eq. reflexivity. }
    split; [exact (rf_val live _ _ KT)|]. split.
    { destruct (total_rf dbg live _ _ Kt) as [T' [KT2 DT]]. rewrite <- DT. apply (same_rf live _ _ _ _ KT KT2). ring. }
    rewrite !(multiple_rf live). rewrite <- zsum_map, <- mk_add, <- !mk_mul.
    split; [exact K1|]. split; [exact K2|]. split; [exact KT'|].
    split; [exact G1|]. split; [exact G2|]. split; [exact PH|]. split.
    - clear -Kc E. revert ms E cs Kc. induction ds as [|d ds IH]; intros ms E cs Kc; destruct ms as [|m ms]; try discriminate E.
      + inversion Kc; constructor.
      + cbn [combine map fst snd] in *. inversion Kc as [|c ? cs' ? Hc Kc']; subst. constructor.
        * cbn [fst snd]. apply (multiple_rf live). rewrite <- mk_add, <- !mk_mul. exact Hc.
        * apply IH; [injection E; auto|exact Kc'].
    - clear -Kt E. revert ms E ts Kt. induction ds as [|d ds IH]; intros ms E cs Kc; destruct ms as [|m ms]; try discriminate E.
      + inversion Kc; constructor.
      + cbn [combine map fst snd] in *. inversion Kc as [|c ? cs' ? Hc Kc']; subst. constructor.
        * cbn [fst snd]. apply (multiple_rf live). rewrite <- mk_add, <- !mk_mul. exact Hc.
        * apply IH; [injection E; auto|exact Kc'].
  Qed.

  Lemma sumz_nonneg ms : Forall u16 ms -> 0 <= sumz ms.
  Proof. induction 1 as [|m ms Hm _ IH]; [reflexivity|]. cbn [sumz fold_right]. unfold u16 in Hm. unfold sumz in IH. lia. Qed.

  Lemma L_C37 c1 c2 rh ra ds ms t : live c1 = true -> live c2 = true -> length ds = length ms -> Forall u16 ms ->
    sumz ms < 65535 ->
    exists o, session dbg live c1 c2 rh ra ds ms t = Ok o /\ o_sum o = sumz ms /\
      is_valid live (o_tag o) /\ den CV (o_tag o) = total (o_tags o).
  Proof.
    intros L1 L2 E U Lt. destruct (L_puda c1 c2 rh ra ds ms t L1 L2 E) as [o [ES [S [V [D _]]]]].
    exists o. split; [exact ES|]. split; [|split; assumption]. rewrite S. cbv zeta. pose proof (sumz_nonneg ms U).
    rewrite Z.mod_small; [|split; [lia|apply Z.lt_trans with 65535; [lia|reflexivity]]].
    destruct (Z.ltb_spec (sumz ms) 65535); [reflexivity|lia].
  Qed.

  Lemma L_C38 c1 c2 rh ra ds ms t : live c1 = true -> live c2 = true -> length ds = length ms ->
    65535 <= sumz ms < order ->
    exists o, session dbg live c1 c2 rh ra ds ms t = Ok o /\ o_sum o = 0.
  Proof.
    intros L1 L2 E B. destruct (L_puda c1 c2 rh ra ds ms t L1 L2 E) as [o [ES [S _]]].
    exists o. split; [exact ES|]. rewrite S. cbv zeta. rewrite Z.mod_small by lia.
    destruct (Z.ltb_spec (sumz ms) 65535); [lia|reflexivity].
  Qed.

  (** any pairing would accept the aggregate tag *)
  Lemma L_C39 c1 c2 rh ra ds ms t (X : Type) (add : X -> X -> X) (e : ept (c_prime CV) -> ept (c_prime CV) -> X) :
    live c1 = true -> live c2 = true -> length ds = length ms ->
    (let g k := gmul CV k (ggen CV) in
     (forall j k l, e (g (j + k)%Z) (g l) = add (e (g j) (g l)) (e (g k) (g l))) /\
     (forall j k l, e (g (j * k)%Z) (g l) = e (g j) (g (k * l)%Z))) ->
    exists o, session dbg live c1 c2 rh ra ds ms t = Ok o /\
      let pp := o_pp o in let vk := o_vk o in
      e (den CV (o_tag o)) (den CV (ppg2 pp)) =
      add (e (gmul CV t (den CV (pphash pp))) (den CV (vk_1 vk))) (e (gmul CV (sumz ms) (den CV (ppg1 pp))) (den CV (vk_2 vk))).
  Proof.
    intros L1 L2 E [B1 B2]. destruct (L_puda c1 c2 rh ra ds ms t L1 L2 E) as [o [ES [_ [_ [_ [[_ V1] [[_ V2] [[_ T] [[_ G1] [[_ G2] [[_ H] _]]]]]]]]]]].
    exists o. split; [exact ES|]. cbv zeta. rewrite T, G1, G2, H, V1, V2.
    rewrite !(gk_mul CV good_CV : forall k i, gmul CV k (gmul CV i (ggen CV)) = gmul CV (k * i) (ggen CV)).
    rewrite B1. f_equal.
    - rewrite (Z.mul_comm (sumz (map snd ds))). rewrite (B2 (t * rh)%Z). rewrite Z.mul_1_r. reflexivity.
    - rewrite (Z.mul_comm ra), B2, !Z.mul_1_r. reflexivity.
  Qed.

  Lemma L_C40_zero pp rh ek m : multiple live (ppg1 pp) 1 -> multiple live (pphash pp) rh -> scal ek ->
    exists R, PEnc dbg live pp ek m 0 = Ok R /\ is_valid live R /\ den CV R = gmul CV m (ggen CV).
  Proof.
    intros G H S. apply (multiple_rf live) in G, H.
    rewrite (em_surj n ek S).
    unfold PEnc.
    destruct (pmulz_rf dbg live CV good_CV _ _ 0 H) as [ht [-> Kt]]. cbn [bind].
    destruct (pmul_rf dbg live CV good_CV _ _ (mk (fval ek)) Kt) as [x [-> Kx]]. cbn [bind].
    destruct (pmulz_rf dbg live CV good_CV _ _ m G) as [y [-> Ky]]. cbn [bind].
    destruct (padd_rf dbg live CV good_CV _ _ _ _ Kx Ky) as [R [-> K]]. exists R. split; [reflexivity|].
    apply (multiple_rf live R m). apply (rf_cong live CV _ _ _ K). change (mk 0) with O. change (mk 1) with (f1 n). ring.
  Qed.

  Lemma L_C40_distinct pp rh ek ek' m t R : multiple live (ppg1 pp) 1 -> multiple live (pphash pp) rh -> scal ek -> scal ek' ->
    ~ (order | rh) -> ~ (order | t) -> PEnc dbg live pp ek m t = Ok R ->
    exists R', PEnc dbg live pp ek' m t = Ok R' /\ (same_point R R' <-> ek = ek').
  Proof.
    intros G H S S' Nh Nt E. apply (multiple_rf live) in G, H. rewrite <- mk_order_0 in Nh, Nt.
    assert (Q : forall k, exists R, PEnc dbg live pp (em k) m t = Ok R /\ rf R (k * (mk t * mk rh) + mk m)).
    { intros k. unfold PEnc.
      destruct (pmulz_rf dbg live CV good_CV _ _ t H) as [ht [-> Kt]]. cbn [bind].
      destruct (pmul_rf dbg live CV good_CV _ _ k Kt) as [x [-> Kx]]. cbn [bind].
      destruct (pmulz_rf dbg live CV good_CV _ _ m G) as [y [-> Ky]]. cbn [bind].
      destruct (padd_rf dbg live CV good_CV _ _ _ _ Kx Ky) as [R1 [-> K]]. exists R1. split; [reflexivity|].
      apply (rf_cong live CV _ _ _ K). change (mk 1) with (f1 n). ring. }
    pose proof (em_surj n ek S) as E1. pose proof (em_surj n ek' S') as E2.
    set (k := mk (fval ek)) in *. set (k' := mk (fval ek')) in *. clearbody k k'. subst ek ek'.
    destruct (Q k) as [R1 [F1 K1]]. rewrite E in F1. apply Ok_inj in F1. subst R1.
    destruct (Q k') as [R2 [F2 K2]]. exists R2. split; [exact F2|]. rewrite (same_rf live _ _ _ _ K1 K2). split.
    - intros Eq. f_equal.
      assert (Z0 : (k - k') * (mk t * mk rh) = O).
      { transitivity (k * (mk t * mk rh) + mk m - (k' * (mk t * mk rh) + mk m)); [ring|]. rewrite Eq. ring. }
      apply fmul_0 in Z0; [|exact Hn]. destruct Z0 as [Z0|Z0]; [exact (fsub0 _ _ Z0)|].
      apply fmul_0 in Z0; [|exact Hn]. destruct Z0; contradiction.
    - intros Eq. apply em_inj in Eq. subst k'. reflexivity.
  Qed.

  (** ** What one known message, or two tags, give away *)
  Lemma mk_inv t : ~ (order | t)%Z -> exists w, (order | (t * w - 1)%Z)%Z /\ mk t * mk w = f1 n.
  Proof.
    intros N. rewrite <- mk_order_0 in N. exists (val n (finv n (mk t))).
    assert (E : mk t * mk (val n (finv n (mk t))) = f1 n) by (rewrite mk_val; field; exact N).
    split; [|exact E]. apply (mk_order_eq). rewrite <- mk_mul, E. reflexivity.
  Qed.
  Lemma int_order t : int32 t -> t <> 0%Z -> ~ (order | t)%Z.
  Proof.
    intros B N D. unfold int32 in B. assert (O1 : (2 ^ 31 < order)%Z) by (vm_compute; reflexivity).
    destruct D as [k D]. assert (k <> 0)%Z by (intros ->; lia). nia.
  Qed.
  Lemma PEnc_rf' pp h k m t : rf (ppg1 pp) (f1 n) -> rf (pphash pp) h ->
    exists R, PEnc dbg live pp (em k) m t = Ok R /\ rf R (k * (mk t * h) + mk m).
  Proof. intros G H. exact (PEnc_rf (mkpp (curve1 pp) (curve2 pp) (ppg1 pp) (ppg1 pp) (pphash pp)) h k m t (mkprf (mkpp (curve1 pp) (curve2 pp) (ppg1 pp) (ppg1 pp) (pphash pp)) h G G H)). Qed.
  Lemma PTag_rf' pp h a k m t : rf (ppg1 pp) (f1 n) -> rf (pphash pp) h ->
    exists R, PTag dbg live pp (mksk a (em k)) m t = Ok R /\ rf R (k * (mk t * h) + mk a * mk m).
  Proof. intros G H. exact (PTag_rf (mkpp (curve1 pp) (curve2 pp) (ppg1 pp) (ppg1 pp) (pphash pp)) h a k m t (mkprf (mkpp (curve1 pp) (curve2 pp) (ppg1 pp) (ppg1 pp) (pphash pp)) h G G H)). Qed.
  Lemma dlog_rf' pp c z : rf (ppg1 pp) (f1 n) -> rf c z ->
    compute_dlog dbg live pp c = Ok (if val n z <? 65535 then val n z else 0).
  Proof. intros G K. exact (dlog_rf (mkpp (curve1 pp) (curve2 pp) (ppg1 pp) (ppg1 pp) (ppg1 pp)) (f1 n) c z
    (mkprf (mkpp (curve1 pp) (curve2 pp) (ppg1 pp) (ppg1 pp) (ppg1 pp)) (f1 n) G G G) K). Qed.

  Lemma L_C40_total pp rh ek m t : multiple live (ppg1 pp) 1 -> multiple live (pphash pp) rh -> scal ek ->
    exists c, PEnc dbg live pp ek m t = Ok c.
  Proof.
    intros G H S. apply (multiple_rf live) in G, H. rewrite (em_surj n ek S).
    destruct (PEnc_rf' pp _ (mk (fval ek)) m t G H) as [R [E _]]. exists R. exact E.
  Qed.
  Lemma L_C63_total pp rh sk m t : multiple live (ppg1 pp) 1 -> multiple live (pphash pp) rh -> scal (sktk sk) ->
    exists T, PTag dbg live pp sk m t = Ok T.
  Proof.
    intros G H S. apply (multiple_rf live) in G, H. destruct sk as [a tk]. cbn [sktk] in S. rewrite (em_surj n tk S).
    destruct (PTag_rf' pp _ a (mk (fval tk)) m t G H) as [R [E _]]. exists R. exact E.
  Qed.

  Lemma L_C62 pp rh ek m t c : multiple live (ppg1 pp) 1 -> multiple live (pphash pp) rh -> scal ek -> int32 t -> t <> 0%Z ->
    PEnc dbg live pp ek m t = Ok c ->
    exists w K, (order | (t * w - 1)%Z)%Z /\ key_point dbg live pp c m w = Ok K /\
      forall m' t' c', 0 <= m' < 65535 -> PEnc dbg live pp ek m' t' = Ok c' -> open_with dbg live pp K c' t' = Ok m'.
  Proof.
    intros G H S B N E. apply (multiple_rf live) in G, H. change (mk 1) with (f1 n) in G.
    rewrite (em_surj n ek S) in *. set (k := mk (fval ek)) in *. clearbody k.
    destruct (mk_inv t (int_order t B N)) as [w [W1 W2]].
    destruct (PEnc_rf' pp _ k m t G H) as [R [E' KR]]. rewrite E in E'. apply Ok_inj in E'. subst R.
    unfold key_point. destruct (pmulz_rf dbg live CV good_CV _ _ (- m) G) as [x [Ex Kx]].
    destruct (padd_rf dbg live CV good_CV _ _ _ _ KR Kx) as [y [Ey Ky]].
    destruct (pmulz_rf dbg live CV good_CV _ _ w Ky) as [K [EK KK]].
    exists w, K. split; [exact W1|]. split; [rewrite Ex; cbn [bind]; rewrite Ey; cbn [bind]; exact EK|].
    assert (KK' : rf K (k * mk rh)).
    { apply (rf_cong live CV _ _ _ KK). rewrite <- mk_opp. 
      transitivity ((mk t * mk w) * (k * mk rh)); [ring|]. rewrite W2. ring. }
    intros m' t' c' Bm Ec. destruct (PEnc_rf' pp _ k m' t' G H) as [R [E' KR']]. rewrite Ec in E'. apply Ok_inj in E'. subst R.
    unfold open_with. destruct (pmulz_rf dbg live CV good_CV _ _ (- t') KK') as [x' [-> Kx']]. cbn [bind].
    destruct (padd_rf dbg live CV good_CV _ _ _ _ KR' Kx') as [y' [-> Ky']]. cbn [bind].
    assert (Km : rf y' (mk m')) by (apply (rf_cong live CV _ _ _ Ky'); rewrite <- mk_opp; ring).
    rewrite (dlog_rf' pp _ _ G Km). change (val n (mk m')) with (m' mod n)%Z.
    assert (O1 : (65535 < n)%Z) by (vm_compute; reflexivity).
    rewrite Z.mod_small by lia. destruct (Z.ltb_spec m' 65535); [reflexivity|lia].
  Qed.

  Lemma L_C62_reuse pp rh ek m m' t c c' : multiple live (ppg1 pp) 1 -> multiple live (pphash pp) rh -> scal ek ->
    PEnc dbg live pp ek m t = Ok c -> PEnc dbg live pp ek m' t = Ok c' ->
    gadd CV (den CV c) (gmul CV m' (ggen CV)) = gadd CV (den CV c') (gmul CV m (ggen CV)).
  Proof.
    intros G H S E E'. apply (multiple_rf live) in G, H. change (mk 1) with (f1 n) in G.
    rewrite (em_surj n ek S) in *. set (k := mk (fval ek)) in *. clearbody k.
    destruct (PEnc_rf' pp _ k m t G H) as [R [E1 KR]]. rewrite E in E1. apply Ok_inj in E1. subst R.
    destruct (PEnc_rf' pp _ k m' t G H) as [R [E1 KR']]. rewrite E' in E1. apply Ok_inj in E1. subst R.
    rewrite (rf_den live CV _ _ KR), (rf_den live CV _ _ KR').
    rewrite !(gk_add CV good_CV : forall i j, gadd CV (gmul CV i (ggen CV)) (gmul CV j (ggen CV)) = gmul CV (i + j) (ggen CV)). apply (gk_eq CV good_CV), (mkn_eq CV good_CV).
    rewrite <- !mk_add, !mk_val. ring.
  Qed.

  Lemma L_C63 pp rh sk m1 t1 T1 m2 t2 T2 w : multiple live (ppg1 pp) 1 -> multiple live (pphash pp) rh -> scal (sktk sk) ->
    PTag dbg live pp sk m1 t1 = Ok T1 -> PTag dbg live pp sk m2 t2 = Ok T2 ->
    (order | ((m1 * t2 - m2 * t1) * w - 1)%Z)%Z ->
    forall m t, exists F T, combine_tags dbg live T1 T2 ((m * t2 - m2 * t) * w)%Z ((m1 * t - m * t1) * w)%Z = Ok F /\
      PTag dbg live pp sk m t = Ok T /\ same_point F T.
  Proof.
    intros G H S E1 E2 W m t. apply (multiple_rf live) in G, H. change (mk 1) with (f1 n) in G.
    destruct sk as [a tk]. cbn [sktk] in S. rewrite (em_surj n tk S) in *. set (k := mk (fval tk)) in *. clearbody k.
    apply mk_order_eq in W. rewrite <- mk_mul, <- mk_sub, <- !mk_mul in W. change (mk 1) with (f1 n) in W.
    destruct (PTag_rf' pp _ a k m1 t1 G H) as [R [E K1]]. rewrite E1 in E. apply Ok_inj in E. subst R.
    destruct (PTag_rf' pp _ a k m2 t2 G H) as [R [E K2]]. rewrite E2 in E. apply Ok_inj in E. subst R.
    destruct (PTag_rf' pp _ a k m t G H) as [T [E KT]].
    set (x := ((m * t2 - m2 * t) * w)%Z). set (y := ((m1 * t - m * t1) * w)%Z).
    destruct (pmulz_rf dbg live CV good_CV _ _ x K1) as [A [EA KA]].
    destruct (pmulz_rf dbg live CV good_CV _ _ y K2) as [B [EB KB]].
    destruct (padd_rf dbg live CV good_CV _ _ _ _ KA KB) as [F' [EF KF]].
    exists F', T. split; [unfold combine_tags; rewrite EA; cbn [bind]; rewrite EB; cbn [bind]; exact EF|].
    split; [exact E|]. apply (same_rf live _ _ _ _ KF KT). unfold x, y. rewrite <- !mk_mul, <- !mk_sub, <- !mk_mul.
    transitivity (((mk m1 * mk t2 - mk m2 * mk t1) * mk w) * (k * (mk t * mk rh) + mk a * mk m)); [ring|]. rewrite W. ring.
  Qed.
End Puda.

Lemma L_C39_any pp vk sum tag t : Verify pp vk sum tag t = true.
Proof. reflexivity. Qed.

(** a non-degenerate pairing (product of discrete logarithms), to show that the hypothesis of C39 is met *)
Section Pairing.
  Notation n := (fieldn CV).
  Let Hn : prime n := prime_n CV good_CV.
  Definition ept_dec (P Q : ept (c_prime CV)) : {P = Q} + {P <> Q}.
  Proof.
    destruct P as [[x y]|], Q as [[x' y']|]; [|right; discriminate|right; discriminate|left; reflexivity].
    destruct (eqFp _ x x') as [->|N]; [|right; congruence]. destruct (eqFp _ y y') as [->|N]; [left; reflexivity|right; congruence].
  Defined.
  Definition dlog (P : ept (c_prime CV)) : Z :=
    match loop_upto (Z.to_pos n) (fun k => if ept_dec (gmul CV k (ggen CV)) P then inr k else inl (k + 1)) 0 with
    | inr k => k
    | inl _ => 0
    end.
  Lemma dlog_spec k : mk n (dlog (gmul CV k (ggen CV))) = mk n k.
  Proof.
    unfold dlog. set (P := gmul CV k (ggen CV)).
    destruct (loop_search (fun k => if ept_dec (gmul CV k (ggen CV)) P then inr k else inl (k + 1))
      (fun i => gmul CV i (ggen CV) = P) (fun i r => r = i)) with (k := Z.to_pos n) (x := 0)
      as [[_ N]|[i [r [Hi [Fi [_ [-> ->]]]]]]].
    - intros i. destruct (ept_dec (gmul CV i (ggen CV)) P) as [E|N]; [right|left].
      + split; [exact E|]. eexists; split; reflexivity.
      + split; [exact N|reflexivity].
    - exfalso. change (Z.pos (Z.to_pos n)) with n in N. pose proof (val_range n Hn (mk n k)) as B.
      apply (N (val n (mk n k)) B). rewrite Z.add_0_l. apply (gk_eq CV good_CV), (mkn_eq CV good_CV), mk_val.
    - rewrite Z.add_0_l in *. apply (gk_eq CV good_CV), (mkn_eq CV good_CV) in Fi. exact Fi.
  Qed.
  Definition pairing (P Q : ept (c_prime CV)) : Fp n := fmul n (mk n (dlog P)) (mk n (dlog Q)).
  Lemma L_pairing :
    (let g k := gmul CV k (ggen CV) in
     (forall j k l, pairing (g (j + k)) (g l) = fadd n (pairing (g j) (g l)) (pairing (g k) (g l))) /\
     (forall j k l, pairing (g (j * k)) (g l) = pairing (g j) (g (k * l))) /\
     pairing (g 1) (g 1) <> f0 n).
  Proof.
    cbv zeta. unfold pairing. split; [|split].
    - intros j k l. rewrite !dlog_spec, !mk_mul, !mk_add. f_equal. ring.
    - intros j k l. rewrite !dlog_spec, !mk_mul. f_equal. ring.
    - rewrite !dlog_spec, mk_mul. intros F. apply (mk_order_0) in F. revert F. apply ndiv. split; vm_compute; reflexivity.
  Qed.
End Pairing.
