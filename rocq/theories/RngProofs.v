(** Proofs about randomness. *)
From Coq Require Import ZArith Znumtheory Bool List Lia Field.
From Verif Require Import Outcome FieldModel ZpField SpecField FieldProofs ECGroup ECOrder CurveParams CurveFacts EccModel EccProofs SpecEcc EccThms Emb RF DmeModel SpecDme DmeProofs OtModel AesModel OpprfModel ShamirModel RngModel SpecRng.
Import ListNotations.
Open Scope Z_scope.

Lemma shape_requests c c' : shape_of c = shape_of c' -> requests c = requests c'.
Proof.
  assert (B : BITS = 16) by reflexivity.
  destruct c as [? ?| |? ?|?|? ? ? ?|? ?|?|? ? ? ?|? ? ?|?|? rd ?|?|? ? ? ?], c' as [? ?| |? ?|?|? ? ? ?|? ?|?|? ? ? ?|? ? ?|?|? rd' ?|?|? ? ? ?];
    cbn [shape_of requests]; rewrite ?B;
    try (destruct (rd =? 16)); try (destruct (rd' =? 16)); intros H; try discriminate H; try reflexivity;
    injection H as <-; reflexivity.
Qed.

Section Rng.
  Variables (dbg : bool) (live : Z -> bool) (e : env) (iv : list Z).
  Variables (G L : Type) (gmp_default : G) (libc_default : L).
  Variables (z_range : G -> Z -> Z * G) (z_bits : G -> Z -> Z * G) (libc_rand : L -> Z * L).
  Notation process := (process dbg live e iv G L z_range z_bits libc_rand).
  Notation draws := (draws G L z_range z_bits libc_rand).
  Notation draw1 := (draw1 G L z_range z_bits libc_rand).
  Notation gens := (gens G L).
  Notation start := (start G L gmp_default libc_default).

  Definition drawn (r : list (call * list Z * res value)) : list (list Z) := map (fun x => snd (fst x)) r.

  Lemma process_shape p : forall p' g, same_shape p p' -> drawn (process g p) = drawn (process g p').
  Proof.
    unfold same_shape, drawn. induction p as [|c p IH]; intros [|c' p'] g H; try discriminate H; [reflexivity|].
    cbn [map] in H. injection H as Hc Hp. cbn [RngModel.process]. rewrite (shape_requests c c' Hc).
    destruct (draws g (requests c')) as [v g1]. cbn [map fst snd]. rewrite (IH p' g1 Hp). reflexivity.
  Qed.
  Lemma L_C57_same w w' p p' : same_shape p p' -> drawn (process (start w) p) = drawn (process (start w') p').
  Proof. intros H. apply process_shape, H. Qed.

  (** the results are the answers to the calls *)
  Lemma process_nth p : forall g i c v r, nth_error (process g p) i = Some (c, v, r) ->
    nth_error p i = Some c /\ r = answer dbg live e iv c v.
  Proof.
    induction p as [|c0 p IH]; intros g i c v r H; [destruct i; discriminate H|]. cbn [RngModel.process] in H.
    destruct (draws g (requests c0)) as [v0 g1]. destruct i as [|i]; cbn [nth_error] in *; [injection H as <- <- <-; split; reflexivity|exact (IH _ _ _ _ _ H)].
  Qed.
  Lemma same_draws w w' p p' i c v r c' v' r' : same_shape p p' ->
    nth_error (process (start w) p) i = Some (c, v, r) -> nth_error (process (start w') p') i = Some (c', v', r') -> v = v'.
  Proof.
    intros S H H'. pose proof (L_C57_same w w' p p' S) as E. unfold drawn in E.
    apply (f_equal (fun l => nth_error l i)) in E. rewrite !nth_error_map, H, H' in E. cbn in E. congruence.
  Qed.

  (** one generator at a time *)
  Definition at_source (s : source) (g g' : gens) : Prop :=
    match s with SCurve => g_curve G L g = g_curve G L g' | SUtils => g_utils G L g = g_utils G L g' | SLibc => g_libc G L g = g_libc G L g' end.
  Definition is_source (s s' : source) : bool :=
    match s, s' with SCurve, SCurve | SUtils, SUtils | SLibc, SLibc => true | _, _ => false end.
  Lemma is_source_eq s s' : is_source s s' = true <-> s = s'.
  Proof. destruct s, s'; cbn; split; congruence. Qed.

  Lemma draw1_other s g q : source_of q <> s -> at_source s (snd (draw1 g q)) g.
  Proof.
    destruct q; cbn [source_of RngModel.draw1]; intros H; [destruct (z_range _ _)|destruct (z_bits _ _)|destruct (libc_rand _)];
      destruct s; cbn; congruence.
  Qed.
  Lemma draw1_same s g g' q : source_of q = s -> at_source s g g' ->
    fst (draw1 g q) = fst (draw1 g' q) /\ at_source s (snd (draw1 g q)) (snd (draw1 g' q)).
  Proof.
    destruct q; cbn [source_of RngModel.draw1]; intros <- H; cbn [at_source] in H; rewrite H;
      [destruct (z_range _ _)|destruct (z_bits _ _)|destruct (libc_rand _)]; split; reflexivity.
  Qed.
  Lemma at_trans s g1 g2 g3 : at_source s g1 g2 -> at_source s g2 g3 -> at_source s g1 g3.
  Proof. destruct s; cbn; congruence. Qed.
  Lemma at_sym s g1 g2 : at_source s g1 g2 -> at_source s g2 g1.
  Proof. destruct s; cbn; congruence. Qed.

  (** the values a generator gives to a list of requests to it *)
  Fixpoint only (g : gens) (l : list request) : list Z :=
    match l with [] => [] | q :: t => fst (draw1 g q) :: only (snd (draw1 g q)) t end.
  Lemma only_at s l : forall g g', (forall q, In q l -> source_of q = s) -> at_source s g g' -> only g l = only g' l.
  Proof.
    induction l as [|q l IH]; intros g g' A H; [reflexivity|]. cbn [only].
    destruct (draw1_same s g g' q (A q (or_introl eq_refl)) H) as [E1 E2]. rewrite E1. f_equal. apply IH; [|exact E2]. intros x Hx. apply A. right. exact Hx.
  Qed.
  Lemma draws_cons g q l : draws g (q :: l) = (fst (draw1 g q) :: fst (draws (snd (draw1 g q)) l), snd (draws (snd (draw1 g q)) l)).
  Proof. cbn [RngModel.draws]. destruct (draw1 g q) as [x g1]. cbn [fst snd]. destruct (draws g1 l). reflexivity. Qed.
  Lemma draws_only s l : forall g, from s l (fst (draws g l)) = only g (asked s l).
  Proof.
    induction l as [|q l IH]; intros g; [reflexivity|]. rewrite draws_cons. cbn [fst]. unfold from, asked in *. cbn [combine filter fst].
    fold (is_source (source_of q) s). destruct (is_source (source_of q) s) eqn:E.
    - cbn [map only snd]. rewrite IH. reflexivity.
    - rewrite IH. apply (only_at s).
      + intros x Hx. apply filter_In in Hx. apply is_source_eq. exact (proj2 Hx).
      + apply draw1_other. intros F. apply is_source_eq in F. congruence.
  Qed.
  Lemma only_app l1 : forall g l2, exists v, only g (l1 ++ l2) = only g l1 ++ v.
  Proof.
    induction l1 as [|q l1 IH]; intros g l2; [exists (only g l2); reflexivity|]. cbn [app only].
    destruct (IH (snd (draw1 g q)) l2) as [v ->]. exists v. reflexivity.
  Qed.
  Lemma L_C57_source w w' s l l' more : asked s l' = asked s l ++ more ->
    exists rest, from s l' (fst (draws (start w') l')) = from s l (fst (draws (start w) l)) ++ rest.
  Proof. intros E. rewrite !draws_only, E. apply only_app. Qed.

  Lemma only_curve l : forall g, (forall q, In q l -> source_of q = SCurve) -> only g l = stream z_range (g_curve G L g) (map parameter l).
  Proof.
    induction l as [|q l IH]; intros g A; [reflexivity|]. cbn [only map stream]. pose proof (A q (or_introl eq_refl)) as Q.
    destruct q; try discriminate Q. rewrite IH by (intros x Hx; apply A; right; exact Hx). cbn [RngModel.draw1 parameter].
    destruct (z_range (g_curve G L g) m). reflexivity.
  Qed.
  Lemma only_utils l : forall g, (forall q, In q l -> source_of q = SUtils) -> only g l = stream z_bits (g_utils G L g) (map parameter l).
  Proof.
    induction l as [|q l IH]; intros g A; [reflexivity|]. cbn [only map stream]. pose proof (A q (or_introl eq_refl)) as Q.
    destruct q; try discriminate Q. rewrite IH by (intros x Hx; apply A; right; exact Hx). cbn [RngModel.draw1 parameter].
    destruct (z_bits (g_utils G L g) n). reflexivity.
  Qed.
  Lemma only_libc l : forall g, (forall q, In q l -> source_of q = SLibc) ->
    only g l = stream (fun s _ => libc_rand s) (g_libc G L g) (map parameter l).
  Proof.
    induction l as [|q l IH]; intros g A; [reflexivity|]. cbn [only map stream]. pose proof (A q (or_introl eq_refl)) as Q.
    destruct q; try discriminate Q. rewrite IH by (intros x Hx; apply A; right; exact Hx). cbn [RngModel.draw1 parameter].
    destruct (libc_rand (g_libc G L g)). reflexivity.
  Qed.
  Lemma asked_source s l q : In q (asked s l) -> source_of q = s.
  Proof. intros H. unfold asked in H. apply filter_In in H. destruct H as [_ H]. destruct (source_of q), s; try reflexivity; discriminate H. Qed.
  Lemma L_C57_stream w l :
    from SCurve l (fst (draws (start w) l)) = stream z_range gmp_default (map parameter (asked SCurve l)) /\
    from SUtils l (fst (draws (start w) l)) = stream z_bits gmp_default (map parameter (asked SUtils l)) /\
    from SLibc l (fst (draws (start w) l)) = stream (fun s _ => libc_rand s) libc_default (map parameter (asked SLibc l)).
  Proof.
    rewrite !draws_only. rewrite only_curve by (intros q; apply asked_source). rewrite only_utils by (intros q; apply asked_source).
    rewrite only_libc by (intros q; apply asked_source). split; [|split]; reflexivity.
  Qed.

  (** every value used is drawn *)
  Lemma dr_app v w i : (i < length v)%nat -> dr (v ++ w) i = dr v i.
  Proof. intros H. unfold dr. apply app_nth1. exact H. Qed.
  Lemma quad_app v w i : (i + 3 < length v)%nat -> quad_at (v ++ w) i = quad_at v i.
  Proof. intros H. unfold quad_at. rewrite !dr_app by lia. reflexivity. Qed.
  Lemma mapM_ext_in {A B} (f g : A -> res B) l : (forall x, In x l -> f x = g x) -> mapM f l = mapM g l.
  Proof.
    induction l as [|x l IH]; intros H; [reflexivity|]. cbn [mapM]. rewrite (H x (or_introl eq_refl)). rewrite IH; [reflexivity|].
    intros y Hy. apply H. right. exact Hy.
  Qed.
  Lemma prep_app T v w : (66 <= length v)%nat ->
    prepareKeysAndInputs dbg live e iv T (prep_of (v ++ w)) = prepareKeysAndInputs dbg live e iv T (prep_of v).
  Proof.
    intros H. unfold prepareKeysAndInputs, prep_of. cbn [d_kopprf d_r d_lt d_eq d_gt d_ok]. rewrite !dr_app by lia.
    assert (M : forall j, In j (seq 0 MSG_BITS) -> (j < 16)%nat) by (intros j Hj; apply in_seq in Hj; unfold MSG_BITS in Hj; lia).
    rewrite (mapM_ext_in (fun j => getRandomScalar live CV (scur T) (dr (v ++ w) (5 + 4 * j))) (fun j => getRandomScalar live CV (scur T) (dr v (5 + 4 * j))))
      by (intros j Hj; apply M in Hj; rewrite dr_app by lia; reflexivity).
    rewrite (map_ext_in (fun j => dr (v ++ w) (2 + 4 * j)) (fun j => dr v (2 + 4 * j))) by (intros j Hj; apply M in Hj; apply dr_app; lia).
    rewrite (map_ext_in (fun j => dr (v ++ w) (3 + 4 * j)) (fun j => dr v (3 + 4 * j))) by (intros j Hj; apply M in Hj; apply dr_app; lia).
    rewrite (map_ext_in (fun j => dr (v ++ w) (4 + 4 * j)) (fun j => dr v (4 + 4 * j))) by (intros j Hj; apply M in Hj; apply dr_app; lia).
    reflexivity.
  Qed.
  Lemma L_C57_enough c v w : length v = length (requests c) -> answer dbg live e iv c v = answer dbg live e iv c (v ++ w).
  Proof.
    intros H. destruct c; cbn [requests length] in H; cbn [answer].
    - destruct mu; cbn [length] in H; [rewrite !dr_app by lia; reflexivity|].
      unfold dme_new. rewrite !dr_app by lia. reflexivity.
    - rewrite !dr_app by lia; reflexivity.
    - rewrite !dr_app by lia; reflexivity.
    - rewrite !dr_app by lia; reflexivity.
    - rewrite !dr_app by lia; reflexivity.
    - rewrite !dr_app by lia; reflexivity.
    - rewrite !dr_app by lia; reflexivity.
    - rewrite !dr_app by lia; reflexivity.
    - rewrite !dr_app by lia; reflexivity.
    - change (length v = 66%nat) in H. rewrite prep_app by lia. reflexivity.
    - destruct (round =? BITS).
      + rewrite repeat_length in H. rewrite !quad_app by lia. reflexivity.
      + rewrite app_length, app_length, !repeat_length in H. cbn [length] in H. rewrite !quad_app, !dr_app by lia. reflexivity.
    - rewrite !dr_app by lia; reflexivity.
    - rewrite repeat_length in H. unfold getShares. destruct (_ || _); [reflexivity|].
      rewrite (mapM_ext_in (fun i => coef (dr (v ++ w) i)) (fun i => coef (dr v i))); [reflexivity|].
      intros i Hi. apply in_seq in Hi. rewrite dr_app by lia. reflexivity.
  Qed.

  (** secret keys *)
  Lemma KeyGen_sk D b r kp : KeyGen dbg live D b r = Ok kp -> ksk kp = fe_new FIELD_n r.
  Proof.
    unfold KeyGen. intros H. apply bind_Ok in H. destruct H as [sk [E H]]. apply bind_Ok in H. destruct H as [pk [_ H]].
    apply Ok_inj in H. subst kp. unfold getRandomScalar in E. apply bind_Ok in E. destruct E as [u [_ E]]. apply Ok_inj in E. subst sk. reflexivity.
  Qed.
  Lemma wrap_Ok {A} (f : A -> value) (r : res A) x : Ok x = wrap f r -> exists a, r = Ok a /\ x = f a.
  Proof. destruct r; cbn; intros H; [injection H as ->; eexists; split; reflexivity|discriminate H]. Qed.

  Lemma L_C57_secret w w' p p' i D b D' b' v v' kp kp' : same_shape p p' ->
    nth_error (process (start w) p) i = Some (CKeyGen D b, v, Ok (VKeys kp)) ->
    nth_error (process (start w') p') i = Some (CKeyGen D' b', v', Ok (VKeys kp')) -> ksk kp = ksk kp'.
  Proof.
    intros S H H'. pose proof (same_draws w w' p p' i _ _ _ _ _ _ S H H') as ->.
    apply process_nth in H, H'. destruct H as [_ H], H' as [_ H']. cbn [answer] in H, H'.
    apply wrap_Ok in H, H'. destruct H as [k [H E]], H' as [k' [H' E']]. injection E as <-. injection E' as <-.
    rewrite (KeyGen_sk _ _ _ _ H), (KeyGen_sk _ _ _ _ H'). reflexivity.
  Qed.
End Rng.

Section Group.
  Variables (dbg : bool) (live : Z -> bool) (e : env) (iv : list Z).
  Variables (G L : Type) (gmp_default : G) (libc_default : L).
  Variables (z_range : G -> Z -> Z * G) (z_bits : G -> Z -> Z * G) (libc_rand : L -> Z * L).
  Notation process := (process dbg live e iv G L z_range z_bits libc_rand).
  Notation start := (start G L gmp_default libc_default).
  Notation n := (fieldn CV).
  Let Hn : prime n := prime_n CV good_CV.
  Let HF := field_Fp n Hn.
  Add Field RngField : HF.
  Notation rf := (rf live CV).
  Notation mk := (mk n).

  Lemma same_drf D D' c a0 a1 b0 b1 : drf live D c a0 a1 b0 b1 -> dme_ok live D' -> same_crs (dcrs D') (dcrs D) ->
    exists c', drf live D' c' a0 a1 b0 b1.
  Proof.
    intros K OK [S0 [S1 [S2 S3]]]. destruct (ok_drf live D' OK) as [c' [a0' [a1' [b0' [b1' K']]]]]. exists c'.
    destruct K as [_ _ A B A' B'], K' as [C' L' A1 B1 A2 B2].
    apply (same_rf live _ _ _ _ A1 A) in S0. apply (same_rf live _ _ _ _ B1 B) in S1. apply (same_rf live _ _ _ _ A2 A') in S2. apply (same_rf live _ _ _ _ B2 B') in S3.
    subst. constructor; assumption.
  Qed.

  Lemma select_rf R c a0 a1 b0 b1 b r R' pk : drf live (rdme R) c a0 a1 b0 b1 -> branch b ->
    selectMsg dbg live R b r = Ok (R', pk) -> rf (pg pk) (fmul n (mk r) (pick b a0 a1)) /\ rf (ph pk) (fmul n (mk r) (pick b b0 b1)).
  Proof.
    intros K Hb H. unfold selectMsg in H. destruct (KeyGen_rf dbg live _ _ _ _ _ _ b r K Hb) as [kp [E [X [Y _]]]].
    rewrite E in H. cbn [bind] in H. apply Ok_inj in H. injection H as _ <-. split; assumption.
  Qed.

  (** an observer finds the branch *)
  Lemma L_C57_branch w w' p p' i R R' b b' v v' R1 pk R1' pk' : same_shape p p' ->
    nth_error (process (start w) p) i = Some (CSelect R b, v, Ok (VRecv (R1, pk))) ->
    nth_error (process (start w') p') i = Some (CSelect R' b', v', Ok (VRecv (R1', pk'))) ->
    dme_ok live (rdme R) -> dme_ok live (rdme R') -> same_crs (dcrs (rdme R')) (dcrs (rdme R)) -> branch b -> branch b' ->
    ~ same_point (g0 (dcrs (rdme R))) (g1 (dcrs (rdme R))) -> ~ (order | nth 0 v 0) ->
    (same_pkey pk pk' <-> b = b').
  Proof.
    intros S H H' OK OK' SC Hb Hb' NG Nr.
    pose proof (same_draws dbg live e iv G L gmp_default libc_default z_range z_bits libc_rand w w' p p' i _ _ _ _ _ _ S H H') as <-.
    apply process_nth in H, H'. destruct H as [_ H], H' as [_ H']. cbn [answer] in H, H'.
    apply wrap_Ok in H, H'. destruct H as [k [H E]], H' as [k' [H' E']]. injection E as <-. injection E' as <-.
    unfold dr in *. rewrite <- mk_order_0 in Nr. set (r := nth 0 v 0) in *.
    destruct (ok_drf live _ OK) as [c [a0 [a1 [b0 [b1 K]]]]]. destruct (same_drf _ _ _ _ _ _ _ K OK' SC) as [c' K'].
    destruct (select_rf _ _ _ _ _ _ _ _ _ _ K Hb H) as [X Y]. destruct (select_rf _ _ _ _ _ _ _ _ _ _ K' Hb' H') as [X' Y'].
    destruct K as [_ _ A B _ _]. rewrite (same_rf live _ _ _ _ A B) in NG.
    unfold same_pkey. rewrite (same_rf live _ _ _ _ X X'), (same_rf live _ _ _ _ Y Y'). split; [|intros ->; split; reflexivity].
    intros [E _].
    assert (E2 : pick b a0 a1 = pick b' a0 a1).
    { transitivity (fdiv n (fmul n (mk r) (pick b a0 a1)) (mk r)); [field; exact Nr|rewrite E; field; exact Nr]. }
    destruct Hb as [-> | ->], Hb' as [-> | ->]; try reflexivity; exfalso; apply NG; unfold pick in E2; cbn in E2; congruence.
  Qed.

  (** an observer recognises the message *)
  Lemma L_C57_message w w' p p' i D D' pk b m m' v v' c c' : same_shape p p' ->
    nth_error (process (start w) p) i = Some (CEnc D pk b m, v, Ok (VCtxt c)) ->
    nth_error (process (start w') p') i = Some (CEnc D' pk b m', v', Ok (VCtxt c')) ->
    dme_ok live D -> dme_ok live D' -> same_crs (dcrs D') (dcrs D) -> branch b -> pk_valid live pk -> is_valid live m -> is_valid live m' ->
    (same_ctxt c c' <-> same_point m m').
  Proof.
    intros S H H' OK OK' SC Hb [VX VY] V V'.
    pose proof (same_draws dbg live e iv G L gmp_default libc_default z_range z_bits libc_rand w w' p p' i _ _ _ _ _ _ S H H') as <-.
    apply process_nth in H, H'. destruct H as [_ H], H' as [_ H']. cbn [answer] in H, H'.
    apply wrap_Ok in H, H'. destruct H as [k [H E]], H' as [k' [H' E']]. injection E as <-. injection E' as <-.
    destruct (ok_drf live _ OK) as [cc [a0 [a1 [b0 [b1 K]]]]]. destruct (same_drf _ _ _ _ _ _ _ K OK' SC) as [cc' K'].
    destruct (val_rf live _ VX) as [x X], (val_rf live _ VY) as [y Y], (val_rf live _ V) as [z M], (val_rf live _ V') as [z' M'].
    destruct (Enc_rf dbg live _ _ _ _ _ _ b pk x y m z (dr v 0) (dr v 1) K Hb X Y M) as [ct [E [U W]]].
    destruct (Enc_rf dbg live _ _ _ _ _ _ b pk x y m' z' (dr v 0) (dr v 1) K' Hb X Y M') as [ct' [E' [U' W']]].
    rewrite H in E. apply Ok_inj in E. subst ct. rewrite H' in E'. apply Ok_inj in E'. subst ct'.
    unfold same_ctxt. rewrite (same_rf live _ _ _ _ U U'), (same_rf live _ _ _ _ W W'), (same_rf live _ _ _ _ M M').
    split; [|intros ->; split; reflexivity]. intros [_ E].
    transitivity (fsub n (fadd n (fadd n (fmul n (mk (dr v 0)) x) (fmul n (mk (dr v 1)) y)) z) (fadd n (fmul n (mk (dr v 0)) x) (fmul n (mk (dr v 1)) y))); [ring|].
    rewrite E. ring.
  Qed.
End Group.

(** a generator that counts, for the examples *)
Definition count_range (g m : Z) : Z * Z := (g mod m, g + 1).
Definition count_bits (g k : Z) : Z * Z := (g mod 2 ^ k, g + 1).
Definition count_rand (g : Z) : Z * Z := (g mod 2 ^ 31, g + 1).

Lemma L_C57_case dbg live e iv w w' c : live c = true ->
  let run := fun (o : outside) p => process dbg live e iv Z Z count_range count_bits count_rand (start Z Z 5 7 o) p in
  exists R R1 pk R1' pk', dme_ok live (rdme R) /\ ~ same_point (g0 (dcrs (rdme R))) (g1 (dcrs (rdme R))) /\
    nth_error (run w [CSelect R 0]) 0 = Some (CSelect R 0, [5], Ok (VRecv (R1, pk))) /\
    nth_error (run w' [CSelect R 1]) 0 = Some (CSelect R 1, [5], Ok (VRecv (R1', pk'))) /\
    same_shape [CSelect R 0] [CSelect R 1] /\ ~ (order | 5) /\ rsk R1 = rsk R1'.
Proof.
  intros L run. destruct (L_C26_logs dbg live c messy 2 3 1 2 L) as [D [E [OK [A [B [A' B']]]]]].
  destruct (ok_drf live D OK) as [cc [a0 [a1 [b0 [b1 K]]]]].
  destruct (KeyGen_rf dbg live D cc a0 a1 b0 b1 0 5 K (or_introl eq_refl)) as [kp [EK [_ [_ SK]]]].
  destruct (KeyGen_rf dbg live D cc a0 a1 b0 b1 1 5 K (or_intror eq_refl)) as [kp' [EK' [_ [_ SK']]]].
  assert (D5 : 5 mod c_order CV = 5) by reflexivity.
  exists (otrecv_new D), (mkrecv D (ksk kp) (Some 0)), (kpk kp), (mkrecv D (ksk kp') (Some 1)), (kpk kp').
  split; [exact OK|]. split.
  - apply multiple_rf in A, B. cbn [otrecv_new rdme]. rewrite (same_rf live _ _ _ _ A B), mk_order_eq. apply ndiv. vm_compute. split; reflexivity.
  - split; [|split; [|split; [reflexivity|split; [apply ndiv; vm_compute; split; reflexivity|]]]].
    + unfold run. cbn [process requests draws draw1 start g_curve count_range order_range nth_error answer]. unfold dr. cbn [nth].
      rewrite D5. unfold selectMsg. cbn [otrecv_new rdme]. rewrite EK. reflexivity.
    + unfold run. cbn [process requests draws draw1 start g_curve count_range order_range nth_error answer]. unfold dr. cbn [nth].
      rewrite D5. unfold selectMsg. cbn [otrecv_new rdme]. rewrite EK'. reflexivity.
    + cbn [rsk]. rewrite SK, SK'. reflexivity.
Qed.
