(** Which strings of DME_DDH(messy) and DME_DDH(dec) have a key that reveals both messages. *)
From Coq Require Import ZArith Znumtheory Bool List Lia.
From Verif Require Import Outcome FieldModel ZpField SpecField FieldProofs ECGroup ECOrder CurveParams CurveFacts EccModel EccProofs SpecEcc EccThms Emb RF DmeModel SpecDme DmeProofs OtModel OtProofs AesModel OpprfModel SpecOpprf OpprfProofs SpecCount CountMath SpecDdh SpecDdh2 SpecDdh3 SpecDdh4 DdhProofs DdhCases DdhMany DdhMany2 DdhHear5 SpecCheat CheatProofs CheatProofs2 CheatCase.
Import ListNotations.
Open Scope Z_scope.

(** ** The logarithms *)
Lemma cond_messy r1 r2 r3 r4 : cond r3 (r1 * r3) r4 (r2 * r4) <-> (order | r1 - r2) /\ ~ (order | r3) /\ ~ (order | r4).
Proof.
  split.
  - intros [k0 [k1 [F [A B]]]].
    assert (N : ~ (order | k0 * r3)) by (intros X; apply F; split; [exact X|]; replace (k0 * (r1 * r3)) with (r1 * (k0 * r3)) by ring; apply Z.divide_mul_r, X).
    assert (N3 : ~ (order | r3)) by (intros X; apply N, Z.divide_mul_r, X).
    assert (N4 : ~ (order | r4)) by (intros X; apply N; replace (k0 * r3) with (1 * (k0 * r3 - k1 * r4) + k1 * r4) by ring; apply order_lin; assumption).
    split; [|split; [exact N3|exact N4]]. assert (X : (order | (r1 - r2) * (k0 * r3))).
    { replace ((r1 - r2) * (k0 * r3)) with (1 * (k0 * (r1 * r3) - k1 * (r2 * r4)) + (- r2) * (k0 * r3 - k1 * r4)) by ring. apply order_lin; assumption. }
    apply order_mult in X. destruct X as [X|X]; [exact X|destruct (N X)].
  - intros [E [N3 N4]]. exists r4, r3. split; [|split].
    + intros [X _]. apply order_mult in X. destruct X as [X|X]; [exact (N4 X)|exact (N3 X)].
    + exists 0. ring.
    + replace (r4 * (r1 * r3) - r3 * (r2 * r4)) with (r3 * r4 * (r1 - r2)) by ring. apply Z.divide_mul_r, E.
Qed.
Lemma cond_dec r1 r2 r3 : cond r2 (r3 * r2) (r1 * r2) (r3 * (r1 * r2)) <-> ~ (order | r1) /\ ~ (order | r2).
Proof.
  split.
  - intros [k0 [k1 [F [A B]]]].
    assert (N : ~ (order | k0 * r2)) by (intros X; apply F; split; [exact X|]; replace (k0 * (r3 * r2)) with (r3 * (k0 * r2)) by ring; apply Z.divide_mul_r, X).
    split; [|intros X; apply N, Z.divide_mul_r, X]. intros X. apply N. replace (k0 * r2) with (1 * (k0 * r2 - k1 * (r1 * r2)) + (k1 * r2) * r1) by ring. apply order_lin; assumption.
  - intros [N1 N2]. exists r1, 1. split; [|split; exists 0; ring]. intros [X _]. apply order_mult in X. destruct X as [X|X]; [exact (N1 X)|exact (N2 X)].
Qed.
Lemma messy_count : how_many (fun '(r1, r2, r3, r4) => draw r1 /\ draw r2 /\ draw r3 /\ draw r4 /\ (order | r1 - r2) /\ ~ (order | r3) /\ ~ (order | r4)) (order * (order - 1) ^ 2).
Proof.
  assert (OP : 1 < order) by (vm_compute; reflexivity). pose proof (range_count 1 order ltac:(lia)) as C1.
  assert (C0 : how_many draw order) by (pose proof (range_count 0 order ltac:(lia)) as X; rewrite Z.sub_0_r in X; exact X).
  pose proof (how_many_prod _ _ _ _ (how_many_prod _ _ _ _ C0 C1) C1) as C. replace (order * (order - 1) ^ 2) with (order * (order - 1) * (order - 1)) by ring.
  refine (how_many_map (fun z : Z * Z * Z => let '(r, a, b) := z in (r, r, a, b)) _ _ _ C _ _).
  - intros [[r a] b] [[r' a'] b'] _ _ E. congruence.
  - intros [[[r1 r2] r3] r4]. split.
    + intros [D1 [D2 [D3 [D4 [E [N3 N4]]]]]]. assert (r1 = r2) as <-.
      { unfold draw in D1, D2. destruct E as [q E]. assert (q = 0) by nia. lia. }
      exists (r1, r3, r4). cbn [fst snd]. split; [|reflexivity]. unfold draw in *. split; [split; [exact D1|]|].
      * destruct (Z.eq_dec r3 0) as [->|]; [destruct N3; apply Z.divide_0_r|lia].
      * destruct (Z.eq_dec r4 0) as [->|]; [destruct N4; apply Z.divide_0_r|lia].
    + intros [[[r a] b] [[[D A] B] E]]. cbn [fst snd] in *. assert (r = r1 /\ r = r2 /\ a = r3 /\ b = r4) as [<- [<- [<- <-]]] by (split; [|split; [|split]]; congruence).
      unfold draw in *. split; [exact D|]. split; [exact D|]. split; [lia|]. split; [lia|]. split; [rewrite Z.sub_diag; apply Z.divide_0_r|].
      split; intros X; apply Z.divide_pos_le in X; lia.
Qed.
Lemma dec_count : how_many (fun '(r1, r2, r3) => draw r1 /\ draw r2 /\ draw r3 /\ ~ (order | r1) /\ ~ (order | r2)) (order * (order - 1) ^ 2).
Proof.
  assert (OP : 1 < order) by (vm_compute; reflexivity). pose proof (range_count 1 order ltac:(lia)) as C1.
  assert (C0 : how_many draw order) by (pose proof (range_count 0 order ltac:(lia)) as X; rewrite Z.sub_0_r in X; exact X).
  pose proof (how_many_prod _ _ _ _ (how_many_prod _ _ _ _ C1 C1) C0) as C. replace (order * (order - 1) ^ 2) with ((order - 1) * (order - 1) * order) by ring.
  refine (how_many_same _ _ _ _ C). intros [[r1 r2] r3]. cbn [fst snd]. unfold draw. split.
  - intros [[A B] D]. split; [lia|]. split; [lia|]. split; [exact D|]. split; intros X; apply Z.divide_pos_le in X; lia.
  - intros [D1 [D2 [D3 [N1 N2]]]]. split; [|exact D3]. split.
    + destruct (Z.eq_dec r1 0) as [->|]; [destruct N1; apply Z.divide_0_r|lia].
    + destruct (Z.eq_dec r2 0) as [->|]; [destruct N2; apply Z.divide_0_r|lia].
Qed.

Section Strings.
  Variables (dbg : bool) (live : Z -> bool) (c c2 : Z).
  Hypothesis LC : live c = true.
  Hypothesis LC2 : live c2 = true.
  Notation sender D := (otsndr_new (dme_new_crs c2 (dcrs D))).
  Lemma messy_like r1 r2 r3 r4 : exists D, dme_new dbg live c messy r1 r2 r3 r4 = Ok D /\ dlike live (sdme (sender D)) c2 r3 r4 (r1 * r3) (r2 * r4).
  Proof. destruct (new_messy_rf dbg live c r1 r2 r3 r4 LC) as [D [E [_ [_ K]]]]. rewrite !mk_mul in K. exists D. split; [exact E|exact (moved_like live D c c2 _ _ _ _ LC2 K)]. Qed.
  Lemma dec_like r1 r2 r3 r4 : exists D, dme_new dbg live c dec r1 r2 r3 r4 = Ok D /\ dlike live (sdme (sender D)) c2 r2 (r1 * r2) (r3 * r2) (r3 * (r1 * r2)).
  Proof. destruct (new_dec_rf dbg live c r1 r2 r3 r4 LC) as [D [E [_ K]]]. rewrite !mk_mul in K. exists D. split; [exact E|exact (moved_like live D c c2 _ _ _ _ LC2 K)]. Qed.
  Lemma messy_double r1 r2 r3 r4 D : dme_new dbg live c messy r1 r2 r3 r4 = Ok D -> (double_string dbg live (sender D) <-> (order | r1 - r2) /\ ~ (order | r3) /\ ~ (order | r4)).
  Proof.
    intros E. destruct (messy_like r1 r2 r3 r4) as [D' [E' L]]. rewrite E in E'. apply Ok_inj in E'. subst D'. rewrite (double_cond dbg live (sender D) c2 _ _ _ _ L). apply cond_messy.
  Qed.
  Lemma dec_double r1 r2 r3 r4 D : dme_new dbg live c dec r1 r2 r3 r4 = Ok D -> (double_string dbg live (sender D) <-> ~ (order | r1) /\ ~ (order | r2)).
  Proof.
    intros E. destruct (dec_like r1 r2 r3 r4) as [D' [E' L]]. rewrite E in E'. apply Ok_inj in E'. subst D'. rewrite (double_cond dbg live (sender D) c2 _ _ _ _ L). apply cond_dec.
  Qed.
End Strings.

Lemma L_C126_messy dbg live c c2 r1 r2 r3 r4 D : live c = true -> live c2 = true -> dme_new dbg live c messy r1 r2 r3 r4 = Ok D ->
  (double_string dbg live (otsndr_new (dme_new_crs c2 (dcrs D))) <-> (order | r1 - r2) /\ ~ (order | r3) /\ ~ (order | r4)).
Proof. intros LC LC2. exact (messy_double dbg live c c2 LC LC2 r1 r2 r3 r4 D). Qed.
Lemma L_C126_dec dbg live c c2 r1 r2 r3 r4 D : live c = true -> live c2 = true -> dme_new dbg live c dec r1 r2 r3 r4 = Ok D ->
  (double_string dbg live (otsndr_new (dme_new_crs c2 (dcrs D))) <-> ~ (order | r1) /\ ~ (order | r2)).
Proof. intros LC LC2. exact (dec_double dbg live c c2 LC LC2 r1 r2 r3 r4 D). Qed.
Lemma L_C126_count dbg live c c2 : live c = true -> live c2 = true ->
  how_many (fun '(r1, r2, r3, r4) => draw r1 /\ draw r2 /\ draw r3 /\ draw r4 /\
    exists D, dme_new dbg live c messy r1 r2 r3 r4 = Ok D /\ double_string dbg live (otsndr_new (dme_new_crs c2 (dcrs D)))) (order * (order - 1) ^ 2) /\
  forall r4, how_many (fun '(r1, r2, r3) => draw r1 /\ draw r2 /\ draw r3 /\
    exists D, dme_new dbg live c dec r1 r2 r3 r4 = Ok D /\ double_string dbg live (otsndr_new (dme_new_crs c2 (dcrs D)))) (order * (order - 1) ^ 2).
Proof.
  intros LC LC2. split.
  - refine (how_many_same _ _ _ _ messy_count). intros [[[r1 r2] r3] r4]. destruct (messy_like dbg live c c2 LC LC2 r1 r2 r3 r4) as [D [E _]].
    pose proof (messy_double dbg live c c2 LC LC2 r1 r2 r3 r4 D E) as X.
    split; intros [D1 [D2 [D3 [D4 Y]]]]; (split; [exact D1|]; split; [exact D2|]; split; [exact D3|]; split; [exact D4|]).
    + exists D. split; [exact E|]. exact (proj2 X Y).
    + destruct Y as [D' [E' Y]]. rewrite E in E'. apply Ok_inj in E'. subst D'. exact (proj1 X Y).
  - intros r4. refine (how_many_same _ _ _ _ dec_count). intros [[r1 r2] r3]. destruct (dec_like dbg live c c2 LC LC2 r1 r2 r3 r4) as [D [E _]].
    pose proof (dec_double dbg live c c2 LC LC2 r1 r2 r3 r4 D E) as X.
    split; intros [D1 [D2 [D3 Y]]]; (split; [exact D1|]; split; [exact D2|]; split; [exact D3|]).
    + exists D. split; [exact E|]. exact (proj2 X Y).
    + destruct Y as [D' [E' Y]]. rewrite E in E'. apply Ok_inj in E'. subst D'. exact (proj1 X Y).
Qed.
Lemma case126 dbg live c c2 : live c = true -> live c2 = true ->
  exists D1 D2 D3 D4, dme_new dbg live c messy 2 3 1 2 = Ok D1 /\ dme_new dbg live c messy 2 2 1 2 = Ok D2 /\ dme_new dbg live c dec 2 1 3 0 = Ok D3 /\ dme_new dbg live c dec 0 1 3 0 = Ok D4 /\
    ~ double_string dbg live (otsndr_new (dme_new_crs c2 (dcrs D1))) /\ double_string dbg live (otsndr_new (dme_new_crs c2 (dcrs D2))) /\
    double_string dbg live (otsndr_new (dme_new_crs c2 (dcrs D3))) /\ ~ double_string dbg live (otsndr_new (dme_new_crs c2 (dcrs D4))).
Proof.
  intros LC LC2. destruct (messy_like dbg live c c2 LC LC2 2 3 1 2) as [D1 [E1 _]]. destruct (messy_like dbg live c c2 LC LC2 2 2 1 2) as [D2 [E2 _]].
  destruct (dec_like dbg live c c2 LC LC2 2 1 3 0) as [D3 [E3 _]]. destruct (dec_like dbg live c c2 LC LC2 0 1 3 0) as [D4 [E4 _]].
  assert (S : forall z, 0 < z < 100 -> ~ (order | z)) by (intros z Z X; apply draw_order in X; [lia|apply small_draw; lia]).
  exists D1, D2, D3, D4. split; [exact E1|]. split; [exact E2|]. split; [exact E3|]. split; [exact E4|]. split; [|split; [|split]].
  - intros X. apply (messy_double dbg live c c2 LC LC2 _ _ _ _ D1 E1) in X. destruct X as [X _]. apply (S 1 ltac:(lia)). apply Z.divide_opp_r. exact X.
  - apply (messy_double dbg live c c2 LC LC2 _ _ _ _ D2 E2). split; [apply Z.divide_0_r|]. split; apply S; lia.
  - apply (dec_double dbg live c c2 LC LC2 _ _ _ _ D3 E3). split; apply S; lia.
  - intros X. apply (dec_double dbg live c c2 LC LC2 _ _ _ _ D4 E4) in X. destruct X as [X _]. apply X. apply Z.divide_0_r.
Qed.
