(** The oblivious PRF when the point that hides the shares is infinite, or one of the scalars is zero. *)
From Coq Require Import ZArith Znumtheory Bool List Lia.
From Verif Require Import Outcome FieldModel ZpField SpecField FieldProofs ECGroup ECOrder CurveParams CurveFacts EccModel EccProofs SpecEcc EccThms Emb RF DmeModel SpecDme DmeProofs OtModel OtProofs SpecOt CrcModel AesModel OpprfModel SpecOpprf SpecOpprf6 OpprfProofs OpprfProofs8 OpprfProofs15 SpecCount CountMath SpecDdh SpecDdh2 SpecDdh3 SpecDdh4 DdhProofs DdhProofs2 DdhCases DdhMany DdhMany2 DdhHear DdhHear5 SpecCheat CheatProofs CheatProofs2 SpecIdeal IdealProofs SpecClient SpecClient2 ClientMath ClientProofs ClientProofs2 ClientProofs3 ClientProofs4 ClientProofs5.
Import ListNotations.
Open Scope Z_scope.

(** ** The draws whose product is zero *)
Lemma zero_product x o : draw x -> draw o -> ((order | x * o) <-> x = 0 \/ o = 0).
Proof.
  intros X O. split.
  - intros D. apply prime_mult in D; [|exact prime_order]. destruct D as [D|D]; [left; apply (proj1 (draw_order x X)); exact D|right; apply (proj1 (draw_order o O)); exact D].
  - intros [->| ->]; exists 0; ring.
Qed.
Lemma zero_products : how_many (fun w : Z * Z => draw (fst w) /\ draw (snd w) /\ (order | fst w * snd w)) (2 * order - 1).
Proof.
  assert (OP : 1 < order) by (vm_compute; reflexivity).
  assert (DR : how_many draw order) by (pose proof (range_count 0 order ltac:(lia)) as X; rewrite Z.sub_0_r in X; exact X).
  pose proof (how_many_prod (fun x => 0 <= x < 1) draw 1 order (range_count 0 1 ltac:(lia)) DR) as C1.
  pose proof (how_many_prod (fun x => 1 <= x < order) (fun x => 0 <= x < 1) (order - 1) 1 (range_count 1 order ltac:(lia)) (range_count 0 1 ltac:(lia))) as C2.
  pose proof (how_many_or _ _ _ _ C1 C2 ltac:(intros [x o]; cbn [fst snd]; lia)) as C. replace (1 * order + (order - 1) * 1) with (2 * order - 1) in C by ring.
  refine (how_many_same _ _ _ _ C). intros [x o]. cbn [fst snd]. split.
  - intros [[A B]|[A B]]; unfold draw in *.
    + split; [lia|]. split; [exact B|]. replace x with 0 by lia. exists 0. reflexivity.
    + split; [lia|]. split; [lia|]. replace o with 0 by lia. exists 0. ring.
  - intros [A [B D]]. apply (proj1 (zero_product x o A B)) in D. unfold draw in *. lia.
Qed.

Section Client.
  Variables (dbg : bool) (live : Z -> bool).
  (** what the client takes for the secret: the share of branch 1 of round r, halved r - 1 times *)
  Definition guess (k r : Z) (y : reply) : elt :=
    match snd y with
    | [_; v] => gmul CV (halve (r - 1)) (undo k v)
    | _ => None
    end.
  Lemma halved_zero h t w q : h * t - 1 = q * order -> ((order | h * w) <-> (order | w)).
  Proof.
    intros E. split; [|intros D; apply Z.divide_mul_r; exact D]. intros [k D]. exists (t * k - q * w).
    replace ((t * k - q * w) * order) with (t * (k * order) - w * (q * order)) by ring. rewrite <- D, <- E. ring.
  Qed.
  Lemma guess_ok k j a w y v0 v1 : snd y = [v0; v1] -> undo k v1 = pow (2 ^ Z.of_nat j * a + w) -> (guess k (Z.of_nat (Datatypes.S j)) y = pow a <-> (order | w)).
  Proof.
    intros Y U. unfold guess. rewrite Y, U. replace (Z.of_nat (Datatypes.S j) - 1) with (Z.of_nat j) by lia. rewrite pow_mul.
    destruct (halve_ok (Z.of_nat j)) as [q Eq]; [lia|]. rewrite <- (halved_zero _ _ w q Eq).
    assert (X : halve (Z.of_nat j) * (2 ^ Z.of_nat j * a + w) - a = halve (Z.of_nat j) * w + a * q * order).
    { transitivity (halve (Z.of_nat j) * w + a * (halve (Z.of_nat j) * 2 ^ Z.of_nat j - 1)); [ring|]. rewrite Eq. ring. }
    rewrite pow_eq, X. split; intros D; [apply (Z.divide_add_cancel_r _ (a * q * order)); [exists (a * q); reflexivity|rewrite Z.add_comm; exact D]|apply Z.divide_add_r; [exact D|exists (a * q); reflexivity]].
  Qed.
  Lemma guessed O pk : dme_ok live (sdme O) -> pk_valid live pk -> revealed dbg live O pk 1 ->
    exists k, forall e iv S a p r qa qb qc qp u v, aes_ready e iv -> server_ready live S a -> sdme (ots S) = sdme O ->
      (forall s j, (j < 16)%nat -> 2 ^ 120 <= level_key p s j < 2 ^ 128) -> 1 <= r <= 16 ->
      exists S1 S2 o, prepareKeysAndInputs dbg live e iv S p = Ok S1 /\ runOTRound dbg live S1 r pk qa qb qc qp u v = Ok (S2, o) /\
        (guess k r (reply_of o) = den CV (ga S) <-> (order | d_r p * d_ok p (Z.to_nat (r - 1)))).
  Proof.
    intros OK [VX VY] R1. destruct (ok_like live _ OK) as [c [a0 [a1 [b0 [b1 HD]]]]].
    destruct (like_valid live _ VX) as [x HX]. destruct (like_valid live _ VY) as [y HY].
    destruct (either dbg live O c a0 a1 b0 b1 pk x y 1 HD HX HY (or_intror eq_refl)) as [[[k1 [A1 B1]] _]|H]; [|destruct (L_C117_not_both dbg live O pk 1 OK H R1)].
    cbn [at_branch Z.eqb] in A1, B1. exists k1. intros e iv S a p r qa qb qc qp u v AR SR DM KD RG.
    assert (HS : stands live (sdme (ots S)) (theta S) a S) by (split; [exact SR|split; reflexivity]).
    destruct (prepared_from dbg live e iv _ _ AR a S p HS KD) as [S1 [E1 P1]].
    assert (ER : r = Z.of_nat (Datatypes.S (Z.to_nat (r - 1)))) by lia. set (j := Z.to_nat (r - 1)) in *. assert (J : (j < 16)%nat) by (unfold j; lia).
    rewrite <- DM in HD. destruct (round_like dbg live e iv S S1 p a c a0 a1 b0 b1 pk x y j qa qb qc qp u v P1 HD HX HY J) as [S2 [o [m0 [m1 [E2 [_ [EV [M0 M1]]]]]]]].
    exists S1, S2, o. split; [exact E1|]. rewrite ER. split; [exact E2|]. rewrite (proj2 (sr_ga _ _ _ SR)), (Z.mul_comm (d_r p)).
    apply (guess_ok k1 j a (d_ok p j * d_r p) (reply_of o) _ _ EV). rewrite (undo_sees a1 b1 x y k1 m1 _ _ _ M1 A1 B1). exact M1.
  Qed.
  Lemma L_C124_guess O pk : dme_ok live (sdme O) -> pk_valid live pk -> revealed dbg live O pk 1 ->
    exists f, forall e iv S a p r qa qb qc qp u v, aes_ready e iv -> server_ready live S a -> sdme (ots S) = sdme O ->
      (forall s j, (j < 16)%nat -> 2 ^ 120 <= level_key p s j < 2 ^ 128) -> 1 <= r <= 16 ->
      (exists S1 S2 o, prepareKeysAndInputs dbg live e iv S p = Ok S1 /\ runOTRound dbg live S1 r pk qa qb qc qp u v = Ok (S2, o) /\
        (f r (reply_of o) = den CV (ga S) <-> (order | d_r p * d_ok p (Z.to_nat (r - 1))))) /\
      how_many (fun w : Z * Z => draw (fst w) /\ draw (snd w) /\ exists S1 S2 o, prepareKeysAndInputs dbg live e iv S (with_pair p (fst w) r (snd w)) = Ok S1 /\
        runOTRound dbg live S1 r pk qa qb qc qp u v = Ok (S2, o) /\ f r (reply_of o) = den CV (ga S)) (2 * order - 1).
  Proof.
    intros OK VK R1. destruct (guessed O pk OK VK R1) as [k H]. exists (guess k). intros e iv S a p r qa qb qc qp u v AR SR DM KD RG.
    split; [exact (H e iv S a p r qa qb qc qp u v AR SR DM KD RG)|]. refine (how_many_same _ _ _ _ zero_products). intros [x w]. cbn [fst snd].
    destruct (H e iv S a (with_pair p x r w) r qa qb qc qp u v AR SR DM KD RG) as [S1 [S2 [o [E1 [E2 X]]]]].
    cbn [with_pair d_r d_ok] in X. rewrite Nat.eqb_refl in X. split; intros [DX [DW Y]]; (split; [exact DX|]; split; [exact DW|]).
    - exists S1, S2, o. split; [exact E1|]. split; [exact E2|]. exact (proj2 X Y).
    - destruct Y as [T1 [T2 [o' [F1 [F2 Y]]]]]. rewrite E1 in F1. apply Ok_inj in F1. subst T1. rewrite E2 in F2. apply Ok_inj in F2. injection F2 as <- <-. exact (proj1 X Y).
  Qed.
End Client.
