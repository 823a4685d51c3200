(** The oblivious PRF with a client that sends any public keys it likes, on any string. *)
From Coq Require Import ZArith Znumtheory Bool List Lia.
From Verif Require Import Outcome FieldModel ZpField SpecField FieldProofs ECGroup ECOrder CurveParams CurveFacts EccModel EccProofs SpecEcc EccThms Emb RF DmeModel SpecDme DmeProofs OtModel OtProofs SpecOt CrcModel AesModel OpprfModel SpecOpprf SpecOpprf6 OpprfProofs OpprfProofs8 OpprfProofs15 SpecCount CountMath SpecDdh SpecDdh2 SpecDdh3 SpecDdh4 DdhProofs DdhProofs2 DdhCases DdhMany DdhMany2 DdhHear DdhHear5 SpecCheat CheatProofs CheatProofs2 SpecIdeal IdealProofs SpecClient ClientMath ClientProofs ClientProofs2 ClientProofs3 ClientProofs4.
Import ListNotations.
Open Scope Z_scope.

Section Client.
  Variables (dbg : bool) (live : Z -> bool).
  Lemma single_knows (O : otsndr) pk : dme_ok live (sdme O) -> ~ double_string dbg live O -> some_key live pk -> knows live (sdme O) pk.
  Proof.
    intros OK ND SK. destruct (ok_like live _ OK) as [c [a0 [a1 [b0 [b1 HD]]]]]. pose proof (proj1 SK) as [VX VY].
    destruct (like_valid live _ VX) as [x HX]. destruct (like_valid live _ VY) as [y HY].
    destruct (shift_or_multiple a0 b0 x y) as [[k [H1 H2]]|R].
    - destruct (shift_or_multiple a1 b1 x y) as [[k' [H1' H2']]|R].
      + destruct ND. exists pk. split; [exact SK|]. split; [exact (revealed_if dbg live O c a0 a1 b0 b1 pk x y 0 k HD HX HY (or_introl eq_refl) H1 H2)|exact (revealed_if dbg live O c a0 a1 b0 b1 pk x y 1 k' HD HX HY (or_intror eq_refl) H1' H2')].
      + exists 1. split; [right; reflexivity|]. exists c, a0, a1, b0, b1, x, y. split; [exact HD|]. split; [exact HX|]. split; [exact HY|]. cbn [at_branch Z.eqb]. exact R.
    - exists 0. split; [left; reflexivity|]. exists c, a0, a1, b0, b1, x, y. split; [exact HD|]. split; [exact HX|]. split; [exact HY|]. cbn [at_branch Z.eqb]. exact R.
  Qed.
  Lemma L_C122_secret e iv S S' a a' K E A n : aes_ready e iv -> server_ready live S a -> server_ready live S' a' ->
    sdme (ots S') = sdme (ots S) -> theta S' = theta S -> ~ double_string dbg live (ots S) ->
    (forall H h, some_key live (K H h)) -> (forall H s j, (j < 16)%nat -> 2 ^ 120 <= level_key (sd_prep (fst (E H))) s j < 2 ^ 128) -> (forall H, ~ (order | d_r (sd_prep (fst (E H))))) ->
    exists N, convinced (fun l => evaluations dbg live e iv S K E l []) n A N /\ convinced (fun l => evaluations dbg live e iv S' K E l []) n A N.
  Proof.
    intros AR SR SR' DM TH ND HK KD NR.
    assert (H0 : stands live (sdme (ots S)) (theta S) a S) by (split; [exact SR|split; reflexivity]).
    assert (H1 : stands live (sdme (ots S)) (theta S) a' S') by (split; [exact SR'|split; [exact DM|exact TH]]).
    assert (KN : forall H h, knows live (sdme (ots S)) (K H h)) by (intros H h; exact (single_knows (ots S) (K H h) (sr_ots _ _ _ SR) ND (HK H h))).
    destruct (runs_count dbg live e iv _ _ AR a a' S S' K E A H0 H1 KD NR KN n []) as [N [C1 C2]]. exists N.
    split; [refine (how_many_same _ _ _ _ C1)|refine (how_many_same _ _ _ _ C2)]; intros l; split; (intros [L [F [H [EH AH]]]]; split; [exact L|]; split; [exact F|]; exists H; split; [|exact AH]).
    - rewrite (evaluations_ok dbg live e iv _ _ AR a a S S K E H0 H0 KD KN l S [] H0 F). exact EH.
    - rewrite <- (evaluations_ok dbg live e iv _ _ AR a a S S K E H0 H0 KD KN l S [] H0 F). exact EH.
    - rewrite (evaluations_ok dbg live e iv _ _ AR a' a S' S K E H1 H0 KD KN l S' [] H1 F). exact EH.
    - rewrite <- (evaluations_ok dbg live e iv _ _ AR a' a S' S K E H1 H0 KD KN l S' [] H1 F). exact EH.
  Qed.

  (** ** On the other strings *)
  Definition reads (k0 k1 r : Z) (y : reply) : elt :=
    match snd y with
    | [v0; v1] => gmul CV (halve (r - 1)) (gadd CV (undo k1 v1) (gneg CV (undo k0 v0)))
    | _ => None
    end.
  Lemma reads_ok k0 k1 j a w y v0 v1 : snd y = [v0; v1] -> undo k0 v0 = pow w -> undo k1 v1 = pow (2 ^ Z.of_nat j * a + w) -> reads k0 k1 (Z.of_nat (Datatypes.S j)) y = pow a.
  Proof.
    intros Y U0 U1. unfold reads. rewrite Y, U0, U1. replace (Z.of_nat (Datatypes.S j) - 1) with (Z.of_nat j) by lia. rewrite pow_neg, pow_add, pow_mul. apply pow_eq.
    destruct (halve_ok (Z.of_nat j)) as [q Eq]; [lia|]. exists (q * a).
    replace (halve (Z.of_nat j) * (2 ^ Z.of_nat j * a + w + - w) - a) with ((halve (Z.of_nat j) * 2 ^ Z.of_nat j - 1) * a) by ring. rewrite Eq. ring.
  Qed.
  Lemma L_C122_double O : dme_ok live (sdme O) -> double_string dbg live O ->
    exists pk f, some_key live pk /\ forall e iv S a p r qa qb qc qp u v, aes_ready e iv -> server_ready live S a -> sdme (ots S) = sdme O ->
      (forall s j, (j < 16)%nat -> 2 ^ 120 <= level_key p s j < 2 ^ 128) -> 1 <= r <= 16 ->
      exists S1 S2 o, prepareKeysAndInputs dbg live e iv S p = Ok S1 /\ runOTRound dbg live S1 r pk qa qb qc qp u v = Ok (S2, o) /\ f r (reply_of o) = den CV (ga S).
  Proof.
    intros OK [pk [SK [R0 R1]]]. destruct (ok_like live _ OK) as [c [a0 [a1 [b0 [b1 HD]]]]]. pose proof (proj1 SK) as [VX VY].
    destruct (like_valid live _ VX) as [x HX]. destruct (like_valid live _ VY) as [y HY].
    destruct (either dbg live O c a0 a1 b0 b1 pk x y 0 HD HX HY (or_introl eq_refl)) as [[[k0 [A0 B0]] _]|H]; [|destruct (L_C117_not_both dbg live O pk 0 OK H R0)].
    destruct (either dbg live O c a0 a1 b0 b1 pk x y 1 HD HX HY (or_intror eq_refl)) as [[[k1 [A1 B1]] _]|H]; [|destruct (L_C117_not_both dbg live O pk 1 OK H R1)].
    cbn [at_branch Z.eqb] in A0, B0, A1, B1.
    exists pk, (reads k0 k1). split; [exact SK|]. intros e iv S a p r qa qb qc qp u v AR SR DM KD RG.
    assert (HS : stands live (sdme (ots S)) (theta S) a S) by (split; [exact SR|split; reflexivity]).
    destruct (prepared_from dbg live e iv _ _ AR a S p HS KD) as [S1 [E1 P1]].
    assert (ER : r = Z.of_nat (Datatypes.S (Z.to_nat (r - 1)))) by lia. set (j := Z.to_nat (r - 1)) in *. assert (J : (j < 16)%nat) by (unfold j; lia).
    rewrite <- DM in HD. destruct (round_like dbg live e iv S S1 p a c a0 a1 b0 b1 pk x y j qa qb qc qp u v P1 HD HX HY J) as [S2 [o [m0 [m1 [E2 [_ [EV [M0 M1]]]]]]]].
    exists S1, S2, o. split; [exact E1|]. rewrite ER. split; [exact E2|]. rewrite (proj2 (sr_ga _ _ _ SR)).
    apply (reads_ok k0 k1 j a (d_ok p j * d_r p) (reply_of o) _ _ EV).
    - rewrite (undo_sees a0 b0 x y k0 m0 _ _ _ M0 A0 B0). exact M0.
    - rewrite (undo_sees a1 b1 x y k1 m1 _ _ _ M1 A1 B1). exact M1.
  Qed.
End Client.
