(** The oblivious PRF with a client that sends any public keys it likes: on a messy string it learns nothing about the secret. *)
From Coq Require Import ZArith Znumtheory Bool List Lia.
From Verif Require Import Outcome FieldModel CurveParams EccModel SpecEcc DmeModel SpecDme OtModel AesModel OpprfModel SpecOpprf OpprfProofs SpecCount CountMath SpecDdh SpecDdh3 SpecCheat SpecIdeal IdealProofs SpecClient ClientMath ClientProofs ClientProofs2 ClientProofs3.
Import ListNotations.
Open Scope Z_scope.

Section Client.
  Variables (dbg : bool) (live : Z -> bool) (e : env) (iv : list Z).
  Lemma L_C121_secret c c2 r1 r2 r3 r4 D S S' a a' K E A n : live c = true -> live c2 = true -> dme_new dbg live c messy r1 r2 r3 r4 = Ok D -> ~ (order | r1 - r2) ->
    aes_ready e iv -> server_ready live S a -> server_ready live S' a' -> sdme (ots S) = dme_new_crs c2 (dcrs D) -> sdme (ots S') = dme_new_crs c2 (dcrs D) -> theta S' = theta S ->
    (forall H h, some_key live (K H h)) -> (forall H s j, (j < 16)%nat -> 2 ^ 120 <= level_key (sd_prep (fst (E H))) s j < 2 ^ 128) -> (forall H, ~ (order | d_r (sd_prep (fst (E H))))) ->
    exists N, convinced (fun l => evaluations dbg live e iv S K E l []) n A N /\ convinced (fun l => evaluations dbg live e iv S' K E l []) n A N.
  Proof.
    intros LC LC2 ED N12 AR SR SR' DM DM' TH HK KD NR.
    assert (H0 : stands live (dme_new_crs c2 (dcrs D)) (theta S) a S) by (split; [exact SR|split; [exact DM|reflexivity]]).
    assert (H1 : stands live (dme_new_crs c2 (dcrs D)) (theta S) a' S') by (split; [exact SR'|split; [exact DM'|exact TH]]).
    assert (KN : forall H h, knows live (dme_new_crs c2 (dcrs D)) (K H h)) by (intros H h; destruct (found dbg live c c2 r1 r2 r3 r4 D (K H h) LC LC2 ED N12 (HK H h)) as [b [_ X]]; exists b; exact X).
    destruct (runs_count dbg live e iv _ _ AR a a' S S' K E A H0 H1 KD NR KN n []) as [N [C1 C2]]. exists N.
    split; [refine (how_many_same _ _ _ _ C1)|refine (how_many_same _ _ _ _ C2)]; intros l; split; (intros [L [F [H [EH AH]]]]; split; [exact L|]; split; [exact F|]; exists H; split; [|exact AH]).
    - rewrite (evaluations_ok dbg live e iv _ _ AR a a S S K E H0 H0 KD KN l S [] H0 F). exact EH.
    - rewrite <- (evaluations_ok dbg live e iv _ _ AR a a S S K E H0 H0 KD KN l S [] H0 F). exact EH.
    - rewrite (evaluations_ok dbg live e iv _ _ AR a' a S' S K E H1 H0 KD KN l S' [] H1 F). exact EH.
    - rewrite <- (evaluations_ok dbg live e iv _ _ AR a' a S' S K E H1 H0 KD KN l S' [] H1 F). exact EH.
  Qed.
  Lemma views_length (V : nat -> list reply -> nonces -> reply) : forall n ws h, length ws = n -> length (views V n h ws) = (length h + n)%nat.
  Proof. induction n as [|n IH]; intros ws h L; [destruct ws; cbn [views]; lia|]. destruct ws as [|w ws]; [discriminate L|]. cbn [views]. rewrite IH by (cbn [length] in L; lia). rewrite app_length. cbn [length]. lia. Qed.
  Lemma L_C121_answers c c2 r1 r2 r3 r4 D S a K d z : live c = true -> live c2 = true -> dme_new dbg live c messy r1 r2 r3 r4 = Ok D -> ~ (order | r1 - r2) ->
    aes_ready e iv -> server_ready live S a -> sdme (ots S) = dme_new_crs c2 (dcrs D) ->
    (forall h, some_key live (K h)) -> (forall s j, (j < 16)%nat -> 2 ^ 120 <= level_key (sd_prep d) s j < 2 ^ 128) -> fits z ->
    exists S1 S2 h, prepareKeysAndInputs dbg live e iv S (with_shares (sd_prep d) (snd z) (fst z)) = Ok S1 /\ asks dbg live S1 K d 16 (fst z) [] = Ok (S2, h) /\ length h = 16%nat.
  Proof.
    intros LC LC2 ED N12 AR SR DM HK KD FZ. destruct z as [ws k]. destruct FZ as [L _]. cbn [fst snd] in *.
    assert (H0 : stands live (dme_new_crs c2 (dcrs D)) (theta S) a S) by (split; [exact SR|split; [exact DM|reflexivity]]).
    assert (KN : forall h, knows live (dme_new_crs c2 (dcrs D)) (K h)) by (intros h; destruct (found dbg live c c2 r1 r2 r3 r4 D (K h) LC LC2 ED N12 (HK h)) as [b [_ X]]; exists b; exact X).
    destruct (prepared_from dbg live e iv _ _ AR a S _ H0 (shares_keyed (sd_prep d) k ws KD)) as [S1 [E1 P1]].
    assert (HO : forall i, (i < 16)%nat -> d_ok (with_shares (sd_prep d) k ws) (16 - 1 - i) = nth i (map fst ws) 0).
    { intros i I. cbn [with_shares d_ok]. replace (15 - (16 - 1 - i))%nat with i by lia. reflexivity. }
    destruct (asks_ok dbg live e iv _ _ AR a S S d K (with_shares (sd_prep d) k ws) H0 H0 KD (shares_keys (sd_prep d) k ws) eq_refl KN 16 ws S1 [] (le_n 16) L HO P1) as [S2 [E2 _]].
    exists S1, S2. eexists. split; [exact E1|]. split; [exact E2|]. rewrite views_length by exact L. reflexivity.
  Qed.
End Client.
