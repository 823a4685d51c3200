(** Many public keys on one string: from the games on exponents to the library. *)
From Coq Require Import ZArith Znumtheory Bool List Lia Field.
From Verif Require Import Outcome FieldModel ZpField SpecField FieldProofs ECGroup ECOrder CurveParams CurveFacts EccModel EccProofs SpecEcc EccThms Emb RF DmeModel SpecDme DmeProofs OtModel OtProofs AesModel OpprfModel SpecOpprf OpprfProofs SpecCount CountMath SpecDdh SpecDdh2 DdhProofs DdhProofs2 DdhProofs3 DdhMany.
Import ListNotations.
Open Scope Z_scope.

(** ** Strings whose points may be infinite and belong to another curve object *)
Section Like.
  Variables (dbg : bool) (live : Z -> bool).
  Notation fn := (fieldn CV).
  Definition like (P : point) (a : Z) : Prop := rf live CV P (mk fn a) \/ (pinf P = true /\ (order | a)).
  Record dlike (D : dme) (c a0 a1 b0 b1 : Z) : Prop := {
    dl_cur : dcurve D = Some c; dl_live : live c = true;
    dl_a0 : like (g0 (dcrs D)) a0; dl_a1 : like (g1 (dcrs D)) a1; dl_b0 : like (h0 (dcrs D)) b0; dl_b1 : like (h1 (dcrs D)) b1 }.
  Lemma like_den P a : like P a -> den CV P = pow a.
  Proof.
    intros [H|[I D]]; [exact (rf_pow live P a H)|]. rewrite <- (Z.sub_0_r a) in D. apply pow_eq in D. rewrite D. unfold den. rewrite I. reflexivity.
  Qed.
  Lemma like_mul P a r : like P a -> exists R, pmul dbg live CV P (em fn (mk fn r)) = Ok R /\ den CV R = pow (r * a).
  Proof.
    intros [H|[I D]].
    - destruct (pmul_rf dbg live CV good_CV P _ (mk fn r) H) as [R [E K]]. exists R. split; [exact E|]. apply (rf_pow live). apply (rf_cong live CV _ _ _ K). apply mk_mul.
    - exists P. split; [unfold pmul; rewrite I; reflexivity|]. transitivity (pow a); [apply like_den; right; split; assumption|]. apply pow_eq.
      replace (a - r * a) with ((1 - r) * a) by ring. apply Z.divide_mul_r, D.
  Qed.
  Lemma like_moved c P a : live c = true -> rf live CV P (mk fn a) -> like (set_curve P (Some c)) a.
  Proof.
    intros L H. destruct (pinf P) eqn:I.
    - right. split; [exact I|]. apply (rf_pinf live CV good_CV P _ H) in I. apply mk_order_0 in I. exact I.
    - left. destruct H as [c' [HC ->]]. exists c. split; [intros _; exact L|]. destruct (EccProofs.gk CV (val fn (mk fn a))) as [[u v]|]; [reflexivity|discriminate I].
  Qed.
  Lemma drf_like D c a0 a1 b0 b1 : drf live D c (mk fn a0) (mk fn a1) (mk fn b0) (mk fn b1) -> dlike D c a0 a1 b0 b1.
  Proof. intros [E L A B A' B']. constructor; [exact E|exact L|left; exact A|left; exact B|left; exact A'|left; exact B']. Qed.
  Lemma moved_like D c c' a0 a1 b0 b1 : live c' = true -> drf live D c (mk fn a0) (mk fn a1) (mk fn b0) (mk fn b1) -> dlike (dme_new_crs c' (dcrs D)) c' a0 a1 b0 b1.
  Proof. intros L [_ _ A B A' B']. constructor; [reflexivity|exact L|exact (like_moved c' _ _ L A)|exact (like_moved c' _ _ L B)|exact (like_moved c' _ _ L A')|exact (like_moved c' _ _ L B')]. Qed.

  Lemma select_like R c a0 a1 b0 b1 b r : dlike (rdme R) c a0 a1 b0 b1 -> branch b ->
    exists R' pk, selectMsg dbg live R b r = Ok (R', pk) /\ rdme R' = rdme R /\ elts pk = (pow (r * pickz b a0 a1), pow (r * pickz b b0 b1)).
  Proof.
    intros [E L A B A' B'] Hb. unfold selectMsg, KeyGen. rewrite E, (getRandomScalar_em live CV c r L). cbn [bind].
    destruct Hb as [-> | ->]; cbn [Z.eqb Pos.eqb pickz].
    - destruct (like_mul _ _ r A) as [P [-> D1]]. cbn [bind]. destruct (like_mul _ _ r A') as [P' [-> D2]]. cbn [bind]. do 2 eexists. split; [reflexivity|].
      split; [reflexivity|]. unfold elts. cbn [kpk pg ph]. rewrite D1, D2. reflexivity.
    - destruct (like_mul _ _ r B) as [P [-> D1]]. cbn [bind]. destruct (like_mul _ _ r B') as [P' [-> D2]]. cbn [bind]. do 2 eexists. split; [reflexivity|].
      split; [reflexivity|]. unfold elts. cbn [kpk pg ph]. rewrite D1, D2. reflexivity.
  Qed.
  Lemma select_dme R R' b r : rdme R = rdme R' -> selectMsg dbg live R b r = selectMsg dbg live R' b r.
  Proof. intros E. unfold selectMsg. rewrite E. reflexivity. Qed.

  Definition kd (b : Z) : kind := if b =? 0 then KA else KB.
  Definition made (a0 a1 b0 b1 : Z) (bs rs : list Z) : list (elt * elt) :=
    map (fun br => (pow (snd br * pickz (fst br) a0 a1), pow (snd br * pickz (fst br) b0 b1))) (combine bs rs).
  Lemma sent_made D c a0 a1 b0 b1 : dlike D c a0 a1 b0 b1 -> forall bs rs, Forall branch bs -> length rs = length bs ->
    exists pks, sent dbg live D bs rs pks /\ map elts pks = made a0 a1 b0 b1 bs rs.
  Proof.
    intros HD. induction bs as [|b bs IH]; intros [|r rs] HB L; try discriminate L.
    - exists []. split; [split; [reflexivity|constructor]|reflexivity].
    - apply Forall_cons_iff in HB. cbn in L. destruct (IH rs (proj2 HB) ltac:(lia)) as [pks [[L' S] E]].
      destruct (select_like (otrecv_new D) c _ _ _ _ b r HD (proj1 HB)) as [R [pk [ES [_ EP]]]].
      exists (pk :: pks). split; [split; [cbn; lia|]|].
      + cbn [combine]. constructor; [|exact S]. exists R. exact ES.
      + cbn [map]. rewrite EP, E. reflexivity.
  Qed.
  Lemma sent_det D bs rs pks pks' : sent dbg live D bs rs pks -> sent dbg live D bs rs pks' -> pks = pks'.
  Proof.
    intros [_ F] [_ F']. revert pks' F'. induction F as [|br pk l pks [R H] F IH]; intros pks' F'; inversion F' as [|? pk' ? ? [R' H'] F'' E1 E2]; [reflexivity|].
    subst. rewrite H in H'. apply Ok_inj in H'. injection H' as _ <-. rewrite (IH _ F''). reflexivity.
  Qed.
  Lemma made_keys a0 a1 b0 b1 : forall bs rs ls, Forall branch bs -> length rs = length bs -> length ls = length bs ->
    made a0 a1 b0 b1 bs rs = keys (map kd bs) a0 b0 a1 b1 (combine rs ls).
  Proof.
    intros bs. unfold made, keys. induction bs as [|b bs IH]; intros [|r rs] [|l ls] HB L L'; try discriminate; [reflexivity|].
    apply Forall_cons_iff in HB. cbn [combine map fst snd]. rewrite (IH rs ls (proj2 HB)) by (cbn in L, L'; lia). f_equal.
    destruct HB as [[-> | ->] _]; reflexivity.
  Qed.
End Like.

(** ** Both branches of a list *)
Section Lists.
  Context {T : Type} (coin : T -> Prop) (K : Z).
  Hypothesis COIN : how_many coin K.
  Variables (mh sg us : Z -> Z -> Z).
  Hypothesis SG : forall w a, draw w -> draw a -> draw (sg w a) /\ us w (sg w a) = a.
  Hypothesis US : forall w a, draw w -> draw a -> draw (us w a) /\ sg w (us w a) = a.
  Hypothesis MH : forall w a k, w <> 0 -> pow (k * mh w (sg w a)) = pow (k * (w * a)).
  Implicit Type V : T -> elt -> elt -> elt -> elt -> list (elt * elt) -> bool.
  Notation d3 := (and_draw (and_draw (and_draw coin))).
  Notation game := (game coin mh).

  Definition turn V : T -> elt -> elt -> elt -> elt -> list (elt * elt) -> bool := fun t a0 a1 b0 b1 l => V t a1 a0 b1 b0 l.
  Lemma keys_turn ks w h x y ps : keys (map other_half ks) x y w h ps = keys ks w h x y ps.
  Proof.
    unfold keys. revert ps. induction ks as [|k ks IH]; intros [|p ps]; try reflexivity. cbn [map combine fst snd]. rewrite IH. f_equal. destruct k; reflexivity.
  Qed.
  Lemma game_turn V ks N : game V ks N -> game (turn V) (map other_half ks) N.
  Proof.
    intros H. refine (how_many_bij (fun z : T * Z * Z * Z * list (Z * Z) * Z => let '(t, w, x, y, ps, a) := z in (t, x, w, a, ps, y))
      (fun z : T * Z * Z * Z * list (Z * Z) * Z => let '(t, w, x, y, ps, a) := z in (t, x, w, a, ps, y)) _ _ _ H _ _);
      intros [[[[[t w] x] y] ps] a]; rewrite map_length; intros [[[[[[C W] Hx] Hy] P] A] EA]; (split; [|reflexivity]).
    - split; [split; [split; [split; [split; [split; [exact C|exact Hx]|exact W]|exact A]|exact P]|exact Hy]|]. unfold turn. rewrite keys_turn. exact EA.
    - split; [split; [split; [split; [split; [split; [exact C|exact Hx]|exact W]|exact A]|exact P]|exact Hy]|]. unfold turn in EA. rewrite keys_turn in EA. exact EA.
  Qed.
  Definition kd2 (b : Z) : kind := if b =? 0 then KU else KA.
  Lemma kinds2 bs : map other_half (map hide (map kd bs)) = map kd2 bs.
  Proof. rewrite !map_map. apply map_ext. intros b. unfold kd, kd2. destruct (b =? 0); reflexivity. Qed.
  Lemma kinds3 bs : map hide (map kd2 bs) = repeat KU (length bs).
  Proof. induction bs as [|b bs IH]; [reflexivity|]. cbn [map length repeat]. rewrite IH. f_equal. unfold kd2. destruct (b =? 0); reflexivity. Qed.

  Lemma disting_first bs V t X Y Z : disting mh V (map kd bs) t X Y Z = first_keys mh bs V t X Y Z.
  Proof.
    destruct t as [[[[t w] x] y] ps]. cbn [disting first_keys]. f_equal. unfold bkeys. revert ps. induction bs as [|b bs IH]; intros [|p ps]; try reflexivity.
    cbn [map combine fst snd]. rewrite IH. f_equal. unfold kd. destruct (b =? 0); reflexivity.
  Qed.
  Lemma disting_second bs V t X Y Z : disting mh (turn V) (map kd2 bs) t X Y Z = second_keys mh bs V t X Y Z.
  Proof.
    destruct t as [[[[t w] x] y] ps]. cbn [disting second_keys]. unfold turn. f_equal. unfold bkeys. revert ps. induction bs as [|b bs IH]; intros [|p ps]; try reflexivity.
    cbn [map combine fst snd]. rewrite IH. f_equal. unfold kd2. destruct (b =? 0); reflexivity.
  Qed.

  Lemma two_hops bs V : exists N g1 g2, game V (map kd bs) N /\ ddh_gap (and_pairs (length bs) d3) (first_keys mh bs V) g1 /\
    ddh_gap (and_pairs (length bs) d3) (second_keys mh bs V) g2 /\
    forall M, game (turn V) (repeat KU (length bs)) M -> Z.abs (order ^ 2 * N - order ^ 2 * M - (g1 + g2)) <= K * (6 * order ^ (2 * Z.of_nat (length bs) + 5)).
  Proof.
    destruct (game_exists coin K COIN mh V (map kd bs)) as [N HN]. destruct (game_exists coin K COIN mh V (map hide (map kd bs))) as [M1 HM1].
    pose proof (and_pairs_count _ _ (length bs) (and_draws _ _ (and_draws _ _ (and_draws _ _ COIN)))) as CC.
    destruct (gap_exists _ _ CC (disting mh V (map kd bs))) as [g1 G1]. destruct (gap_exists _ _ CC (disting mh (turn V) (map kd2 bs))) as [g2 G2].
    exists N, g1, g2. split; [exact HN|]. split; [refine (gap_ext _ _ _ _ _ G1); intros; apply disting_first|]. split; [refine (gap_ext _ _ _ _ _ G2); intros; apply disting_second|].
    intros M HM. pose proof (hop coin K COIN mh sg us SG US MH V (map kd bs) N M1 g1 HN HM1) as H1. rewrite map_length in H1. specialize (H1 G1).
    pose proof (hop coin K COIN mh sg us SG US MH (turn V) (map kd2 bs) M1 M g2) as H2. rewrite map_length, kinds3, <- kinds2 in H2.
    specialize (H2 (game_turn V _ M1 HM1) HM). rewrite kinds2 in H2. specialize (H2 G2).
    replace (K * (6 * order ^ (2 * Z.of_nat (length bs) + 5))) with (K * (3 * order ^ (2 * Z.of_nat (length bs) + 5)) + K * (3 * order ^ (2 * Z.of_nat (length bs) + 5))) by ring. lia.
  Qed.

  Lemma two_lists bs bs' V : length bs = length bs' -> exists N N' g1 g2 g1' g2', game V (map kd bs) N /\ game V (map kd bs') N' /\
    ddh_gap (and_pairs (length bs) d3) (first_keys mh bs V) g1 /\ ddh_gap (and_pairs (length bs) d3) (second_keys mh bs V) g2 /\
    ddh_gap (and_pairs (length bs) d3) (first_keys mh bs' V) g1' /\ ddh_gap (and_pairs (length bs) d3) (second_keys mh bs' V) g2' /\
    Z.abs (order ^ 2 * (N - N') - (g1 + g2 - g1' - g2')) <= K * (12 * order ^ (2 * Z.of_nat (length bs) + 5)).
  Proof.
    intros L. destruct (two_hops bs V) as [N [g1 [g2 [HN [G1 [G2 B]]]]]]. destruct (two_hops bs' V) as [N' [g1' [g2' [HN' [G1' [G2' B']]]]]]. rewrite <- L in *.
    destruct (game_exists coin K COIN mh (turn V) (repeat KU (length bs))) as [M HM]. specialize (B M HM). specialize (B' M HM).
    exists N, N', g1, g2, g1', g2'. split; [exact HN|]. split; [exact HN'|]. split; [exact G1|]. split; [exact G2|]. split; [exact G1'|]. split; [exact G2'|].
    replace (K * (12 * order ^ (2 * Z.of_nat (length bs) + 5))) with (K * (6 * order ^ (2 * Z.of_nat (length bs) + 5)) + K * (6 * order ^ (2 * Z.of_nat (length bs) + 5))) by ring. lia.
  Qed.

  (** a game whose keys take one draw each *)
  Definition single V bs (N : Z) : Prop :=
    how_many (fun '(t, w, a, x, y, rs) => (coin t /\ draw w /\ draw a /\ draw x /\ draw y /\ length rs = length bs /\ Forall draw rs) /\
      V t (pow w) (pow x) (pow (mh w a)) (pow (mh x y)) (made w x (mh w a) (mh x y) bs rs) = true) N.
  Lemma single_exists V bs : exists N, single V bs N.
  Proof.
    pose proof (and_draws _ _ (and_draws _ _ (and_draws _ _ (and_draws _ _ COIN)))) as C4. pose proof (how_many_prod _ _ _ _ C4 (lists_count draw _ draws (length bs))) as C5.
    destruct (how_many_filter _ _ (fun '(t, w, a, x, y, rs) => V t (pow w) (pow x) (pow (mh w a)) (pow (mh x y)) (made w x (mh w a) (mh x y) bs rs)) C5) as [N H].
    exists N. refine (how_many_same _ _ _ _ H). intros [[[[[t w] a] x] y] rs]. cbn. tauto.
  Qed.
  Lemma combine_fst {A B} (l : list A) (l' : list B) : length l = length l' -> map fst (combine l l') = l.
  Proof. revert l'. induction l as [|a l IH]; intros [|b l'] L; try discriminate; [reflexivity|]. cbn. rewrite IH; [reflexivity|cbn in L; lia]. Qed.
  Lemma combine_snd {A B} (l : list A) (l' : list B) : length l = length l' -> map snd (combine l l') = l'.
  Proof. revert l'. induction l as [|a l IH]; intros [|b l'] L; try discriminate; [reflexivity|]. cbn. rewrite IH; [reflexivity|cbn in L; lia]. Qed.
  Lemma combine_pairs {A B} (l : list (A * B)) : combine (map fst l) (map snd l) = l.
  Proof. induction l as [|[a b] l IH]; [reflexivity|]. cbn. rewrite IH. reflexivity. Qed.
  Lemma pairs_parts rs ls n : length rs = n -> length ls = n -> Forall draw rs -> Forall draw ls -> pairs n (combine rs ls).
  Proof.
    intros L L' F F'. split; [rewrite combine_length; lia|]. apply Forall_forall. intros [u v] I. rewrite Forall_forall in F, F'. split; [apply F, (in_combine_l _ _ _ _ I)|apply F', (in_combine_r _ _ _ _ I)].
  Qed.
  Lemma parts_pairs ps n : pairs n ps -> (length (map fst ps) = n /\ Forall draw (map fst ps)) /\ (length (map snd ps) = n /\ Forall draw (map snd ps)).
  Proof.
    intros [L F]. rewrite !map_length. split; (split; [exact L|]); apply Forall_map; apply (Forall_impl _ (P := pairdraw)); try exact F; intros p H; apply H.
  Qed.
  Lemma single_game V bs N M : Forall branch bs -> single V bs N -> game V (map kd bs) M -> M = N * order ^ Z.of_nat (length bs).
  Proof.
    intros HB HN HM. refine (how_many_unique _ _ _ HM _). clear M HM. pose proof (how_many_prod _ _ _ _ HN (lists_count draw _ draws (length bs))) as X.
    refine (how_many_bij (fun z : T * Z * Z * Z * Z * list Z * list Z => let '(t, w, a, x, y, rs, ls) := z in (t, w, x, y, combine rs ls, a))
      (fun z : T * Z * Z * Z * list (Z * Z) * Z => let '(t, w, x, y, ps, a) := z in (t, w, a, x, y, map fst ps, map snd ps)) _ _ _ X _ _).
    - intros [[[[[[t w] a] x] y] rs] ls]. cbn [fst snd]. rewrite map_length. intros [[[C [W [A [Hx [Hy [L F]]]]]] EA] [L' F']]. rewrite (made_keys w x (mh w a) (mh x y) bs rs ls HB L L') in EA.
      split; [|rewrite (combine_fst rs ls (eq_trans L (eq_sym L'))), (combine_snd rs ls (eq_trans L (eq_sym L'))); reflexivity]. split; [|exact EA]. split; [|exact A]. split; [cbn; tauto|exact (pairs_parts rs ls _ L L' F F')].
    - intros [[[[[t w] x] y] ps] a]. cbn [fst snd]. rewrite map_length. intros [[[[[[C W] Hx] Hy] P] A] EA]. destruct (parts_pairs ps _ P) as [[L F] [L' F']].
      split; [|rewrite combine_pairs; reflexivity]. split; [split|].
      + tauto.
      + rewrite (made_keys w x (mh w a) (mh x y) bs _ _ HB L L'), combine_pairs. exact EA.
      + split; assumption.
  Qed.

  Lemma two_singles bs bs' V : Forall branch bs -> Forall branch bs' -> length bs = length bs' -> exists N N' g1 g2 g1' g2', single V bs N /\ single V bs' N' /\
    ddh_gap (and_pairs (length bs) d3) (first_keys mh bs V) g1 /\ ddh_gap (and_pairs (length bs) d3) (second_keys mh bs V) g2 /\
    ddh_gap (and_pairs (length bs) d3) (first_keys mh bs' V) g1' /\ ddh_gap (and_pairs (length bs) d3) (second_keys mh bs' V) g2' /\
    Z.abs (order ^ (Z.of_nat (length bs) + 2) * (N - N') - (g1 + g2 - g1' - g2')) <= K * (12 * order ^ (2 * Z.of_nat (length bs) + 5)).
  Proof.
    intros HB HB' L. destruct (two_lists bs bs' V L) as [M [M' [g1 [g2 [g1' [g2' [HM [HM' [G1 [G2 [G1' [G2' B]]]]]]]]]]]].
    destruct (single_exists V bs) as [N HN]. destruct (single_exists V bs') as [N' HN']. exists N, N', g1, g2, g1', g2'. conj; try assumption.
    rewrite (single_game V bs N M HB HN HM), (single_game V bs' N' M' HB' HN' HM'), <- L in B. rewrite Z.pow_add_r by lia.
    replace (order ^ Z.of_nat (length bs) * order ^ 2 * (N - N')) with (order ^ 2 * (N * order ^ Z.of_nat (length bs) - N' * order ^ Z.of_nat (length bs))) by ring. exact B.
  Qed.
End Lists.

Section Library.
  Variables (dbg : bool) (live : Z -> bool) (c : Z).
  Hypothesis LC : live c = true.
  Context {T : Type} (coin : T -> Prop) (K : Z).
  Hypothesis COIN : how_many coin K.
  Notation d3 := (and_draw (and_draw (and_draw coin))).
  Implicit Type A : T -> elt -> elt -> elt -> elt -> list (elt * elt) -> bool.

  Lemma sent_bool D c0 a0 a1 b0 b1 t bs rs A : drf live D c0 (mk (fieldn CV) a0) (mk (fieldn CV) a1) (mk (fieldn CV) b0) (mk (fieldn CV) b1) -> Forall branch bs ->
    (exists pks, sent dbg live D bs rs pks /\ on_crs (dcrs D) (fun x0 x1 y0 y1 => A t x0 x1 y0 y1 (map elts pks)) = true) <->
    length rs = length bs /\ A t (pow a0) (pow a1) (pow b0) (pow b1) (made a0 a1 b0 b1 bs rs) = true.
  Proof.
    intros HD HB. destruct (drf_den live _ _ _ _ _ _ HD) as [V1 [V2 [V3 V4]]]. unfold on_crs. rewrite V1, V2, V3, V4. split.
    - intros [pks [S EA]]. destruct (sent_made dbg live D c0 a0 a1 b0 b1 (drf_like _ _ _ _ _ _ _ HD) bs rs HB (proj1 S)) as [pks' [S' E]].
      rewrite (sent_det _ _ _ _ _ _ _ S S') in EA. rewrite E in EA. split; [exact (proj1 S)|exact EA].
    - intros [L EA]. destruct (sent_made dbg live D c0 a0 a1 b0 b1 (drf_like _ _ _ _ _ _ _ HD) bs rs HB L) as [pks [S E]]. exists pks. split; [exact S|]. rewrite E. exact EA.
  Qed.

  Lemma keys_bool bs A N : Forall branch bs -> single coin (fun _ a => a) A bs N -> keys_guess dbg live c bs coin A N.
  Proof.
    intros HB H. unfold keys_guess. refine (how_many_same _ _ _ _ H). intros [[[[[t w] h] x] y] rs]. destruct (random_view dbg live c LC w h x y) as [D [E HD]].
    pose proof (sent_bool D c _ _ _ _ t bs rs A HD HB) as X. split.
    - intros [[C [W [Hh [Hx [Hy [L F]]]]]] EA]. conj; try assumption. destruct (proj2 X (conj L EA)) as [pks [S ES]]. exists D, pks. split; [exact E|]. split; [exact S|exact ES].
    - intros [C [W [Hh [Hx [Hy [F [D' [pks [E' [S ES]]]]]]]]]]. rewrite E in E'. apply Ok_inj in E'. subst D'. destruct (proj1 X (ex_intro _ pks (conj S ES))) as [L EA]. tauto.
  Qed.
  Lemma keys_bool_messy bs A N : Forall branch bs -> single coin (fun w a => w * a) A bs N -> keys_guess_messy dbg live c bs coin A N.
  Proof.
    intros HB H. unfold keys_guess_messy. refine (how_many_bij (fun z : T * Z * Z * Z * Z * list Z => let '(t, w, a, x, y, rs) := z in (t, a, y, w, x, rs))
      (fun z : T * Z * Z * Z * Z * list Z => let '(t, a, y, w, x, rs) := z in (t, w, a, x, y, rs)) _ _ _ H _ _).
    - intros [[[[[t w] a] x] y] rs] [[C [W [Hh [Hx [Hy [L F]]]]]] EA]. split; [|reflexivity]. conj; try assumption. destruct (messy_view dbg live c LC a y w x) as [D [E HD]].
      rewrite (Z.mul_comm a w), (Z.mul_comm y x) in HD.
      destruct (proj2 (sent_bool D c _ _ _ _ t bs rs A HD HB) (conj L EA)) as [pks [S ES]]. exists D, pks. split; [exact E|]. split; [exact S|exact ES].
    - intros [[[[[t a] y] w] x] rs] [C [Ha [Hy [W [Hx [F [D' [pks [E' [S ES]]]]]]]]]]. split; [|reflexivity]. destruct (messy_view dbg live c LC a y w x) as [D [E HD]].
      rewrite (Z.mul_comm a w), (Z.mul_comm y x) in HD. rewrite E in E'. apply Ok_inj in E'. subst D'.
      destruct (proj1 (sent_bool D c _ _ _ _ t bs rs A HD HB) (ex_intro _ pks (conj S ES))) as [L EA]. tauto.
  Qed.

  Lemma L_C108_random bs bs' A : Forall branch bs -> Forall branch bs' -> length bs = length bs' -> exists N N' g1 g2 g1' g2',
    keys_guess dbg live c bs coin A N /\ keys_guess dbg live c bs' coin A N' /\
    ddh_gap (and_pairs (length bs) d3) (first_keys (fun _ y => y) bs A) g1 /\ ddh_gap (and_pairs (length bs) d3) (second_keys (fun _ y => y) bs A) g2 /\
    ddh_gap (and_pairs (length bs) d3) (first_keys (fun _ y => y) bs' A) g1' /\ ddh_gap (and_pairs (length bs) d3) (second_keys (fun _ y => y) bs' A) g2' /\
    Z.abs (order ^ (Z.of_nat (length bs) + 2) * (N - N') - (g1 + g2 - g1' - g2')) <= K * (12 * order ^ (2 * Z.of_nat (length bs) + 5)).
  Proof.
    intros HB HB' L. destruct (two_singles coin K COIN (fun _ a => a) scale unscale scale_un un_scale (fun w a k H => pow_scale2' w a k H) bs bs' A HB HB' L)
      as [N [N' [g1 [g2 [g1' [g2' [H1 [H2 H]]]]]]]]. exists N, N', g1, g2, g1', g2'. split; [exact (keys_bool bs A N HB H1)|]. split; [exact (keys_bool bs' A N' HB' H2)|exact H].
  Qed.
  Lemma L_C108_messy bs bs' A : Forall branch bs -> Forall branch bs' -> length bs = length bs' -> exists N N' g1 g2 g1' g2',
    keys_guess_messy dbg live c bs coin A N /\ keys_guess_messy dbg live c bs' coin A N' /\
    ddh_gap (and_pairs (length bs) d3) (first_keys (fun x y => x * y) bs A) g1 /\ ddh_gap (and_pairs (length bs) d3) (second_keys (fun x y => x * y) bs A) g2 /\
    ddh_gap (and_pairs (length bs) d3) (first_keys (fun x y => x * y) bs' A) g1' /\ ddh_gap (and_pairs (length bs) d3) (second_keys (fun x y => x * y) bs' A) g2' /\
    Z.abs (order ^ (Z.of_nat (length bs) + 2) * (N - N') - (g1 + g2 - g1' - g2')) <= K * (12 * order ^ (2 * Z.of_nat (length bs) + 5)).
  Proof.
    intros HB HB' L. destruct (two_singles coin K COIN (fun w a => w * a) (fun _ a => a) (fun _ a => a) (fun w a _ D => conj D eq_refl) (fun w a _ D => conj D eq_refl)
      (fun w a k _ => eq_refl) bs bs' A HB HB' L) as [N [N' [g1 [g2 [g1' [g2' [H1 [H2 H]]]]]]]]. exists N, N', g1, g2, g1', g2'. split; [exact (keys_bool_messy bs A N HB H1)|].
    split; [exact (keys_bool_messy bs' A N' HB' H2)|exact H].
  Qed.

  (** ** The client *)
  Lemma bits_branch x : Forall branch (bits_of x).
  Proof. apply Forall_map, Forall_forall. intros i _. destruct (Z.testbit x (Z.of_nat i)); [right|left]; reflexivity. Qed.
  Lemma bits_length x : length (bits_of x) = MSG_BITS.
  Proof. unfold bits_of. rewrite map_length, rev_length, seq_length. reflexivity. Qed.

  Lemma start_like C x j rk a0 a1 b0 b1 c' : dlike live (rdme (otr C)) c' a0 a1 b0 b1 -> cx C = Some x -> (j < 16)%nat ->
    exists C' pk, runOTRound_start dbg live C (Z.of_nat (S j)) rk = Ok (C', pk) /\ cx C' = Some x /\ rdme (otr C') = rdme (otr C) /\
      (exists R, selectMsg dbg live (otrecv_new (rdme (otr C))) (Z.b2z (Z.testbit x (Z.of_nat j))) rk = Ok (R, pk)).
  Proof.
    intros O X J. destruct (select_like dbg live (otr C) c' _ _ _ _ (Z.b2z (Z.testbit x (Z.of_nat j))) rk O) as [R [pk [E [D _]]]].
    { destruct (Z.testbit x (Z.of_nat j)); [right|left]; reflexivity. }
    exists (mkcli R (ccur C) (cx C) (result C) (key C)), pk. cbn [cx otr]. split; [|split; [exact X|split; [exact D|exists R; exact E]]].
    unfold runOTRound_start. rewrite X, shl1_small by exact J. cbn [bind]. cbv zeta. rewrite land_pow2 by lia.
    destruct (Z.testbit x (Z.of_nat j)); cbn [Z.b2z negb] in *; rewrite E; reflexivity.
  Qed.
  Lemma asks_sent D c' x a0 a1 b0 b1 : dlike live D c' a0 a1 b0 b1 -> forall js C rs, rdme (otr C) = D -> cx C = Some x -> Forall (fun j => j < 16)%nat js -> length rs = length js ->
    exists pks, asks dbg live C (combine (map (fun j => Z.of_nat (S j)) js) rs) = Ok pks /\ sent dbg live D (map (fun j => Z.b2z (Z.testbit x (Z.of_nat j))) js) rs pks.
  Proof.
    intros HD. induction js as [|j js IH]; intros C [|r rs] ED X F L; try discriminate L.
    - exists []. split; [reflexivity|]. split; [reflexivity|constructor].
    - apply Forall_cons_iff in F. destruct (start_like C x j r a0 a1 b0 b1 c') as [C' [pk [E [X' [D' S]]]]]; [rewrite ED; exact HD|exact X|apply F|].
      rewrite ED in D', S. destruct (IH C' rs D' X' (proj2 F) ltac:(cbn in L; lia)) as [pks [EA [L' SS]]]. exists (pk :: pks). cbn [map combine asks]. rewrite E. cbn [bind fst]. rewrite EA. cbn [bind snd].
      split; [reflexivity|]. split; [cbn; lia|]. cbn [combine]. constructor; assumption.
  Qed.
  Lemma asks_16 D c' x rs a0 a1 b0 b1 : dlike live (dme_new_crs c' (dcrs D)) c' a0 a1 b0 b1 -> length rs = MSG_BITS ->
    exists pks, asks dbg live (setMessage (client_new c' (dcrs D)) x) (combine rounds rs) = Ok pks /\ sent dbg live (dme_new_crs c' (dcrs D)) (bits_of x) rs pks.
  Proof.
    intros HD L. pose proof (asks_sent _ c' x a0 a1 b0 b1 HD (rev (seq 0 MSG_BITS)) (setMessage (client_new c' (dcrs D)) x) rs eq_refl eq_refl) as H.
    assert (F : Forall (fun j => (j < 16)%nat) (rev (seq 0 MSG_BITS))).
    { apply Forall_rev, Forall_forall. intros j I. apply in_seq in I. unfold MSG_BITS in I. lia. }
    specialize (H F). rewrite rev_length, seq_length in H. exact (H L).
  Qed.

  Lemma client_bool c' x A N : live c' = true -> single coin (fun _ a => a) A (bits_of x) N -> client_guess dbg live c c' x coin A N.
  Proof.
    intros LC' H. unfold client_guess. refine (how_many_same _ _ _ _ H). intros [[[[[t w] h] x0] y] rs]. destruct (random_view dbg live c LC w h x0 y) as [D [E HD]].
    pose proof (moved_like live D c c' _ _ _ _ LC' HD) as HL. destruct (drf_den live _ _ _ _ _ _ HD) as [V1 [V2 [V3 V4]]]. rewrite bits_length.
    assert (M : length rs = MSG_BITS -> exists pks, asks dbg live (setMessage (client_new c' (dcrs D)) x) (combine rounds rs) = Ok pks /\ map elts pks = made w x0 h y (bits_of x) rs).
    { intros L. destruct (asks_16 D c' x rs _ _ _ _ HL L) as [pks [EA S]]. destruct (sent_made dbg live _ c' _ _ _ _ HL (bits_of x) rs (bits_branch x) (proj1 S)) as [pks' [S' EM]].
      exists pks. split; [exact EA|]. rewrite (sent_det _ _ _ _ _ _ _ S S'). exact EM. }
    split.
    - intros [[C [W [Hh [Hx [Hy [L F]]]]]] EA]. conj; try assumption. destruct (M L) as [pks [ES EM]]. exists D, pks. split; [exact E|]. split; [exact ES|]. unfold on_crs. rewrite V1, V2, V3, V4, EM. exact EA.
    - intros [C [W [Hh [Hx [Hy [F [L [D' [pks [E' [ES EA]]]]]]]]]]]. rewrite E in E'. apply Ok_inj in E'. subst D'. destruct (M L) as [pks' [ES' EM]]. rewrite ES in ES'. apply Ok_inj in ES'. subst pks'.
      unfold on_crs in EA. rewrite V1, V2, V3, V4, EM in EA. tauto.
  Qed.
  Lemma L_C108_client c' x x' A : live c' = true -> exists N N' g1 g2 g1' g2',
    client_guess dbg live c c' x coin A N /\ client_guess dbg live c c' x' coin A N' /\
    ddh_gap (and_pairs 16 d3) (first_keys (fun _ y => y) (bits_of x) A) g1 /\ ddh_gap (and_pairs 16 d3) (second_keys (fun _ y => y) (bits_of x) A) g2 /\
    ddh_gap (and_pairs 16 d3) (first_keys (fun _ y => y) (bits_of x') A) g1' /\ ddh_gap (and_pairs 16 d3) (second_keys (fun _ y => y) (bits_of x') A) g2' /\
    Z.abs (order ^ 18 * (N - N') - (g1 + g2 - g1' - g2')) <= K * (12 * order ^ 37).
  Proof.
    intros LC'. destruct (two_singles coin K COIN (fun _ a => a) scale unscale scale_un un_scale (fun w a k H => pow_scale2' w a k H) (bits_of x) (bits_of x') A (bits_branch x) (bits_branch x'))
      as [N [N' [g1 [g2 [g1' [g2' [H1 [H2 H]]]]]]]]; [rewrite !bits_length; reflexivity|]. exists N, N', g1, g2, g1', g2'. split; [exact (client_bool c' x A N LC' H1)|].
    split; [exact (client_bool c' x' A N' LC' H2)|]. rewrite bits_length in H. exact H.
  Qed.
End Library.

(** the answers do not matter *)
Section Answers.
  Variables (dbg : bool) (live : Z -> bool) (e : env) (iv : list Z).
  Definition alike (C C' : client) : Prop := rdme (otr C) = rdme (otr C') /\ cx C = cx C'.
  Lemma start_alike C C' round d C1 pk : alike C C' -> runOTRound_start dbg live C round d = Ok (C1, pk) ->
    alike C1 C /\ exists C1', runOTRound_start dbg live C' round d = Ok (C1', pk) /\ alike C1' C'.
  Proof.
    intros [E X]. unfold runOTRound_start. rewrite <- X. destruct (cx C) as [x|] eqn:EX; [|discriminate]. destruct (shl1 (round - 1)) as [s|]; [|discriminate]. cbn [bind]. cbv zeta.
    match goal with |- context [selectMsg dbg live (otr C) ?bb d] => generalize bb; intros b end. rewrite <- (select_dme dbg live (otr C) (otr C') b d E).
    destruct (selectMsg dbg live (otr C) b d) as [[R k]|] eqn:ES; [|discriminate]. cbn [bind fst snd]. intros H. apply Ok_inj in H. injection H as <- <-.
    assert (ER : rdme R = rdme (otr C)). { unfold selectMsg in ES. destruct (KeyGen dbg live (rdme (otr C)) b d) as [kp|]; [|discriminate]. cbn [bind] in ES. apply Ok_inj in ES. injection ES as <- _. reflexivity. }
    split; [split; [exact ER|cbn [cx]; symmetry; exact EX]|]. eexists. split; [reflexivity|]. split; cbn [otr cx]; congruence.
  Qed.
  Lemma end_alike C round c C1 : runOTRound_end dbg live e iv C round c = Ok C1 -> alike C1 C.
  Proof.
    unfold runOTRound_end. intros H.
    match type of H with bind ?m _ = _ => destruct m as [k|]; [|discriminate H] end. cbn [bind] in H.
    destruct (decryptMsg dbg live (otr C) (ocprf c)) as [P|]; [|discriminate H]. cbn [bind] in H.
    destruct (padd dbg live CV (result C) P) as [R|]; [|discriminate H]. cbn [bind] in H. apply Ok_inj in H. subst C1. split; reflexivity.
  Qed.
  Lemma alike_trans C C' C'' : alike C C' -> alike C' C'' -> alike C C''.
  Proof. intros [A B] [A' B']. split; congruence. Qed.
  Lemma alike_sym C C' : alike C C' -> alike C' C.
  Proof. intros [A B]. split; congruence. Qed.
  Lemma talks_asks : forall l C C' pks, alike C C' -> talks dbg live e iv C l = Ok pks -> asks dbg live C' (map fst l) = Ok pks.
  Proof.
    induction l as [|[[round d] ct] l IH]; intros C C' pks A H; [exact H|]. cbn [talks map fst snd asks] in *.
    destruct (runOTRound_start dbg live C round d) as [[C1 pk]|] eqn:E; [|discriminate]. cbn [bind fst snd] in *.
    destruct (runOTRound_end dbg live e iv C1 round ct) as [C2|] eqn:E2; [|discriminate]. cbn [bind] in H.
    destruct (talks dbg live e iv C2 l) as [ks|] eqn:E3; [|discriminate]. cbn [bind] in H. apply Ok_inj in H. subst pks.
    destruct (start_alike _ _ _ _ _ _ A E) as [A1 [C1' [-> A2]]]. cbn [bind fst snd].
    rewrite (IH C2 C1' ks); [reflexivity| |exact E3].
    apply (alike_trans _ _ _ (end_alike _ _ _ _ E2)). apply (alike_trans _ _ _ A1). apply (alike_trans _ _ _ A). apply alike_sym, A2.
  Qed.
  Lemma L_C108_answers l C pks : talks dbg live e iv C l = Ok pks -> asks dbg live C (map fst l) = Ok pks.
  Proof. apply talks_asks. split; reflexivity. Qed.
  Lemma rounds_talk dr : forall l S C SC, foldM (one_round dbg live e iv) (map (fun r => (r, dr r)) l) (S, C) = Ok SC ->
    exists cts pks, length cts = length l /\ talks dbg live e iv C (combine (map (fun r => (r, rd_key (dr r))) l) cts) = Ok pks.
  Proof.
    induction l as [|r l IH]; intros S C SC H; [exists [], []; split; reflexivity|]. cbn [map foldM] in H. unfold one_round in H at 1. cbn [fst snd] in H.
    destruct (runOTRound_start dbg live C r (rd_key (dr r))) as [[C1 pk]|] eqn:E; [|discriminate]. cbn [bind fst snd] in H.
    destruct (runOTRound dbg live S r pk (rd_a (dr r)) (rd_b (dr r)) (rd_c (dr r)) (rd_p (dr r)) (rd_u (dr r)) (rd_v (dr r))) as [[S1 ct]|] eqn:E2; [|discriminate]. cbn [bind fst snd] in H.
    destruct (runOTRound_end dbg live e iv C1 r ct) as [C2|] eqn:E3; [|discriminate]. cbn [bind] in H.
    destruct (IH S1 C2 SC H) as [cts [pks [L ET]]]. exists (ct :: cts), (pk :: pks). split; [cbn; lia|]. cbn [map combine talks]. rewrite E. cbn [bind fst snd]. rewrite E3. cbn [bind]. rewrite ET. reflexivity.
  Qed.
  Lemma map_fst_combine {A B} (l : list A) : forall l' : list B, length l' = length l -> map fst (combine l l') = l.
  Proof. induction l as [|a l IH]; intros [|b l'] L; try discriminate; [reflexivity|]. cbn. rewrite IH; [reflexivity|cbn in L; lia]. Qed.
  Lemma L_C108_session S C d R : session dbg live e iv S C d = Ok R ->
    exists cts pks, length cts = MSG_BITS /\ talks dbg live e iv C (combine (map (fun r => (r, rd_key (sd_round d r))) rounds) cts) = Ok pks /\
      asks dbg live C (map (fun r => (r, rd_key (sd_round d r))) rounds) = Ok pks.
  Proof.
    unfold session. destruct (prepareKeysAndInputs dbg live e iv S (sd_prep d)) as [S1|]; [|discriminate]. cbn [bind].
    destruct (foldM (one_round dbg live e iv) (map (fun r => (r, sd_round d r)) rounds) (S1, C)) as [SC|] eqn:E; [|discriminate]. intros _.
    destruct (rounds_talk (sd_round d) rounds S1 C SC E) as [cts [pks [L ET]]]. exists cts, pks. split; [exact L|]. split; [exact ET|].
    apply L_C108_answers in ET. rewrite map_fst_combine in ET; [exact ET|]. rewrite map_length. exact L.
  Qed.
End Answers.
