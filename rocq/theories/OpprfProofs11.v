(** Two servers whose messages agree on the branches a client asks for: proofs. *)
From Coq Require Import ZArith Znumtheory Bool List Lia Field.
From Verif Require Import Outcome FieldModel ZpField SpecField FieldProofs ECGroup ECOrder CurveParams CurveFacts EccModel EccProofs SpecEcc EccThms Emb RF.
From Verif Require Import DmeModel SpecDme DmeProofs DmeProofs2 OtModel SpecOt OtProofs OtProofs2 CrcModel AesModel SpecAes OpprfModel SpecOpprf SpecOpprf2 SpecOpprf4 SpecOpprf5.
From Verif Require Import OpprfProofs OpprfProofs2 OpprfProofs3 OpprfProofs4 OpprfProofs5 OpprfProofs6 OpprfProofs7 OpprfProofs8 OpprfProofs10.
Import ListNotations.
Open Scope Z_scope.

(** ** Orders of three *)
(** the exchange of two letters *)
Definition trans (a b s : comparison) : comparison := if same_letter s a then b else if same_letter s b then a else s.
Lemma trans_l a b : trans a b a = b.
Proof. destruct a, b; reflexivity. Qed.
Lemma trans_r a b : trans a b b = a.
Proof. destruct a, b; reflexivity. Qed.
Lemma trans_trans a b s : trans a b (trans a b s) = s.
Proof. destruct a, b, s; reflexivity. Qed.

Lemma shuffle3_map (A B : Type) (f : A -> B) a b c u v : shuffle3 [f a; f b; f c] u v = map f (shuffle3 [a; b; c] u v).
Proof.
  unfold shuffle3. assert (U : Z.to_nat (u mod 2) = 0%nat \/ Z.to_nat (u mod 2) = 1%nat) by (pose proof (Z.mod_pos_bound u 2); lia).
  assert (V : Z.to_nat (v mod 3) = 0%nat \/ Z.to_nat (v mod 3) = 1%nat \/ Z.to_nat (v mod 3) = 2%nat) by (pose proof (Z.mod_pos_bound v 3); lia).
  destruct U as [-> | ->], V as [-> | [-> | ->]]; reflexivity.
Qed.
Lemma shuffle3_letters (A : Type) (f : comparison -> A) u v : shuffle3 [f Lt; f Eq; f Gt] u v = map f (shuffle3 [Lt; Eq; Gt] u v).
Proof. apply shuffle3_map. Qed.

(** every exchange of letters can be undone by the shuffle *)
Lemma shuffle_trans a b u v : exists u' v', 0 <= u' < 2 ^ 31 /\ 0 <= v' < 2 ^ 31 /\
  map (trans a b) (shuffle3 [Lt; Eq; Gt] u' v') = shuffle3 [Lt; Eq; Gt] u v.
Proof.
  unfold shuffle3 at 2. assert (U : Z.to_nat (u mod 2) = 0%nat \/ Z.to_nat (u mod 2) = 1%nat) by (pose proof (Z.mod_pos_bound u 2); lia).
  assert (V : Z.to_nat (v mod 3) = 0%nat \/ Z.to_nat (v mod 3) = 1%nat \/ Z.to_nat (v mod 3) = 2%nat) by (pose proof (Z.mod_pos_bound v 3); lia).
  destruct U as [-> | ->], V as [-> | [-> | ->]], a, b;
  first [exists 0, 0; split; [lia|]; split; [lia|]; reflexivity | exists 0, 1; split; [lia|]; split; [lia|]; reflexivity
       | exists 0, 2; split; [lia|]; split; [lia|]; reflexivity | exists 1, 0; split; [lia|]; split; [lia|]; reflexivity
       | exists 1, 1; split; [lia|]; split; [lia|]; reflexivity | exists 1, 2; split; [lia|]; split; [lia|]; reflexivity].
Qed.

Section Opprf11.
  Variables (dbg : bool) (live : Z -> bool).
  Notation n := (fieldn CV).
  Let Hn : prime n := prime_n CV good_CV.
  Let HF := field_Fp n Hn.
  Add Field OpprfField11 : HF.
  Notation F := (Fp n).
  Notation rf := (rf live CV).
  Notation mk := (mk n).
  Notation drf := (drf live).
  Notation multiple := (multiple live).
  Local Infix "+'" := (fadd n) (at level 50, left associativity).
  Local Infix "-'" := (fsub n) (at level 50, left associativity).
  Local Infix "*'" := (fmul n) (at level 40, left associativity).
  Local Infix "/'" := (fdiv n) (at level 40, left associativity).

  (** ** One transfer *)
  Definition ctP (D : dme) (pk : pkey) (m0 m1 : point) (q : quad) : res (list ctxt) :=
    do c0 <- Enc dbg live D pk 0 m0 (q_s0 q) (q_t0 q); do c1 <- Enc dbg live D pk 1 m1 (q_s1 q) (q_t1 q); Ok [c0; c1].
  Definition ctZ (D : dme) (pk : pkey) (m0 m1 : Z) (q : quad) : res (list ctxt) :=
    do c0 <- EncZ dbg live D pk 0 m0 (q_s0 q) (q_t0 q); do c1 <- EncZ dbg live D pk 1 m1 (q_s1 q) (q_t1 q); Ok [c0; c1].
  Definition sent (T : server) (l : list ctxt) : server := set_ots T (mksndr (sdme (ots T)) l).

  Lemma encP_eq T pk m0 m1 q : encP dbg live T pk m0 m1 q = bind (ctP (sdme (ots T)) pk m0 m1 q) (fun l => Ok (sent T l, l)).
  Proof.
    unfold encP, encMsgs, ctP. generalize (Enc dbg live (sdme (ots T)) pk 0 m0 (q_s0 q) (q_t0 q)) as y0.
    generalize (Enc dbg live (sdme (ots T)) pk 1 m1 (q_s1 q) (q_t1 q)) as y1. intros [y1|] [y0|]; reflexivity.
  Qed.
  Lemma encZ_eq T pk m0 m1 q : encZ dbg live T pk m0 m1 q = bind (ctZ (sdme (ots T)) pk m0 m1 q) (fun l => Ok (sent T l, l)).
  Proof.
    unfold encZ, encMsgsZ, ctZ. generalize (EncZ dbg live (sdme (ots T)) pk 0 m0 (q_s0 q) (q_t0 q)) as y0.
    generalize (EncZ dbg live (sdme (ots T)) pk 1 m1 (q_s1 q) (q_t1 q)) as y1. intros [y1|] [y0|]; reflexivity.
  Qed.

  (** the same nonces on branch [b] *)
  Definition keeps (b : Z) (q q' : quad) : Prop := q_s b q' = q_s b q /\ q_t b q' = q_t b q /\ (quad_range q -> quad_range q').
  Definition unequal (b : Z) (a0 a1 b0 b1 g h : F) : Prop := pick (1 - b) a0 a1 *' h -' pick (1 - b) b0 b1 *' g <> f0 n.

  Lemma val_range (z : F) : draw (val n z).
  Proof. apply val_draw. Qed.

  Lemma solve_other (A B g h z z' : F) s t : A *' h -' B *' g <> f0 n ->
    exists s' t', draw s' /\ draw t' /\ mk s' *' A +' mk t' *' B = mk s *' A +' mk t *' B /\ mk s' *' g +' mk t' *' h +' z' = mk s *' g +' mk t *' h +' z.
  Proof.
    intros N. set (w := (z -' z') /' (A *' h -' B *' g)).
    exists (val n (mk s -' B *' w)), (val n (mk t +' A *' w)). split; [apply val_draw|]. split; [apply val_draw|]. rewrite !mk_val. split; [ring|].
    unfold w. field. exact N.
  Qed.

  Lemma pair_P D c a0 a1 b0 b1 pk g h b q m0 m1 m0' m1' z0 z1 z0' z1' : drf D c a0 a1 b0 b1 -> rf (pg pk) g -> rf (ph pk) h -> branch b ->
    unequal b a0 a1 b0 b1 g h -> rf m0 z0 -> rf m1 z1 -> rf m0' z0' -> rf m1' z1' -> pick b z0 z1 = pick b z0' z1' ->
    exists q' l l', keeps b q q' /\ ctP D pk m0 m1 q = Ok l /\ ctP D pk m0' m1' q' = Ok l' /\ Forall2 same_ctxt l l'.
  Proof.
    intros K G H Hb U M0 M1 M0' M1' E.
    assert (X : exists q', keeps b q q' /\
      (mk (q_s0 q') *' a0 +' mk (q_t0 q') *' b0 = mk (q_s0 q) *' a0 +' mk (q_t0 q) *' b0 /\ mk (q_s0 q') *' g +' mk (q_t0 q') *' h +' z0' = mk (q_s0 q) *' g +' mk (q_t0 q) *' h +' z0) /\
      (mk (q_s1 q') *' a1 +' mk (q_t1 q') *' b1 = mk (q_s1 q) *' a1 +' mk (q_t1 q) *' b1 /\ mk (q_s1 q') *' g +' mk (q_t1 q') *' h +' z1' = mk (q_s1 q) *' g +' mk (q_t1 q) *' h +' z1)).
    { destruct Hb as [-> | ->]; unfold unequal in U; cbn [Z.sub Z.add Z.opp Z.pos_sub pick Z.eqb Pos.eqb] in U, E.
      - destruct (solve_other a1 b1 g h z1 z1' (q_s1 q) (q_t1 q) U) as [s [t [Ds [Dt [E1 E2]]]]]. exists (mkq (q_s0 q) (q_t0 q) s t).
        cbn [q_s0 q_t0 q_s1 q_t1]. split; [split; [reflexivity|split; [reflexivity|]]|].
        { intros [A [B _]]. split; [exact A|]. split; [exact B|]. split; [exact Ds|exact Dt]. }
        rewrite E. split; [split; reflexivity|split; [exact E1|exact E2]].
      - destruct (solve_other a0 b0 g h z0 z0' (q_s0 q) (q_t0 q) U) as [s [t [Ds [Dt [E1 E2]]]]]. exists (mkq s t (q_s1 q) (q_t1 q)).
        cbn [q_s0 q_t0 q_s1 q_t1]. split; [split; [reflexivity|split; [reflexivity|]]|].
        { intros [_ [_ [A B]]]. split; [exact Ds|]. split; [exact Dt|]. split; [exact A|exact B]. }
        rewrite E. split; [split; [exact E1|exact E2]|split; reflexivity]. }
    destruct X as [q' [KP [[X0 Y0] [X1 Y1]]]].
    destruct (Enc_rf dbg live D c _ _ _ _ 0 pk g h m0 z0 (q_s0 q) (q_t0 q) K (or_introl eq_refl) G H M0) as [c0 [E0 [U0 V0]]].
    destruct (Enc_rf dbg live D c _ _ _ _ 1 pk g h m1 z1 (q_s1 q) (q_t1 q) K (or_intror eq_refl) G H M1) as [c1 [E1 [U1 V1]]].
    destruct (Enc_rf dbg live D c _ _ _ _ 0 pk g h m0' z0' (q_s0 q') (q_t0 q') K (or_introl eq_refl) G H M0') as [c0' [E0' [U0' V0']]].
    destruct (Enc_rf dbg live D c _ _ _ _ 1 pk g h m1' z1' (q_s1 q') (q_t1 q') K (or_intror eq_refl) G H M1') as [c1' [E1' [U1' V1']]].
    cbn [pick Z.eqb Pos.eqb] in U0, U1, U0', U1'.
    exists q', [c0; c1], [c0'; c1']. split; [exact KP|]. unfold ctP. rewrite E0, !bind_ret, E1, !bind_ret, E0', !bind_ret, E1', !bind_ret.
    split; [reflexivity|]. split; [reflexivity|].
    constructor; [|constructor; [|constructor]].
    - split; [apply (rf_den_eq live CV good_CV _ _ _ _ U0 U0'); symmetry; exact X0|apply (rf_den_eq live CV good_CV _ _ _ _ V0 V0'); symmetry; exact Y0].
    - split; [apply (rf_den_eq live CV good_CV _ _ _ _ U1 U1'); symmetry; exact X1|apply (rf_den_eq live CV good_CV _ _ _ _ V1 V1'); symmetry; exact Y1].
  Qed.

  Lemma ctZ_ctP D pk m0 m1 q P0 P1 : encode dbg live D m0 = Ok P0 -> encode dbg live D m1 = Ok P1 -> ctZ D pk m0 m1 q = ctP D pk P0 P1 q.
  Proof. intros E0 E1. unfold ctZ, ctP, EncZ. rewrite E0, E1, !bind_ret. reflexivity. Qed.

  Lemma pair_Z D c a0 a1 b0 b1 pk g h b q m0 m1 m0' m1' : drf D c a0 a1 b0 b1 -> rf (pg pk) g -> rf (ph pk) h -> branch b ->
    unequal b a0 a1 b0 b1 g h -> (if b =? 0 then m0' = m0 else m1' = m1) ->
    exists q' l l', keeps b q q' /\ ctZ D pk m0 m1 q = Ok l /\ ctZ D pk m0' m1' q' = Ok l' /\ Forall2 same_ctxt l l'.
  Proof.
    intros K G H Hb U E. pose proof (dr_cur _ _ _ _ _ _ _ K) as Ec. pose proof (dr_live _ _ _ _ _ _ _ K) as L.
    assert (EN : forall m, exists P z, encode dbg live D m = Ok P /\ rf P z).
    { intros m. destruct (L_C32_encode dbg live c _ m Ec L) as [i [P [_ [EP [FP _]]]]]. destruct (val_rf live P (or_intror FP)) as [z M]. exists P, z. split; [exact EP|exact M]. }
    destruct Hb as [-> | ->]; cbn [Z.eqb Pos.eqb] in E; subst.
    - destruct (EN m0) as [P0 [z0 [E0 M0]]]. destruct (EN m1) as [P1 [z1 [E1 M1]]]. destruct (EN m1') as [P1' [z1' [E1' M1']]].
      destruct (pair_P D c _ _ _ _ pk g h 0 q P0 P1 P0 P1' z0 z1 z0 z1' K G H (or_introl eq_refl) U M0 M1 M0 M1' eq_refl) as [q' [l [l' [KP [A [A' B]]]]]].
      exists q', l, l'. rewrite (ctZ_ctP _ _ _ _ _ _ _ E0 E1), (ctZ_ctP _ _ _ _ _ _ _ E0 E1'). split; [exact KP|]. split; [exact A|]. split; [exact A'|exact B].
    - destruct (EN m1) as [P1 [z1 [E1 M1]]]. destruct (EN m0) as [P0 [z0 [E0 M0]]]. destruct (EN m0') as [P0' [z0' [E0' M0']]].
      destruct (pair_P D c _ _ _ _ pk g h 1 q P0 P1 P0' P1 z0 z1 z0' z1 K G H (or_intror eq_refl) U M0 M1 M0' M1 eq_refl) as [q' [l [l' [KP [A [A' B]]]]]].
      exists q', l, l'. rewrite (ctZ_ctP _ _ _ _ _ _ _ E0 E1), (ctZ_ctP _ _ _ _ _ _ _ E0' E1). split; [exact KP|]. split; [exact A|]. split; [exact A'|exact B].
  Qed.

  (** ** One round *)
  Lemma run_top T pk qa qb qc qp u v va vp : ctZ (sdme (ots T)) pk (lk (Sl0 T)) (lk (Sl1 T)) qa = Ok va ->
    ctP (sdme (ots T)) pk (lprf (Sl0 T)) (lprf (Sl1 T)) qp = Ok vp ->
    runOTRound dbg live T 16 pk qa qb qc qp u v = Ok (sent (sent T va) vp, mkoc [va; []; []] vp).
  Proof.
    intros A P. unfold runOTRound. change (16 =? BITS) with true. cbn [fst snd].
    rewrite encZ_eq, A, !bind_ret. cbn [fst snd]. rewrite encP_eq. change (sdme (ots (sent T va))) with (sdme (ots T)).
    rewrite P, !bind_ret. reflexivity.
  Qed.
  Lemma run_row T round pk qa qb qc qp u v va vb vc vp r0 r1 : round <> 16 -> vat (Si0 T) round = Ok r0 -> vat (Si1 T) round = Ok r1 ->
    ctZ (sdme (ots T)) pk (ilt r0) (ilt r1) qa = Ok va -> ctZ (sdme (ots T)) pk (ieq r0) (ieq r1) qb = Ok vb -> ctZ (sdme (ots T)) pk (igt r0) (igt r1) qc = Ok vc ->
    ctP (sdme (ots T)) pk (iprf r0) (iprf r1) qp = Ok vp ->
    runOTRound dbg live T round pk qa qb qc qp u v = Ok (sent (sent (sent (sent T va) vb) vc) vp, mkoc (shuffle3 [va; vb; vc] u v) vp).
  Proof.
    intros N V0 V1 A B C P. unfold runOTRound. destruct (Z.eqb_spec round BITS) as [E|_]; [destruct (N E)|].
    rewrite V0, bind_ret, V1, bind_ret.
    rewrite encZ_eq, A, !bind_ret. cbn [fst snd]. rewrite encZ_eq. change (sdme (ots (sent T va))) with (sdme (ots T)).
    rewrite B, !bind_ret. cbn [fst snd]. rewrite encZ_eq. change (sdme (ots (sent (sent T va) vb))) with (sdme (ots T)).
    rewrite C, !bind_ret. cbn [fst snd]. rewrite encP_eq. change (sdme (ots (sent (sent (sent T va) vb) vc))) with (sdme (ots T)).
    rewrite P, !bind_ret. reflexivity.
  Qed.

  Lemma Forall2_map_same (A B : Type) (R : B -> B -> Prop) (f g : A -> B) l : (forall x, R (f x) (g x)) -> Forall2 R (map f l) (map g l).
  Proof. intros H. induction l as [|x l IH]; [constructor|]. cbn [map]. constructor; [apply H|exact IH]. Qed.

  Section Round.
    Variables (e e' : env) (iv : list Z) (S S' : server) (a a' x : Z) (c : Z) (a0 a1 b0 b1 : F) (p p' : prep_draws).
    Hypotheses (ED : sdme (ots S') = sdme (ots S)) (K : drf (sdme (ots S)) c a0 a1 b0 b1).
    Notation prep := (prepared live e iv S).
    Notation prep' := (prepared live e' iv S').
    Let th := theta S.
    Let th' := theta S'.
    Definition swap (j : nat) : comparison -> comparison := trans (prefix_cmp x th j) (prefix_cmp x th' j).
    Lemma swap_swap j s : swap j (swap j s) = s.
    Proof. apply trans_trans. Qed.

    Hypothesis TOP : level_key p' (bit x 15 ?= bit th' 15) 15 = level_key p (bit x 15 ?= bit th 15) 15.
    Hypothesis LINK : forall j s ct, (j < 15)%nat ->
      encryptCRC e iv (level_key p (swap (Datatypes.S j) s) (Datatypes.S j)) (level_key p (refine (swap (Datatypes.S j) s) (bit x j) (bit th j)) j) = Ok ct ->
      encryptCRC e' iv (level_key p' s (Datatypes.S j)) (level_key p' (refine s (bit x j) (bit th' j)) j) = Ok ct.
    Hypothesis PRF : forall j, (j < 16)%nat ->
      mk (bit x j * 2 ^ Z.of_nat j * a + d_ok p j * d_r p) = mk (bit x j * 2 ^ Z.of_nat j * a' + d_ok p' j * d_r p').

    (** what the draws of the second server have in common with those of the first *)
    Record follows (r : Z) (q y : round_draws) : Prop := {
      fo_key : rd_key y = rd_key q;
      fo_letter : forall s, keeps (round_bit x r) (letter_quad (swap (Z.to_nat r) s) q) (letter_quad s y);
      fo_prf : keeps (round_bit x r) (rd_p q) (rd_p y);
      fo_u : 0 <= rd_u y < 2 ^ 31;
      fo_v : 0 <= rd_v y < 2 ^ 31 }.

    Lemma keeps_refl b q : keeps b q q.
    Proof. split; [reflexivity|]. split; [reflexivity|]. intros H; exact H. Qed.

    Lemma swap_16 : 0 <= x < 2 ^ 16 -> 0 <= th < 2 ^ 16 -> 0 <= th' < 2 ^ 16 -> forall s, swap 16 s = s.
    Proof.
      intros X T T' s. unfold swap, prefix_cmp. change (Z.of_nat 16) with 16. rewrite !Z.div_small by assumption. destruct s; reflexivity.
    Qed.

    Hypotheses (RX : 0 <= x < 2 ^ 16) (RT : 0 <= th < 2 ^ 16) (RT' : 0 <= th' < 2 ^ 16).

    Lemma round_pair T T' pk g h r (q : round_draws) : prep T p a -> prep' T' p' a' -> rf (pg pk) g -> rf (ph pk) h -> 1 <= r <= 16 ->
      unequal (round_bit x r) a0 a1 b0 b1 g h ->
      exists y T1 o T1' o', follows r q y /\
        runOTRound dbg live T r pk (rd_a q) (rd_b q) (rd_c q) (rd_p q) (rd_u q) (rd_v q) = Ok (T1, o) /\
        runOTRound dbg live T' r pk (rd_a y) (rd_b y) (rd_c y) (rd_p y) (rd_u y) (rd_v y) = Ok (T1', o') /\
        prep T1 p a /\ prep' T1' p' a' /\ Forall2 (Forall2 same_ctxt) (oc o) (oc o') /\ Forall2 same_ctxt (ocprf o) (ocprf o').
    Proof.
      intros P P' G H R U. set (b := round_bit x r) in *. assert (Hb : branch b) by apply round_bit_branch.
      set (D := sdme (ots S)) in *.
      assert (DT : sdme (ots T) = D) by exact (ba_ots _ _ _ _ (proj1 P)).
      assert (DT' : sdme (ots T') = D) by (rewrite (ba_ots _ _ _ _ (proj1 P')); exact ED).
      assert (PS : forall T l, prep T p a -> prep (sent T l) p a) by (intros T0 l Q; apply prepared_ots; [exact Q|reflexivity]).
      assert (PS' : forall T l, prep' T p' a' -> prep' (sent T l) p' a') by (intros T0 l Q; apply prepared_ots; [exact Q|reflexivity]).
      pose proof (ba_theta _ _ _ _ (proj1 P)) as TH. pose proof (ba_theta _ _ _ _ (proj1 P')) as TH'. fold th in TH. fold th' in TH'.
      pose proof P as [_ [T0 [T1 RW]]]. pose proof P' as [_ [T0' [T1' RW']]].
      destruct (Z.eq_dec r 16) as [E16|N16].
      - subst r. assert (EB : b = bit x 15) by reflexivity.
        pose proof (proj2 T0) as M0. pose proof (proj2 T1) as M1. pose proof (proj2 T0') as M0'. pose proof (proj2 T1') as M1'.
        apply (multiple_rf live) in M0, M1, M0', M1'.
        pose proof (PRF 15 ltac:(lia)) as EP. change (2 ^ Z.of_nat 15) with (2 ^ 15) in EP.
        destruct (pair_Z D c a0 a1 b0 b1 pk g h b (rd_a q) (lk (Sl0 T)) (lk (Sl1 T)) (lk (Sl0 T')) (lk (Sl1 T')) K G H Hb U) as [ya [va [va' [KA [A [A' SA]]]]]].
        { rewrite (proj1 T0), (proj1 T1), (proj1 T0'), (proj1 T1'). fold th th'. rewrite <- EB in TOP. destruct Hb as [E | E]; rewrite E in TOP |- *; cbn [Z.eqb Pos.eqb]; exact TOP. }
        destruct (pair_P D c a0 a1 b0 b1 pk g h b (rd_p q) _ _ _ _ _ _ _ _ K G H Hb U M0 M1 M0' M1') as [yp [vp [vp' [KP [B [B' SP]]]]]].
        { rewrite <- EB in EP. destruct Hb as [E | E]; rewrite E in EP |- *; cbn [Z.eqb Pos.eqb pick]; exact EP. }
        exists (mkrd (rd_key q) ya (rd_b q) (rd_c q) yp 0 0), (sent (sent T va) vp), (mkoc [va; []; []] vp), (sent (sent T' va') vp'), (mkoc [va'; []; []] vp').
        cbn [rd_a rd_b rd_c rd_p rd_u rd_v].
        split. { constructor; cbn [rd_key rd_p rd_u rd_v]; [reflexivity| |exact KP|lia|lia]. intros s. change (Z.to_nat 16) with 16%nat. rewrite (swap_16 RX RT RT').
          destruct s; cbn [letter_quad rd_a rd_b rd_c]; [apply keeps_refl|exact KA|apply keeps_refl]. }
        rewrite <- DT in A, B. rewrite <- DT' in A', B'.
        split; [exact (run_top T pk _ _ _ _ _ _ _ _ A B)|]. split; [exact (run_top T' pk _ _ _ _ _ _ _ _ A' B')|].
        split; [apply PS, PS, P|]. split; [apply PS', PS', P'|]. split; [|exact SP].
        constructor; [exact SA|]. constructor; [constructor|]. constructor; [constructor|]. constructor.
      - set (j := Z.to_nat (r - 1)). assert (EJ : r = Z.of_nat (Datatypes.S j)) by (subst j; lia). assert (J : (j < 15)%nat) by (subst j; lia).
        assert (ER : Z.to_nat r = Datatypes.S j) by lia. assert (EB : b = bit x j) by reflexivity.
        destruct (RW j J) as [r0 [r1 [N0 [N1 [Q0 Q1]]]]]. destruct (RW' j J) as [r0' [r1' [N0' [N1' [Q0' Q1']]]]]. rewrite TH in Q0, Q1. rewrite TH' in Q0', Q1'.
        assert (V0 : vat (Si0 T) r = Ok r0) by (rewrite EJ; apply vat_nth, N0).
        assert (V1 : vat (Si1 T) r = Ok r1) by (rewrite EJ; apply vat_nth, N1).
        assert (V0' : vat (Si0 T') r = Ok r0') by (rewrite EJ; apply vat_nth, N0').
        assert (V1' : vat (Si1 T') r = Ok r1') by (rewrite EJ; apply vat_nth, N1').
        set (sw := swap (Datatypes.S j)).
        assert (LC : forall s, if b =? 0 then letter_ct s r0' = letter_ct (sw s) r0 else letter_ct s r1' = letter_ct (sw s) r1).
        { intros s. destruct Hb as [E | E]; rewrite E; cbn [Z.eqb Pos.eqb].
          - pose proof (proj1 Q0 (sw s)) as Y. pose proof (proj1 Q0' s) as Y'. rewrite <- E in Y, Y' at 1. rewrite EB in Y, Y'. apply (LINK j s _ J) in Y. rewrite Y in Y'. apply Ok_inj in Y'. symmetry. exact Y'.
          - pose proof (proj1 Q1 (sw s)) as Y. pose proof (proj1 Q1' s) as Y'. rewrite <- E in Y, Y' at 1. rewrite EB in Y, Y'. apply (LINK j s _ J) in Y. rewrite Y in Y'. apply Ok_inj in Y'. symmetry. exact Y'. }
        assert (X : forall s, exists y l l', keeps b (letter_quad (sw s) q) y /\ ctZ D pk (letter_ct (sw s) r0) (letter_ct (sw s) r1) (letter_quad (sw s) q) = Ok l /\
          ctZ D pk (letter_ct s r0') (letter_ct s r1') y = Ok l' /\ Forall2 same_ctxt l l').
        { intros s. exact (pair_Z D c a0 a1 b0 b1 pk g h b _ _ _ _ _ K G H Hb U (LC s)). }
        destruct (X Lt) as [y1 [l1 [l1' [KE1 [A1 [A1' S1]]]]]]. destruct (X Eq) as [y2 [l2 [l2' [KE2 [A2 [A2' S2]]]]]]. destruct (X Gt) as [y3 [l3 [l3' [KE3 [A3 [A3' S3]]]]]].
        clear X.
        set (w := letter l1 l2 l3). set (w' := letter l1' l2' l3').
        assert (AW : forall s, ctZ D pk (letter_ct (sw s) r0) (letter_ct (sw s) r1) (letter_quad (sw s) q) = Ok (w s)).
        { intros s. destruct s; [exact A2|exact A1|exact A3]. }
        assert (AV : forall s, ctZ D pk (letter_ct s r0) (letter_ct s r1) (letter_quad s q) = Ok (w (sw s))).
        { intros s. rewrite <- (AW (sw s)). unfold sw. rewrite swap_swap. reflexivity. }
        assert (SW : forall s, Forall2 same_ctxt (w s) (w' s)) by (intros s; destruct s; [exact S2|exact S1|exact S3]).
        pose proof (proj2 Q0) as M0. pose proof (proj2 Q1) as M1. pose proof (proj2 Q0') as M0'. pose proof (proj2 Q1') as M1'.
        apply (multiple_rf live) in M0, M1, M0', M1'. pose proof (PRF j ltac:(lia)) as EP.
        destruct (pair_P D c a0 a1 b0 b1 pk g h b (rd_p q) _ _ _ _ _ _ _ _ K G H Hb U M0 M1 M0' M1') as [yp [vp [vp' [KP [B [B' SP]]]]]].
        { rewrite <- EB in EP. destruct Hb as [E | E]; rewrite E in EP |- *; cbn [Z.eqb Pos.eqb pick]; exact EP. }
        destruct (shuffle_trans (prefix_cmp x th (Datatypes.S j)) (prefix_cmp x th' (Datatypes.S j)) (rd_u q) (rd_v q)) as [u' [v' [RU [RV SH]]]].
        exists (mkrd (rd_key q) y1 y2 y3 yp u' v').
        exists (sent (sent (sent (sent T (w (sw Lt))) (w (sw Eq))) (w (sw Gt))) vp), (mkoc (shuffle3 [w (sw Lt); w (sw Eq); w (sw Gt)] (rd_u q) (rd_v q)) vp).
        exists (sent (sent (sent (sent T' (w' Lt)) (w' Eq)) (w' Gt)) vp'), (mkoc (shuffle3 [w' Lt; w' Eq; w' Gt] u' v') vp').
        cbn [rd_a rd_b rd_c rd_p rd_u rd_v].
        split. { constructor; cbn [rd_key rd_p rd_u rd_v]; [reflexivity| |exact KP|exact RU|exact RV]. intros s. rewrite ER. fold sw. fold b.
          destruct s; cbn [letter_quad rd_a rd_b rd_c]; [exact KE2|exact KE1|exact KE3]. }
        rewrite <- DT in AV, B. rewrite <- DT' in A1', A2', A3', B'.
        split; [exact (run_row T r pk _ _ _ _ _ _ _ _ _ _ _ _ N16 V0 V1 (AV Lt) (AV Eq) (AV Gt) B)|].
        split; [exact (run_row T' r pk _ _ _ _ _ _ _ _ _ _ _ _ N16 V0' V1' A1' A2' A3' B')|].
        split; [apply PS, PS, PS, PS, P|]. split; [apply PS', PS', PS', PS', P'|]. split; [|exact SP]. cbn [oc].
        rewrite (shuffle3_letters _ w'), (shuffle3_letters _ (fun s => w (sw s))). rewrite <- SH, map_map. fold (swap (Datatypes.S j)). fold sw.
        apply Forall2_map_same. intros s. replace (sw (sw s)) with s by (unfold sw; symmetry; apply swap_swap). apply SW.
    Qed.

    (** ** All rounds *)
    Lemma exchanges_pair C0 d c' l : drf (rdme (otr C0)) c' a0 a1 b0 b1 -> a0 *' b1 -' a1 *' b0 <> f0 n ->
      (forall r, 1 <= r <= 16 -> ~ (order | rd_key (sd_round d r))) ->
      Forall (fun r => 1 <= r <= 16) l -> NoDup l -> forall S1 S1' C, prep S1 p a -> prep' S1' p' a' ->
      rdme (otr C) = rdme (otr C0) -> cx C = Some x ->
      exists f T t T' t', (forall r, In r l -> follows r (sd_round d r) (f r)) /\
        exchanges dbg live S1 C (map (fun r => (r, sd_round d r)) l) = Ok (T, t) /\
        exchanges dbg live S1' C (map (fun r => (r, f r)) l) = Ok (T', t') /\
        prep T p a /\ prep' T' p' a' /\ Forall2 same_messages t t'.
    Proof.
      intros K' DET NK FL. induction FL as [|r l R FL IH]; intros ND S1 S1' C P P' EX X.
      - exists (sd_round d), S1, [], S1', []. split; [intros r []|]. split; [reflexivity|]. split; [reflexivity|]. split; [exact P|]. split; [exact P'|constructor].
      - destruct (KeyGen_rf dbg live _ c' _ _ _ _ (round_bit x r) (rd_key (sd_round d r)) K' (round_bit_branch x r)) as [kp [EK [G [H _]]]].
        pose proof (det_r x a0 a1 b0 b1 d NK DET r R) as U.
        destruct (round_pair S1 S1' (kpk kp) _ _ r (sd_round d r) P P' G H R U) as [y [T1 [o [T1' [o' [FO [E1 [E1' [P2 [P2' [SO SP]]]]]]]]]]].
        inversion ND as [|? ? NI ND']; subst.
        match type of EK with KeyGen _ _ _ _ _ = Ok kp => idtac end.
        pose proof (start_eq dbg live C x r (rd_key (sd_round d r)) X R) as ST. rewrite EX, EK, !bind_ret in ST.
        match type of ST with _ = Ok (?Y, _) => destruct (IH ND' T1 T1' Y P2 P2' eq_refl X) as [f [T [t [T' [t' [FF [E2 [E2' [Q [Q' SS]]]]]]]]]] end.
        exists (fun z => if z =? r then y else f z), T, ((kpk kp, o) :: t), T', ((kpk kp, o') :: t').
        split. { intros z [<-|I]; [rewrite Z.eqb_refl; exact FO|]. destruct (Z.eqb_spec z r) as [->|_]; [destruct (NI I)|apply FF, I]. }
        cbn [map exchanges]. rewrite Z.eqb_refl, (fo_key _ _ _ FO), ST, !bind_ret. cbn [fst snd]. rewrite E1, E1', !bind_ret. cbn [fst snd].
        rewrite E2, bind_ret. 
        replace (map (fun z => (z, if z =? r then y else f z)) l) with (map (fun z => (z, f z)) l).
        2: { apply map_ext_in. intros z I. destruct (Z.eqb_spec z r) as [->|_]; [destruct (NI I)|reflexivity]. }
        rewrite E2', bind_ret. cbn [fst snd]. split; [reflexivity|]. split; [reflexivity|]. split; [exact Q|]. split; [exact Q'|].
        constructor; [|exact SS]. split; [reflexivity|]. split; [exact SO|exact SP].
    Qed.
  End Round.
End Opprf11.
