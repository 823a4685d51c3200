(** The aggregate of any number of senders: it shows as much as the answer of one sender to which the sums belong. *)
From Coq Require Import ZArith Znumtheory Bool List Lia.
From Verif Require Import Outcome FieldModel ZpField SpecField FieldProofs ECGroup ECOrder CurveParams CurveFacts EccModel EccProofs SpecEcc EccThms Emb RF DmeModel SpecDme DmeProofs OtModel OtProofs SpecOt AesModel OpprfModel SpecOpprf OpprfProofs SpecCount CountMath SpecDdh SpecDdh2 SpecDdh3 SpecDdh4 DdhProofs DdhCases DdhMany DdhMany2 DdhHear5 SpecCheat CheatProofs CheatProofs2 SpecIdeal IdealProofs ComposeProofs SpecDot.
Import ListNotations.
Open Scope Z_scope.

(** ** Sums of draws *)
Notation quad4 := (Z * Z * Z * Z)%type.
Definition i0 (q : quad4) : Z := fst (fst (fst q)).
Definition i1 (q : quad4) : Z := snd (fst (fst q)).
Definition i2 (q : quad4) : Z := snd (fst q).
Definition i3 (q : quad4) : Z := snd q.
Definition sm (i : quad4 -> Z) (ds : list quad4) : Z := fold_right Z.add 0 (map i ds).
Definition sums (ds : list quad4) : quad4 := (sm i0 ds, sm i1 ds, sm i2 ds, sm i3 ds).
Definition plus4 (f : Z -> Z -> Z) (q w : quad4) : quad4 :=
  (f (i0 q) (i0 w) mod order, f (i1 q) (i1 w) mod order, f (i2 q) (i2 w) mod order, f (i3 q) (i3 w) mod order).
Lemma draw_mod z : draw (z mod order).
Proof. apply Z.mod_pos_bound. vm_compute. reflexivity. Qed.
Lemma plus4_four f q w : four (plus4 f q w).
Proof. split; [apply draw_mod|]. split; [apply draw_mod|]. split; apply draw_mod. Qed.
Lemma there a b : draw a -> ((a - b) mod order + b) mod order = a.
Proof. apply sub_add. Qed.
Lemma back a b : draw a -> ((a + b) mod order - b) mod order = a.
Proof. apply add_sub. Qed.
Lemma plus4_there q w : four q -> plus4 Z.add (plus4 Z.sub q w) w = q.
Proof.
  destruct q as [[[a b] c] d]. intros [A [B [C D]]]. unfold plus4. cbn [i0 i1 i2 i3 fst snd]. unfold i0, i1, i2, i3. cbn [fst snd].
  rewrite (there a _ A), (there b _ B), (there c _ C), (there d _ D). reflexivity.
Qed.
Lemma plus4_back q w : four q -> plus4 Z.sub (plus4 Z.add q w) w = q.
Proof.
  destruct q as [[[a b] c] d]. intros [A [B [C D]]]. unfold plus4, i0, i1, i2, i3. cbn [fst snd].
  rewrite (back a _ A), (back b _ B), (back c _ C), (back d _ D). reflexivity.
Qed.
(** the sums of n + 1 lists of draws take every value equally often *)
Lemma sums_count (R : quad4 -> Prop) N1 n : how_many (fun q => four q /\ R q) N1 ->
  how_many (fun ds => length ds = Datatypes.S n /\ Forall four ds /\ match ds with q :: l => R (plus4 Z.add q (sums l)) | [] => False end) (order ^ (4 * Z.of_nat n) * N1).
Proof.
  intros C. assert (L : how_many (fun l => length l = n /\ Forall four l) (order ^ (4 * Z.of_nat n))).
  { pose proof (lists_count four _ (four_count (fun _ => true)) n) as X. replace (order * order * order * order) with (order ^ 4) in X by ring. rewrite <- Z.pow_mul_r in X by lia. exact X. }
  pose proof (how_many_prod _ _ _ _ C L) as P. rewrite Z.mul_comm. refine (how_many_map (fun z => plus4 Z.sub (fst z) (sums (snd z)) :: snd z) _ _ _ P _ _).
  - intros [q l] [q' l'] [[Q _] _] [[Q' _] _] E. cbn [fst snd] in *. assert (E1 : l = l') by congruence. subst l'.
    assert (E2 : plus4 Z.sub q (sums l) = plus4 Z.sub q' (sums l)) by congruence. rewrite <- (plus4_there q (sums l) Q), E2, (plus4_there q' (sums l) Q'). reflexivity.
  - intros ds. split.
    + intros [LN [F X]]. destruct ds as [|q l]; [destruct X|]. apply Forall_cons_iff in F. destruct F as [Q F]. exists (plus4 Z.add q (sums l), l). cbn [fst snd].
      split; [|rewrite (plus4_back q _ Q); reflexivity]. split; [split; [apply plus4_four|exact X]|]. split; [cbn [length] in LN; lia|exact F].
    + intros [[q l] [[[Q X] [LN F]] <-]]. cbn [fst snd] in *. split; [cbn [length]; lia|]. split; [constructor; [apply plus4_four|exact F]|]. rewrite (plus4_there q _ Q). exact X.
Qed.

Section Dot.
  Variables (dbg : bool) (live : Z -> bool).
  Notation like := (DdhMany2.like live).
  Notation dlike := (dlike live).
  Definition ctl (c : ctxt) (u v : Z) : Prop := like (cu c) u /\ like (cmv c) v.

  Lemma enc_logs D c a0 a1 b0 b1 pk x y b m z s t : dlike D c a0 a1 b0 b1 -> like (pg pk) x -> like (ph pk) y -> like m z -> branch b ->
    exists ct, Enc dbg live D pk b m s t = Ok ct /\ ctl ct (s * at_branch b a0 a1 + t * at_branch b b0 b1) (s * x + t * y + z).
  Proof.
    intros [E L A B A' B'] HX HY HZ Hb. unfold Enc. rewrite E, !(getRandomScalar_em live CV c _ L). cbn [bind].
    destruct (like_mul' dbg live _ _ s HX) as [P1 [-> L1]]. cbn [bind]. destruct (like_mul' dbg live _ _ t HY) as [P2 [-> L2]]. cbn [bind].
    destruct (like_add dbg live _ _ _ _ L1 L2) as [P3 [-> L3]]. cbn [bind]. destruct (like_add dbg live _ _ _ _ L3 HZ) as [P7 [E7 L7]].
    destruct Hb as [-> | ->]; cbn [Z.eqb Pos.eqb at_branch].
    - destruct (like_mul' dbg live _ _ s A) as [P4 [-> L4]]. cbn [bind]. destruct (like_mul' dbg live _ _ t A') as [P5 [-> L5]]. cbn [bind]. destruct (like_add dbg live _ _ _ _ L4 L5) as [P6 [-> L6]]. cbn [bind].
      rewrite E7. cbn [bind]. eexists. split; [reflexivity|]. split; [exact L6|exact L7].
    - destruct (like_mul' dbg live _ _ s B) as [P4 [-> L4]]. cbn [bind]. destruct (like_mul' dbg live _ _ t B') as [P5 [-> L5]]. cbn [bind]. destruct (like_add dbg live _ _ _ _ L4 L5) as [P6 [-> L6]]. cbn [bind].
      rewrite E7. cbn [bind]. eexists. split; [reflexivity|]. split; [exact L6|exact L7].
  Qed.
  Lemma eval_logs c c' u v u' v' : ctl c u v -> ctl c' u' v' -> exists r, Eval dbg live c c' = Ok r /\ ctl r (u + u') (v + v').
  Proof.
    intros [U V] [U' V']. unfold Eval. destruct (like_add dbg live _ _ _ _ U U') as [P [-> LP]]. cbn [bind]. destruct (like_add dbg live _ _ _ _ V V') as [Q [-> LQ]]. cbn [bind].
    eexists. split; [reflexivity|]. split; [exact LP|exact LQ].
  Qed.
  Lemma ctl_to c u v u' v' : ctl c u v -> u = u' -> v = v' -> ctl c u' v'.
  Proof. intros H <- <-. exact H. Qed.
  (** all senders have the logarithms of D *)
  Lemma sender_like D c a0 a1 b0 b1 x : dlike D c a0 a1 b0 b1 -> sender_ok live D x -> exists c', dlike (sdme (snd_o x)) c' a0 a1 b0 b1.
  Proof.
    intros [_ _ A B A' B'] [OK [[E0 [E1 [E2 E3]]] _]]. destruct (ok_like live _ OK) as [c' [p [q [r [s [EC LC P Q R T]]]]]]. exists c'. unfold same_point in *.
    rewrite (like_den live _ _ A), (like_den live _ _ P) in E0. rewrite (like_den live _ _ B), (like_den live _ _ Q) in E1. rewrite (like_den live _ _ A'), (like_den live _ _ R) in E2. rewrite (like_den live _ _ B'), (like_den live _ _ T) in E3.
    apply pow_eq in E0, E1, E2, E3.
    constructor; [exact EC|exact LC|exact (like_cong live _ _ _ P E0)|exact (like_cong live _ _ _ Q E1)|exact (like_cong live _ _ _ R E2)|exact (like_cong live _ _ _ T E3)].
  Qed.
  Lemma send_logs D c a0 a1 b0 b1 pk x y w : dlike D c a0 a1 b0 b1 -> like (pg pk) x -> like (ph pk) y -> sender_ok live D w ->
    exists z0 z1, like (snd_m0 w) z0 /\ like (snd_m1 w) z1 /\ forall q, exists c0 c1, send dbg live pk (drawn w q) = Ok [c0; c1] /\
      ctl c0 (i0 q * a0 + i1 q * b0) (i0 q * x + i1 q * y + z0) /\ ctl c1 (i2 q * a1 + i3 q * b1) (i2 q * x + i3 q * y + z1).
  Proof.
    intros HD HX HY SK. destruct (sender_like D c a0 a1 b0 b1 w HD SK) as [c' HD']. destruct SK as [_ [_ [V0 V1]]].
    destruct (like_valid live _ V0) as [z0 Z0]. destruct (like_valid live _ V1) as [z1 Z1]. exists z0, z1. split; [exact Z0|]. split; [exact Z1|]. intros [[[s0 t0] s1] t1].
    unfold send, drawn, encMsgs. cbn [snd_o snd_m0 snd_m1 snd_s0 snd_t0 snd_s1 snd_t1].
    destruct (enc_logs _ c' _ _ _ _ pk x y 0 _ z0 s0 t0 HD' HX HY Z0 (or_introl eq_refl)) as [d0 [-> L0]]. cbn [bind].
    destruct (enc_logs _ c' _ _ _ _ pk x y 1 _ z1 s1 t1 HD' HX HY Z1 (or_intror eq_refl)) as [d1 [-> L1]]. cbn [bind app snd].
    exists d0, d1. split; [reflexivity|]. unfold i0, i1, i2, i3. cbn [fst snd]. cbn [at_branch Z.eqb] in L0, L1. split; [exact L0|exact L1].
  Qed.
  Lemma fold_logs D c a0 a1 b0 b1 pk x y : dlike D c a0 a1 b0 b1 -> like (pg pk) x -> like (ph pk) y -> forall xs, Forall (sender_ok live D) xs ->
    exists z0 z1, total (map snd_m0 xs) = pow z0 /\ total (map snd_m1 xs) = pow z1 /\ forall ds, length ds = length xs -> forall c0 c1 u0 v0 u1 v1, ctl c0 u0 v0 -> ctl c1 u1 v1 ->
      exists vs d0 d1, mapM (send dbg live pk) (map (fun y => drawn (fst y) (snd y)) (combine xs ds)) = Ok vs /\ foldM (agg_step dbg live) vs (c0, c1) = Ok (d0, d1) /\
        ctl d0 (u0 + (sm i0 ds * a0 + sm i1 ds * b0)) (v0 + (sm i0 ds * x + sm i1 ds * y + z0)) /\ ctl d1 (u1 + (sm i2 ds * a1 + sm i3 ds * b1)) (v1 + (sm i2 ds * x + sm i3 ds * y + z1)).
  Proof.
    intros HD HX HY. induction xs as [|w xs IH]; intros F.
    - exists 0, 0. split; [reflexivity|]. split; [reflexivity|]. intros [|q ds] L; [|discriminate L]. intros c0 c1 u0 v0 u1 v1 H0 H1. exists [], c0, c1. split; [reflexivity|]. split; [reflexivity|].
      cbn [sm map fold_right]. split; [refine (ctl_to _ _ _ _ _ H0 _ _)|refine (ctl_to _ _ _ _ _ H1 _ _)]; unfold sm; cbn [map fold_right]; ring.
    - apply Forall_cons_iff in F. destruct F as [F1 F]. destruct (send_logs D c a0 a1 b0 b1 pk x y w HD HX HY F1) as [y0 [y1 [Y0 [Y1 SL]]]]. destruct (IH F) as [z0 [z1 [T0 [T1 H]]]].
      exists (y0 + z0), (y1 + z1). unfold total in *. cbn [map fold_right]. rewrite T0, T1, (like_den live _ _ Y0), (like_den live _ _ Y1), !pow_add. split; [reflexivity|]. split; [reflexivity|].
      intros [|q ds] L; [discriminate L|]. cbn [length] in L. intros c0 c1 u0 v0 u1 v1 H0 H1. destruct (SL q) as [e0 [e1 [ES [G0 G1]]]].
      destruct (eval_logs c0 e0 _ _ _ _ H0 G0) as [f0 [EE0 K0]]. destruct (eval_logs c1 e1 _ _ _ _ H1 G1) as [f1 [EE1 K1]].
      destruct (H ds ltac:(lia) f0 f1 _ _ _ _ K0 K1) as [vs [d0 [d1 [EM [EF [R0 R1]]]]]].
      exists ([e0; e1] :: vs), d0, d1. cbn [combine map fst snd mapM]. rewrite ES. cbn [bind]. rewrite EM. cbn [bind]. split; [reflexivity|].
      split. { cbn [foldM]. unfold agg_step at 1. change (vat [e0; e1] 0) with (Ok e0). change (vat [e0; e1] 1) with (Ok e1). cbn [bind fst snd]. rewrite EE0. cbn [bind]. rewrite EE1. cbn [bind]. exact EF. }
      split; [refine (ctl_to _ _ _ _ _ R0 _ _)|refine (ctl_to _ _ _ _ _ R1 _ _)]; unfold sm; cbn [map fold_right]; ring.
  Qed.
  (** what the sums show *)
  Definition shown (a0 a1 b0 b1 x y z0 z1 : Z) (q : quad4) : list (elt * elt) :=
    [(pow (i0 q * a0 + i1 q * b0), pow (i0 q * x + i1 q * y + z0)); (pow (i2 q * a1 + i3 q * b1), pow (i2 q * x + i3 q * y + z1))].
  Lemma lin_mod s t a b z : pow ((s mod order) * a + (t mod order) * b + z) = pow (s * a + t * b + z).
  Proof.
    apply pow_eq. assert (O : order <> 0) by (vm_compute; discriminate). pose proof (Z.div_mod s order O) as S. pose proof (Z.div_mod t order O) as T.
    exists (- (s / order) * a - (t / order) * b). rewrite S at 2. rewrite T at 2. ring.
  Qed.
  Lemma lin_mod0 s t a b : pow ((s mod order) * a + (t mod order) * b) = pow (s * a + t * b).
  Proof. rewrite <- (Z.add_0_r (s mod order * a + t mod order * b)), lin_mod, Z.add_0_r. reflexivity. Qed.
  Lemma shown_mod a0 a1 b0 b1 x y z0 z1 q w : shown a0 a1 b0 b1 x y z0 z1 (plus4 Z.add q w) = shown a0 a1 b0 b1 x y z0 z1 (i0 q + i0 w, i1 q + i1 w, i2 q + i2 w, i3 q + i3 w).
  Proof. unfold shown, plus4. cbn [i0 i1 i2 i3 fst snd]. unfold i0 at 1 3, i1 at 1 3, i2 at 1 3, i3 at 1 3. cbn [fst snd]. rewrite !lin_mod, !lin_mod0. reflexivity. Qed.
  Lemma gathered_logs D c a0 a1 b0 b1 pk x y w xs : dlike D c a0 a1 b0 b1 -> like (pg pk) x -> like (ph pk) y -> Forall (sender_ok live D) (w :: xs) ->
    exists z0 z1, total (map snd_m0 (w :: xs)) = pow z0 /\ total (map snd_m1 (w :: xs)) = pow z1 /\ forall q ds, length ds = length xs ->
      exists cs, gathered dbg live pk (w :: xs) (q :: ds) = Ok cs /\ map view cs = shown a0 a1 b0 b1 x y z0 z1 (plus4 Z.add q (sums ds)).
  Proof.
    intros HD HX HY F. apply Forall_cons_iff in F. destruct F as [F1 F]. destruct (send_logs D c a0 a1 b0 b1 pk x y w HD HX HY F1) as [y0 [y1 [Y0 [Y1 SL]]]].
    destruct (fold_logs D c a0 a1 b0 b1 pk x y HD HX HY xs F) as [z0 [z1 [T0 [T1 H]]]].
    exists (y0 + z0), (y1 + z1). unfold total in *. cbn [map fold_right]. rewrite T0, T1, (like_den live _ _ Y0), (like_den live _ _ Y1), !pow_add. split; [reflexivity|]. split; [reflexivity|].
    intros q ds L. destruct (SL q) as [e0 [e1 [ES [G0 G1]]]]. destruct (H ds L e0 e1 _ _ _ _ G0 G1) as [vs [d0 [d1 [EM [EF [[R0 R0'] [R1 R1']]]]]]].
    exists [d0; d1]. unfold gathered. cbn [combine map fst snd mapM]. rewrite ES. cbn [bind]. rewrite EM. cbn [bind]. split.
    - unfold aggregate. change (vat ([e0; e1] :: vs) 0) with (Ok [e0; e1]). cbn [bind]. change (vat [e0; e1] 0) with (Ok e0). change (vat [e0; e1] 1) with (Ok e1). cbn [bind tl]. rewrite EF. reflexivity.
    - rewrite shown_mod. unfold shown, sums, view. unfold i0 at 1 2 3 4, i1 at 1 2 3 4, i2 at 1 2 3 4, i3 at 1 2 3 4. cbn [fst snd].
      rewrite (like_den live _ _ R0), (like_den live _ _ R0'), (like_den live _ _ R1), (like_den live _ _ R1').
      apply f_equal2; [apply f_equal2|apply f_equal2; [apply f_equal2|reflexivity]]; apply (f_equal pow); unfold i0, i1, i2, i3; cbn [fst snd]; ring.
  Qed.
End Dot.
