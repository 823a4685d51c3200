(** Many public keys on one string: the two games on exponents. *)
From Coq Require Import ZArith Znumtheory Bool List Lia Field.
From Verif Require Import Outcome FieldModel ZpField SpecField FieldProofs ECGroup ECOrder CurveParams CurveFacts EccModel EccProofs SpecEcc EccThms Emb RF DmeModel SpecDme DmeProofs OtModel OtProofs SpecCount CountMath SpecDdh SpecDdh2 DdhProofs DdhProofs2.
Import ListNotations.
Open Scope Z_scope.

Definition pairdraw (p : Z * Z) : Prop := draw (fst p) /\ draw (snd p).
Definition pairs (n : nat) (ps : list (Z * Z)) : Prop := length ps = n /\ Forall pairdraw ps.

Lemma pairdraws : how_many pairdraw (order * order).
Proof. exact (how_many_prod draw draw _ _ draws draws). Qed.

(** lists *)
Lemma lists_count {A} (P : A -> Prop) k : how_many P k -> forall n, how_many (fun l => length l = n /\ Forall P l) (k ^ Z.of_nat n).
Proof.
  intros H. induction n as [|n IH].
  - exists [[]]. split; [repeat constructor; intros []|]. split; [|reflexivity]. intros l. split; [intros [<-|[]]; split; [reflexivity|constructor]|].
    intros [L _]. left. destruct l; [reflexivity|discriminate].
  - rewrite Nat2Z.inj_succ, Z.pow_succ_r by lia. pose proof (how_many_prod P _ _ _ H IH) as X.
    refine (how_many_map (fun x : A * list A => fst x :: snd x) _ _ _ X _ _).
    + intros [a l] [a' l'] _ _ E. cbn in E. injection E as -> ->. reflexivity.
    + intros l. split.
      * intros [L F]. destruct l as [|a l]; [discriminate|]. apply Forall_cons_iff in F. exists (a, l). cbn. split; [|reflexivity]. cbn in L. split; [apply F|]. split; [lia|apply F].
      * intros [[a l'] [[Pa [L F]] <-]]. cbn in *. split; [lia|constructor; assumption].
Qed.
Lemma and_pairs_count {T} (coin : T -> Prop) K n : how_many coin K -> how_many (and_pairs n coin) (K * (order * order) ^ Z.of_nat n).
Proof.
  intros H. apply (how_many_same (fun x : T * list (Z * Z) => coin (fst x) /\ pairs n (snd x))); [intros [t ps]; reflexivity|].
  apply (how_many_prod coin (pairs n)); [exact H|]. apply (lists_count pairdraw _ pairdraws).
Qed.

(** changing the pairs of a list one by one *)
Section Change.
  Context {I : Type} (f g : I -> Z * Z -> Z * Z).
  Hypothesis FG : forall i p, pairdraw p -> pairdraw (f i p) /\ g i (f i p) = p.
  Definition change (h : I -> Z * Z -> Z * Z) (is : list I) (ps : list (Z * Z)) : list (Z * Z) := map (fun ip => h (fst ip) (snd ip)) (combine is ps).
  Lemma change_ok is : forall ps, pairs (length is) ps -> pairs (length is) (change f is ps) /\ change g is (change f is ps) = ps.
  Proof.
    induction is as [|i is IH]; intros [|p ps] [L F]; try discriminate L; [split; [split; constructor|reflexivity]|].
    apply Forall_cons_iff in F. destruct (FG i p (proj1 F)) as [D E]. assert (P : pairs (length is) ps) by (split; [cbn in L; lia|apply F]).
    destruct (IH ps P) as [[L' F'] E']. unfold change in *. cbn [combine map fst snd length]. split; [split; [cbn [length]; lia|constructor; assumption]|]. rewrite E, E'. reflexivity.
  Qed.
End Change.

Inductive kind := KA | KB | KU.
Definition hide (k : kind) : kind := match k with KA => KU | _ => k end.
Definition other_half (k : kind) : kind := match k with KA => KB | KB => KA | KU => KU end.
Definition akey (k : kind) (w h x y : Z) (p : Z * Z) : elt * elt :=
  match k with KA => (pow (fst p * w), pow (fst p * h)) | KB => (pow (fst p * x), pow (fst p * y)) | KU => (pow (fst p), pow (snd p)) end.
Definition keys (ks : list kind) (w h x y : Z) (ps : list (Z * Z)) : list (elt * elt) := map (fun kp => akey (fst kp) w h x y (snd kp)) (combine ks ps).
Definition bkey (k : kind) (w x y : Z) (p : Z * Z) (X Y Z : elt) : elt * elt :=
  match k with KA => blend w p X Y Z | KB => (pow (fst p * x), pow (fst p * y)) | KU => (pow (fst p), pow (snd p)) end.
Definition bkeys (ks : list kind) (w x y : Z) (ps : list (Z * Z)) (X Y Z : elt) : list (elt * elt) := map (fun kp => bkey (fst kp) w x y (snd kp) X Y Z) (combine ks ps).

(** the pair of a key made of ab, and back *)
Definition to_real (b : Z) (k : kind) (p : Z * Z) : Z * Z := match k with KA => ((fst p * b + snd p) mod order, fst p) | _ => p end.
Definition of_real (b : Z) (k : kind) (p : Z * Z) : Z * Z := match k with KA => (snd p, (fst p - snd p * b) mod order) | _ => p end.
(** the pair of a key made of another element, and back; d is the difference *)
Definition to_rand (w a b d : Z) (k : kind) (p : Z * Z) : Z * Z :=
  match k with
  | KA => let r := (fst p * b + snd p) mod order in (scale w r, scale w ((scale d (fst p) + a * r) mod order))
  | _ => p
  end.
Definition of_rand (w a b d : Z) (k : kind) (p : Z * Z) : Z * Z :=
  match k with
  | KA => let r := unscale w (fst p) in let u := unscale d ((unscale w (snd p) - a * r) mod order) in (u, (r - u * b) mod order)
  | _ => p
  end.

Lemma add_sub c x : draw c -> ((c + x) mod order - x) mod order = c.
Proof. intros D. rewrite Zminus_mod_idemp_l. replace (c + x - x) with c by ring. apply Z.mod_small. exact D. Qed.
Lemma sub_add c x : draw c -> ((c - x) mod order + x) mod order = c.
Proof. intros D. rewrite Zplus_mod_idemp_l. replace (c - x + x) with c by ring. apply Z.mod_small. exact D. Qed.

Lemma to_of_real b k p : pairdraw p -> pairdraw (to_real b k p) /\ of_real b k (to_real b k p) = p.
Proof.
  destruct p as [u v]. intros [U V]. destruct k; cbn [to_real of_real fst snd] in *; try (split; [split; assumption|reflexivity]).
  split; [split; [apply draw_mod|exact U]|]. rewrite (Z.add_comm (u * b) v), (add_sub v (u * b) V). reflexivity.
Qed.
Lemma of_to_real b k p : pairdraw p -> pairdraw (of_real b k p) /\ to_real b k (of_real b k p) = p.
Proof.
  destruct p as [r u]. intros [R U]. destruct k; cbn [to_real of_real fst snd] in *; try (split; [split; assumption|reflexivity]).
  split; [split; [exact U|apply draw_mod]|]. rewrite (Z.add_comm (u * b)), (sub_add r (u * b) R). reflexivity.
Qed.
Lemma to_of_rand w a b d k p : draw w -> draw d -> pairdraw p -> pairdraw (to_rand w a b d k p) /\ of_rand w a b d k (to_rand w a b d k p) = p.
Proof.
  destruct p as [u v]. intros W D [U V]. destruct k; cbn [to_rand of_rand fst snd] in *; try (split; [split; assumption|reflexivity]).
  set (r := (u * b + v) mod order). destruct (scale_un w r W (draw_mod _)) as [X1 Y1]. destruct (scale_un w ((scale d u + a * r) mod order) W (draw_mod _)) as [X2 Y2].
  split; [split; assumption|]. rewrite Y1, Y2. destruct (scale_un d u D U) as [X3 Y3]. rewrite (add_sub _ (a * r) X3), Y3. unfold r.
  rewrite (Z.add_comm (u * b) v), (add_sub v (u * b) V). reflexivity.
Qed.
Lemma of_to_rand w a b d k p : draw w -> draw d -> pairdraw p -> pairdraw (of_rand w a b d k p) /\ to_rand w a b d k (of_rand w a b d k p) = p.
Proof.
  destruct p as [s q]. intros W D [S Q]. destruct k; cbn [to_rand of_rand fst snd] in *; try (split; [split; assumption|reflexivity]).
  destruct (un_scale w s W S) as [X1 Y1]. destruct (un_scale w q W Q) as [X2 Y2]. set (r := unscale w s) in *.
  destruct (un_scale d ((unscale w q - a * r) mod order) D (draw_mod _)) as [X3 Y3]. set (u := unscale d ((unscale w q - a * r) mod order)) in *.
  split; [split; [exact X3|apply draw_mod]|]. rewrite (Z.add_comm (u * b)), (sub_add r (u * b) X1), Y1, Y3, (sub_add _ (a * r) X2), Y2. reflexivity.
Qed.

(** the keys agree *)
Lemma pow_mulmod k i : pow (k * (i mod order)) = pow (k * i).
Proof. rewrite <- !pow_mul, pow_mod. reflexivity. Qed.
Lemma blend_pow w a b c p : blend w p (pow a) (pow b) (pow c) = (pow (w * (fst p * b + snd p)), pow (w * (fst p * c + snd p * a))).
Proof. unfold blend. rewrite !pow_mul, !pow_add, !pow_mul. reflexivity. Qed.
Lemma real_key k w a b x y p : akey k w (w * a) x y (to_real b k p) = bkey k w x y p (pow a) (pow b) (pow (a * b)).
Proof.
  destruct k; cbn [akey bkey to_real fst snd]; try reflexivity. rewrite blend_pow. set (r := fst p * b + snd p).
  rewrite (Z.mul_comm _ w), pow_mulmod, (Z.mul_comm _ (w * a)), pow_mulmod. do 2 f_equal. unfold r. ring.
Qed.
Lemma rand_key k w a b c x y p h : w <> 0 -> (c - a * b) mod order <> 0 ->
  akey (hide k) w h x y (to_rand w a b ((c - a * b) mod order) k p) = bkey k w x y p (pow a) (pow b) (pow c).
Proof.
  intros W D. destruct k; cbn [hide akey bkey to_rand fst snd]; try reflexivity. rewrite blend_pow, !(pow_scale w _ W), !pow_mulmod.
  assert (E : pow (scale ((c - a * b) mod order) (fst p) + a * ((fst p * b + snd p) mod order)) = pow (fst p * c + snd p * a)).
  { rewrite <- pow_add, (pow_scale _ _ D), pow_mulmod, (Z.mul_comm (_ mod order)), pow_mulmod, pow_add. apply (f_equal pow). ring. }
  rewrite <- (pow_mul w (scale _ _ + _)), E, pow_mul. reflexivity.
Qed.

Section Many.
  Context {T : Type} (coin : T -> Prop) (K : Z).
  Hypothesis COIN : how_many coin K.
  Variables (mh sg us : Z -> Z -> Z).
  Hypothesis SG : forall w a, draw w -> draw a -> draw (sg w a) /\ us w (sg w a) = a.
  Hypothesis US : forall w a, draw w -> draw a -> draw (us w a) /\ sg w (us w a) = a.
  Hypothesis MH : forall w a k, w <> 0 -> pow (k * mh w (sg w a)) = pow (k * (w * a)).
  Implicit Type V : T -> elt -> elt -> elt -> elt -> list (elt * elt) -> bool.
  Notation d3 := (and_draw (and_draw (and_draw coin))).

  Definition game V ks (N : Z) : Prop :=
    how_many (fun '(t, w, x, y, ps, a) => and_draw (and_pairs (length ks) d3) (t, w, x, y, ps, a) /\
      V t (pow w) (pow x) (pow (mh w a)) (pow (mh x y)) (keys ks w (mh w a) x (mh x y) ps) = true) N.
  Definition disting V ks (t : T * Z * Z * Z * list (Z * Z)) (X Y Z : elt) : bool :=
    let '(t, w, x, y, ps) := t in V t (pow w) (pow x) (gmul CV w X) (pow (mh x y)) (bkeys ks w x (mh x y) ps X Y Z).

  Lemma game_exists V ks : exists N, game V ks N.
  Proof.
    destruct (how_many_filter _ _ (fun '(t, w, x, y, ps, a) => V t (pow w) (pow x) (pow (mh w a)) (pow (mh x y)) (keys ks w (mh w a) x (mh x y) ps))
      (and_draws _ _ (and_pairs_count _ _ (length ks) (and_draws _ _ (and_draws _ _ (and_draws _ _ COIN)))))) as [N H].
    exists N. refine (how_many_same _ _ _ _ H). intros [[[[[t w] x] y] ps] a]. reflexivity.
  Qed.
  Lemma MH1 w a : w <> 0 -> pow (mh w (sg w a)) = pow (w * a).
  Proof. intros W. pose proof (MH w a 1 W) as H. rewrite !Z.mul_1_l in H. exact H. Qed.

  Lemma hop V ks : forall N M g, game V ks N -> game V (map hide ks) M -> ddh_gap (and_pairs (length ks) d3) (disting V ks) g ->
    Z.abs (order ^ 2 * N - order ^ 2 * M - g) <= K * (3 * order ^ (2 * Z.of_nat (length ks) + 5)).
  Proof.
    intros N M g HN HM [R [S [HR [HS ->]]]]. set (n := length ks) in *. set (dc := and_pairs n d3) in *.
    assert (CC : how_many dc (K * order * order * order * (order * order) ^ Z.of_nat n)) by (apply and_pairs_count; repeat apply and_draws; exact COIN).
    set (Q := (order * order) ^ Z.of_nat n) in *.
    pose proof (and_draws _ _ CC) as C1. pose proof (and_draws _ _ C1) as C2. pose proof (and_draws _ _ C2) as C3.
    set (f := fun z : T * Z * Z * Z * list (Z * Z) * Z * Z => let '(t, w, x, y, ps, a, b) := z in
      V t (pow w) (pow x) (pow (mh w (sg w a))) (pow (mh x y)) (keys ks w (mh w (sg w a)) x (mh x y) (change (to_real b) ks ps))).
    set (h := fun z : T * Z * Z * Z * list (Z * Z) * Z * Z => let '(t, w, x, y, ps, a, b) := z in disting V ks (t, w, x, y, ps) (pow a) (pow b) (pow (a * b))).
    set (f' := fun z : T * Z * Z * Z * list (Z * Z) * Z * Z * Z => let '(t, w, x, y, ps, a, b, c) := z in
      V t (pow w) (pow x) (pow (mh w (sg w a))) (pow (mh x y)) (keys (map hide ks) w (mh w (sg w a)) x (mh x y) (change (to_rand w a b ((c - a * b) mod order)) ks ps))).
    set (h' := fun z : T * Z * Z * Z * list (Z * Z) * Z * Z * Z => let '(t, w, x, y, ps, a, b, c) := z in disting V ks (t, w, x, y, ps) (pow a) (pow b) (pow c)).
    assert (HF : how_many (fun z => and_draw (and_draw dc) z /\ f z = true) (N * order)).
    { pose proof (how_many_prod _ _ _ _ HN draws) as X.
      refine (how_many_bij (fun z : T * Z * Z * Z * list (Z * Z) * Z * Z => let '(t, w, x, y, ps, a, b) := z in (t, w, x, y, change (of_real b) ks ps, us w a, b))
        (fun z : T * Z * Z * Z * list (Z * Z) * Z * Z => let '(t, w, x, y, ps, a, b) := z in (t, w, x, y, change (to_real b) ks ps, sg w a, b)) _ _ _ X _ _).
      - intros [[[[[[t w] x] y] ps] a] b]. cbn [fst snd]. intros [[[[[[[C W] Hx] Hy] P] A] EA] B].
        destruct (change_ok _ _ (of_to_real b) ks ps P) as [P' E']. destruct (US w a W A) as [A' E]. split; [|rewrite E, E'; reflexivity].
        split; [split; [split; [|exact A']|exact B]; split; [split; [split; [split; [exact C|exact W]|exact Hx]|exact Hy]|exact P']|]. cbn [f]. rewrite E, E'. exact EA.
      - intros [[[[[[t w] x] y] ps] a] b] [[[[[[[C W] Hx] Hy] P] A] B] EA].
        destruct (change_ok _ _ (to_of_real b) ks ps P) as [P' E']. destruct (SG w a W A) as [A' E]. cbn [fst snd]. split; [|rewrite E, E'; reflexivity].
        split; [|exact B]. split; [|exact EA]. split; [|exact A']. split; [split; [split; [split; [exact C|exact W]|exact Hx]|exact Hy]|exact P']. }
    assert (HF' : how_many (fun z => and_draw (and_draw (and_draw dc)) z /\ f' z = true) (M * order * order)).
    { pose proof (how_many_prod _ _ _ _ (how_many_prod _ _ _ _ HM draws) draws) as X.
      refine (how_many_bij (fun z : T * Z * Z * Z * list (Z * Z) * Z * Z * Z => let '(t, w, x, y, ps, a, b, c) := z in
          (t, w, x, y, change (of_rand w (us w a) b ((c - us w a * b) mod order)) ks ps, us w a, b, c))
        (fun z : T * Z * Z * Z * list (Z * Z) * Z * Z * Z => let '(t, w, x, y, ps, a, b, c) := z in
          (t, w, x, y, change (to_rand w a b ((c - a * b) mod order)) ks ps, sg w a, b, c)) _ _ _ X _ _).
      - intros [[[[[[[t w] x] y] ps] a] b] c]. cbn [fst snd]. rewrite map_length. intros [[[[[[[[C W] Hx] Hy] P] A] EA] B] Hc].
        destruct (US w a W A) as [A' E].
        destruct (change_ok _ _ (fun k p => of_to_rand w (us w a) b ((c - us w a * b) mod order) k p W (draw_mod _)) ks ps P) as [P' E']. split; [|rewrite E, E'; reflexivity].
        split; [split; [split; [split; [|exact A']|exact B]|exact Hc]; split; [split; [split; [split; [exact C|exact W]|exact Hx]|exact Hy]|exact P']|]. cbn [f']. rewrite E, E'. exact EA.
      - intros [[[[[[[t w] x] y] ps] a] b] c] [[[[[[[[C W] Hx] Hy] P] A] B] Hc] EA].
        destruct (change_ok _ _ (fun k p => to_of_rand w a b ((c - a * b) mod order) k p W (draw_mod _)) ks ps P) as [P' E']. destruct (SG w a W A) as [A' E]. cbn [fst snd]. rewrite map_length.
        split; [|rewrite E, E'; reflexivity].
        split; [|exact Hc]. split; [|exact B]. split; [|exact EA]. split; [|exact A']. split; [split; [split; [split; [exact C|exact W]|exact Hx]|exact Hy]|exact P']. }
    assert (HR' : how_many (fun z => and_draw (and_draw dc) z /\ h z = true) R).
    { refine (how_many_same _ _ _ _ HR). intros [[[[[[t w] x] y] ps] a] b]. cbn [and_draw h]. tauto. }
    assert (HS' : how_many (fun z => and_draw (and_draw (and_draw dc)) z /\ h' z = true) S).
    { refine (how_many_same _ _ _ _ HS). intros [[[[[[[t w] x] y] ps] a] b] c]. cbn [and_draw h']. tauto. }
    set (bad := fun z : T * Z * Z * Z * list (Z * Z) * Z * Z => let '(t, w, x, y, ps, a, b) := z in w =? 0).
    set (bad' := fun z : T * Z * Z * Z * list (Z * Z) * Z * Z * Z => let '(t, w, x, y, ps, a, b, c) := z in (w =? 0) || ((c - a * b) mod order =? 0)).
    destruct (how_many_filter _ _ bad C2) as [k HK]. destruct (how_many_filter _ _ bad' C3) as [k' HK'].
    assert (B1 : Z.abs (N * order - R) <= k).
    { apply (how_many_close _ f h bad _ _ _ HF HR' HK). intros [[[[[[t w] x] y] ps] a] b] _ B. cbn [bad] in B. apply Z.eqb_neq in B. cbn [f h disting].
      rewrite (MH1 w a B), pow_mul. f_equal. unfold keys, bkeys, change. clear - B MH. revert ps. induction ks as [|k l IH]; intros [|p ps]; try reflexivity. cbn [combine map fst snd]. rewrite IH. f_equal.
      rewrite <- real_key. destruct k; cbn [akey]; try reflexivity. rewrite (MH w a _ B). reflexivity. }
    assert (B2 : Z.abs (M * order * order - S) <= k').
    { apply (how_many_close _ f' h' bad' _ _ _ HF' HS' HK'). intros [[[[[[[t w] x] y] ps] a] b] c] _ B. cbn [bad'] in B. apply orb_false_iff in B. destruct B as [B D]. apply Z.eqb_neq in B, D. cbn [f' h' disting].
      rewrite (MH1 w a B), pow_mul. f_equal. unfold keys, bkeys, change. clear - B D. revert ps. induction ks as [|k l IH]; intros [|p ps]; try reflexivity. cbn [combine map fst snd]. rewrite IH. f_equal.
      apply rand_key; assumption. }
    pose proof (and_draws _ _ (and_draws _ _ (and_pairs_count _ _ n (and_draws _ _ (and_draws _ _ (and_zeros _ _ COIN)))))) as Z1. pose proof (and_draws _ _ Z1) as Z2. fold Q in Z1, Z2.
    assert (L1 : k <= K * 1 * order * order * Q * order * order).
    { apply (how_many_le _ _ _ _ HK Z1). intros [[[[[[t w] x] y] ps] a] b] [[[[[[[C W] Hx] Hy] P] A] B] E]. cbn [bad] in E. apply Z.eqb_eq in E.
      split; [split; [|exact A]|exact B]. split; [split; [split; [split; [exact C|exact E]|exact Hx]|exact Hy]|exact P]. }
    set (dh := fun z : T * Z * Z * Z * list (Z * Z) * Z * Z * Z => let '(t, w, x, y, ps, a, b, c) := z in and_draw (and_draw dc) (t, w, x, y, ps, a, b) /\ c = (a * b) mod order).
    assert (Z3 : how_many dh (K * order * order * order * Q * order * order)).
    { refine (how_many_bij (fun z : T * Z * Z * Z * list (Z * Z) * Z * Z => let '(t, w, x, y, ps, a, b) := z in (t, w, x, y, ps, a, b, (a * b) mod order)) (fun z => fst z) _ _ _ C2 _ _).
      - intros [[[[[[t w] x] y] ps] a] b] H. split; [split; [exact H|reflexivity]|reflexivity].
      - intros [[[[[[[t w] x] y] ps] a] b] c] [H ->]. split; [exact H|reflexivity]. }
    assert (L2 : k' <= K * 1 * order * order * Q * order * order * order + K * order * order * order * Q * order * order).
    { apply (how_many_le_sum _ _ _ _ _ _ HK' Z2 Z3). intros [[[[[[[t w] x] y] ps] a] b] c] [[[[[[[[C W] Hx] Hy] P] A] B] Hc] E]. cbn [bad'] in E. apply orb_true_iff in E. rewrite !Z.eqb_eq in E.
      destruct E as [E|E]; [left|right].
      - split; [split; [split; [|exact A]|exact B]|exact Hc]. split; [split; [split; [split; [exact C|exact E]|exact Hx]|exact Hy]|exact P].
      - split; [split; [split; [|exact A]|exact B]; split; [split; [split; [split; [exact C|exact W]|exact Hx]|exact Hy]|exact P]|].
        apply Z.mod_divide in E; [|pose proof order_pos; lia]. destruct E as [q E]. replace c with (a * b + q * order) in Hc |- * by lia. rewrite <- (Z.mod_small _ _ Hc). apply Z_mod_plus_full. }
    assert (EQ : order ^ (2 * Z.of_nat n + 5) = Q * order ^ 5).
    { rewrite Z.pow_add_r, Z.pow_mul_r by lia. unfold Q. rewrite Z.pow_2_r. reflexivity. }
    rewrite EQ. pose proof order_pos. set (W := K * 1 * order * order * Q * order * order) in *.
    replace (K * (3 * (Q * order ^ 5))) with (order * W + (W * order + K * order * order * order * Q * order * order)) by (unfold W; ring).
    replace (order ^ 2 * N - order ^ 2 * M - (order * R - S)) with (order * (N * order - R) - (M * order * order - S)) by ring.
    assert (Z.abs (order * (N * order - R)) <= order * W) by (rewrite Z.abs_mul, (Z.abs_eq order) by lia; apply Z.mul_le_mono_nonneg_l; lia). lia.
  Qed.
End Many.
