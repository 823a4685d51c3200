(** Someone who listens to oblivious transfers: the conversations on exponents. *)
From Coq Require Import ZArith Znumtheory Bool List Lia Field.
From Verif Require Import Outcome FieldModel ZpField SpecField FieldProofs ECGroup ECOrder CurveParams CurveFacts EccModel EccProofs SpecEcc EccThms Emb RF DmeModel SpecDme DmeProofs OtModel OtProofs SpecCount CountMath SpecDdh SpecDdh2 SpecDdh3 SpecDdh4 DdhProofs DdhProofs2 DdhMany DdhServe.
Import ListNotations.
Open Scope Z_scope.

Definition fits (s : step) (d : list Z) : Prop := length d = need s /\ Forall draw d.

(** ** Changing the draws of a conversation step by step, with a state that depends on the changed draws *)
Section Walk.
  Context {St : Type} (f g : St -> step -> list Z -> list Z) (nx : St -> step -> list Z -> St).
  Fixpoint walk (st : St) (l : list step) (ds : list (list Z)) : list (list Z) :=
    match l, ds with s :: l', d :: ds' => f st s d :: walk (nx st s (f st s d)) l' ds' | _, _ => [] end.
  Fixpoint unwalk (st : St) (l : list step) (ds : list (list Z)) : list (list Z) :=
    match l, ds with s :: l', d :: ds' => g st s d :: unwalk (nx st s d) l' ds' | _, _ => [] end.
  Hypothesis FG : forall st s d, fits s d -> fits s (f st s d) /\ g st s (f st s d) = d.
  Hypothesis GF : forall st s d, fits s d -> fits s (g st s d) /\ f st s (g st s d) = d.
  Lemma walk_unwalk l : forall st ds, shaped l ds -> shaped l (walk st l ds) /\ unwalk st l (walk st l ds) = ds.
  Proof.
    induction l as [|s l IH]; intros st ds H; inversion H as [|? d ? ds' F H' E1 E2]; subst; [split; [constructor|reflexivity]|]. cbn [walk unwalk].
    destruct (FG st s d F) as [F' E]. destruct (IH (nx st s (f st s d)) ds' H') as [H2 E2]. split; [constructor; assumption|]. rewrite E, E2. reflexivity.
  Qed.
  Lemma unwalk_walk l : forall st ds, shaped l ds -> shaped l (unwalk st l ds) /\ walk st l (unwalk st l ds) = ds.
  Proof.
    induction l as [|s l IH]; intros st ds H; inversion H as [|? d ? ds' F H' E1 E2]; subst; [split; [constructor|reflexivity]|]. cbn [walk unwalk].
    destruct (GF st s d F) as [F' E]. rewrite E. destruct (IH (nx st s d) ds' H') as [H2 E2]. split; [constructor; assumption|]. rewrite E2. reflexivity.
  Qed.
End Walk.

(** ** Counting *)
Lemma fits_count s : how_many (fits s) (order ^ Z.of_nat (need s)).
Proof. exact (lists_count draw _ draws (need s)). Qed.
Lemma shaped_cons s l d ds : shaped (s :: l) (d :: ds) <-> fits s d /\ shaped l ds.
Proof. split; [intros H; inversion H; subst; split; assumption|intros [A B]; constructor; assumption]. Qed.
Lemma shaped_count l : how_many (shaped l) (order ^ Z.of_nat (needs l)).
Proof.
  induction l as [|s l IH].
  - exists [[]]. split; [repeat constructor; intros []|]. split; [|reflexivity]. intros ds. split; [intros [<-|[]]; constructor|]. intros H. inversion H. left. reflexivity.
  - unfold needs. cbn [map list_sum]. fold (needs l). change (list_sum (need s :: map need l)) with (need s + needs l)%nat. rewrite Nat2Z.inj_add, Z.pow_add_r by lia.
    refine (how_many_bij (fun z : list Z * list (list Z) => fst z :: snd z) (fun z => (hd [] z, tl z)) _ _ _ (how_many_prod _ _ _ _ (fits_count s) IH) _ _).
    + intros [d ds] [F H]. cbn [fst snd hd tl] in *. split; [apply shaped_cons; split; assumption|reflexivity].
    + intros [|d ds] H; [inversion H|]. cbn [fst snd hd tl]. split; [apply shaped_cons in H; exact H|reflexivity].
Qed.
Lemma and_steps_count l {T} (coin : T -> Prop) K : how_many coin K -> how_many (and_steps l coin) (K * order ^ Z.of_nat (needs l)).
Proof.
  intros H. apply (how_many_same (fun x : T * list (list Z) => coin (fst x) /\ shaped l (snd x))); [intros [t ds]; reflexivity|].
  apply (how_many_prod coin (shaped l)); [exact H|apply shaped_count].
Qed.
(** some key is drawn as zero *)
Fixpoint zero_key (l : list step) (ds : list (list Z)) : bool :=
  match l, ds with
  | Key _ :: l', d :: ds' => (hd 0 d =? 0) || zero_key l' ds'
  | Pair :: l', _ :: ds' => zero_key l' ds'
  | _, _ => false
  end.
Lemma zero_key_count l : exists k, how_many (fun ds => shaped l ds /\ zero_key l ds = true) k /\ k * order <= Z.of_nat (keys_in l) * order ^ Z.of_nat (needs l).
Proof.
  pose proof order_pos as OP. induction l as [|s l IH].
  - exists 0. split; [|cbn; lia]. exists []. split; [constructor|]. split; [|reflexivity]. intros ds. split; [intros []|]. intros [_ H]. discriminate H.
  - destruct IH as [k [HK B]].
    destruct (how_many_filter _ _ (zero_key (s :: l)) (shaped_count (s :: l))) as [k' HK']. exists k'. split; [exact HK'|].
    assert (EN : order ^ Z.of_nat (needs (s :: l)) = order ^ Z.of_nat (need s) * order ^ Z.of_nat (needs l)).
    { change (needs (s :: l)) with (need s + needs l)%nat. rewrite Nat2Z.inj_add, Z.pow_add_r by lia. reflexivity. }
    assert (X : how_many (fun ds => exists d ds', ds = d :: ds' /\ fits s d /\ shaped l ds' /\ zero_key l ds' = true) (order ^ Z.of_nat (need s) * k)).
    { refine (how_many_bij (fun z : list Z * list (list Z) => fst z :: snd z) (fun z => (hd [] z, tl z)) _ _ _ (how_many_prod _ _ _ _ (fits_count s) HK) _ _).
      - intros [d ds] [F [H E]]. cbn [fst snd hd tl] in *. split; [exists d, ds; split; [reflexivity|]; split; [exact F|]; split; assumption|reflexivity].
      - intros z [d [ds [-> [F [H E]]]]]. cbn [fst snd hd tl]. split; [split; [exact F|split; assumption]|reflexivity]. }
    destruct s as [b|].
    + assert (X0 : how_many (fun ds => exists ds', ds = [0] :: ds' /\ shaped l ds') (order ^ Z.of_nat (needs l))).
      { refine (how_many_bij (fun z : list (list Z) => [0] :: z) (fun z => tl z) _ _ _ (shaped_count l) _ _).
        - intros ds H. split; [exists ds; split; [reflexivity|exact H]|reflexivity].
        - intros z [ds [-> H]]. split; [exact H|reflexivity]. }
      pose proof (how_many_le_sum _ _ _ _ _ _ HK' X0 X) as L. rewrite EN. change (keys_in (Key b :: l)) with (Datatypes.S (keys_in l)). rewrite Nat2Z.inj_succ.
      change (Z.of_nat (need (Key b))) with 1 in *. rewrite Z.pow_1_r in *.
      assert (k' <= order ^ Z.of_nat (needs l) + order * k).
      { apply L. intros [|d ds] [H E]; [inversion H|]. apply shaped_cons in H. destruct H as [[LD FD] H]. cbn [zero_key] in E. apply orb_true_iff in E. destruct E as [E|E].
        - left. apply Z.eqb_eq in E. destruct d as [|x [|? ?]]; try discriminate LD. cbn in E. subst x. exists ds. split; [reflexivity|exact H].
        - right. exists d, ds. split; [reflexivity|]. split; [split; assumption|]. split; assumption. }
      nia.
    + assert (L : k' <= order ^ Z.of_nat (need Pair) * k).
      { apply (how_many_le _ _ _ _ HK' X). intros [|d ds] [H E]; [inversion H|]. apply shaped_cons in H. exists d, ds. split; [reflexivity|]. cbn [zero_key] in E. tauto. }
      rewrite EN. change (keys_in (Pair :: l)) with (keys_in l). set (o := order ^ Z.of_nat (need Pair)) in *. assert (0 < o) by (apply Z.pow_pos_nonneg; lia). nia.
Qed.

(** ** Pairs of draws *)
Section Linear.
  Let Hn : prime (fieldn CV) := prime_n CV good_CV.
  Let HF := field_Fp (fieldn CV) Hn.
  Add Field HearField : HF.
  Notation mk := (mk (fieldn CV)).
  Notation val := (val (fieldn CV)).
  Infix "+!" := (fadd (fieldn CV)) (at level 50, left associativity).
  Infix "-!" := (fsub (fieldn CV)) (at level 50, left associativity).
  Infix "*!" := (fmul (fieldn CV)) (at level 40, left associativity).
  Infix "/!" := (fdiv (fieldn CV)) (at level 40, left associativity).

  (** (s, t) to (sa + tb, sc + td), if the determinant is not zero *)
  Definition det (a b c d : Z) : bool := (a * d - b * c) mod order =? 0.
  Definition lin (a b c d : Z) (p : Z * Z) : Z * Z :=
    if det a b c d then p else (val (mk (fst p) *! mk a +! mk (snd p) *! mk b), val (mk (fst p) *! mk c +! mk (snd p) *! mk d)).
  Definition unlin (a b c d : Z) (p : Z * Z) : Z * Z :=
    if det a b c d then p else
      (val ((mk (fst p) *! mk d -! mk (snd p) *! mk b) /! (mk a *! mk d -! mk b *! mk c)), val ((mk (snd p) *! mk a -! mk (fst p) *! mk c) /! (mk a *! mk d -! mk b *! mk c))).
  Lemma det_nz a b c d : det a b c d = false -> mk a *! mk d -! mk b *! mk c <> f0 (fieldn CV).
  Proof.
    intros D E. unfold det in D. apply Z.eqb_neq in D. apply D. rewrite !mk_mul, mk_sub in E. apply mk_order_0 in E. apply Z.mod_divide; [pose proof order_pos; lia|exact E].
  Qed.
  Lemma lin_unlin a b c d p : pairdraw p -> pairdraw (lin a b c d p) /\ unlin a b c d (lin a b c d p) = p.
  Proof.
    destruct p as [s t]. intros [S T]. unfold lin, unlin. destruct (det a b c d) eqn:D; [split; [split; assumption|reflexivity]|]. cbn [fst snd] in *.
    split; [split; apply val_draw|]. rewrite !mk_val. pose proof (det_nz a b c d D) as N.
    apply pair_equal_spec. split; [transitivity (val (mk s)); [|apply draw_val, S]|transitivity (val (mk t)); [|apply draw_val, T]]; apply f_equal; field; exact N.
  Qed.
  Lemma unlin_lin a b c d p : pairdraw p -> pairdraw (unlin a b c d p) /\ lin a b c d (unlin a b c d p) = p.
  Proof.
    destruct p as [s t]. intros [S T]. unfold lin, unlin. destruct (det a b c d) eqn:D; [split; [split; assumption|reflexivity]|]. cbn [fst snd] in *.
    split; [split; apply val_draw|]. rewrite !mk_val. pose proof (det_nz a b c d D) as N.
    apply pair_equal_spec. split; [transitivity (val (mk s)); [|apply draw_val, S]|transitivity (val (mk t)); [|apply draw_val, T]]; apply f_equal; field; exact N.
  Qed.
  Lemma lin_pow a b c d p : det a b c d = false -> pow (fst (lin a b c d p)) = pow (fst p * a + snd p * b) /\ pow (snd (lin a b c d p)) = pow (fst p * c + snd p * d).
  Proof. intros D. unfold lin. rewrite D. cbn [fst snd]. rewrite !mk_mul, !mk_add, !val_mk, <- order_eq, !pow_mod. split; reflexivity. Qed.
End Linear.
