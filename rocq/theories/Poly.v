(** Polynomials over Z/q as coefficient lists (constant term first): evaluation, root counting, Lagrange
    interpolation.  Mathematics only; models no code. *)
From Coq Require Import ZArith Znumtheory Bool List Lia Field.
From Verif Require Import ZpField.
Import ListNotations.

Section Poly.
  Variable q : Z.
  Hypothesis Hq : prime q.
  Notation F := (Fp q).
  Declare Scope fq_scope.
  Notation "0" := (f0 q) : fq_scope.
  Notation "1" := (f1 q) : fq_scope.
  Infix "+" := (fadd q) : fq_scope.
  Infix "*" := (fmul q) : fq_scope.
  Infix "-" := (fsub q) : fq_scope.
  Infix "/" := (fdiv q) : fq_scope.
  Delimit Scope fq_scope with fq.
  Let HF := field_Fp q Hq.
  Add Field FqField : HF.

  Fixpoint peval (f : list F) (x : F) : F :=
    match f with
    | [] => f0 q
    | c :: f' => (c + x * peval f' x)%fq
    end.

  (** synthetic division by X - a *)
  Fixpoint pdivl (f : list F) (a : F) : list F :=
    match f with
    | [] => []
    | c :: f' => match f' with [] => [] | _ => peval f' a :: pdivl f' a end
    end.

  Lemma pdivl_length f a : length (pdivl f a) = pred (length f).
  Proof.
    induction f as [|c f IH]; [reflexivity|]. destruct f as [|d f]; [reflexivity|].
    cbn [pdivl length] in *. rewrite IH. reflexivity.
  Qed.

  Lemma pdivl_spec f a x : peval f x = ((x - a) * peval (pdivl f a) x + peval f a)%fq.
  Proof.
    induction f as [|c f IH]; [cbn; ring|]. destruct f as [|d f]; [cbn; ring|].
    cbn [peval pdivl] in *. rewrite IH. ring.
  Qed.

  Lemma fsub_eq0 x y : (x - y = 0)%fq -> x = y.
  Proof. intros H. replace x with ((x - y) + y)%fq by ring. rewrite H. ring. Qed.

  (** a polynomial with at least as many distinct roots as coefficients vanishes everywhere *)
  Lemma roots xs : forall f, NoDup xs -> (length f <= length xs)%nat -> (forall x, In x xs -> peval f x = f0 q) ->
    forall y, peval f y = f0 q.
  Proof.
    induction xs as [|a xs IH]; intros f ND L R y.
    - destruct f; [reflexivity|cbn in L; lia].
    - inversion ND as [|? ? Na ND']; subst. rewrite (pdivl_spec f a y), (R a (or_introl eq_refl)).
      rewrite (IH (pdivl f a)); [ring|assumption|rewrite pdivl_length; cbn in L; lia|].
      intros x Hx. pose proof (R x (or_intror Hx)) as E. rewrite (pdivl_spec f a x), (R a (or_introl eq_refl)) in E.
      assert (E' : ((x - a) * peval (pdivl f a) x = 0)%fq) by (rewrite <- E; ring).
      apply fmul_0 in E'; [|assumption]. destruct E' as [E'|E']; [|exact E'].
      apply fsub_eq0 in E'. subst x. contradiction.
  Qed.

  Fixpoint padd (f g : list F) : list F :=
    match f, g with
    | [], _ => g
    | _, [] => f
    | a :: f', b :: g' => fadd q a b :: padd f' g'
    end.
  Definition pscale (a : F) (f : list F) : list F := map (fmul q a) f.
  Definition psub (f g : list F) : list F := padd f (pscale (fopp q (f1 q)) g).

  Lemma peval_padd f : forall g x, peval (padd f g) x = (peval f x + peval g x)%fq.
  Proof. induction f as [|a f IH]; intros [|b g] x; cbn; try ring. rewrite IH. ring. Qed.
  Lemma padd_length f : forall g, length (padd f g) = Nat.max (length f) (length g).
  Proof. induction f as [|a f IH]; intros [|b g]; cbn; auto. Qed.
  Lemma peval_pscale a f x : peval (pscale a f) x = (a * peval f x)%fq.
  Proof. induction f as [|c f IH]; cbn; [ring|]. unfold pscale in *. rewrite IH. ring. Qed.
  Lemma pscale_length a f : length (pscale a f) = length f.
  Proof. apply map_length. Qed.
  Lemma peval_psub f g x : peval (psub f g) x = (peval f x - peval g x)%fq.
  Proof. unfold psub. rewrite peval_padd, peval_pscale. ring. Qed.
  Lemma psub_length f g : length (psub f g) = Nat.max (length f) (length g).
  Proof. unfold psub. rewrite padd_length, pscale_length. reflexivity. Qed.

  (** two polynomials agreeing on enough points agree everywhere *)
  Lemma peval_unique xs f g : NoDup xs -> (length f <= length xs)%nat -> (length g <= length xs)%nat ->
    (forall x, In x xs -> peval f x = peval g x) -> forall y, peval f y = peval g y.
  Proof.
    intros ND Lf Lg H y. apply fsub_eq0. rewrite <- peval_psub. apply (roots xs); try assumption.
    - rewrite psub_length. lia.
    - intros x Hx. rewrite peval_psub, (H x Hx). ring.
  Qed.

  (** and have the same coefficients when of equal length *)
  Lemma coefs_zero f : forall xs, NoDup xs -> (length f <= length xs)%nat -> (forall x, In x xs -> peval f x = f0 q) ->
    Forall (eq (f0 q)) f.
  Proof.
    induction f as [|c f IH]; intros xs ND L R; [constructor|].
    assert (A : forall y, peval (c :: f) y = f0 q) by (apply (roots xs); assumption).
    assert (C0 : c = f0 q). { pose proof (A (f0 q)) as E. cbn in E. rewrite <- E. ring. }
    constructor; [symmetry; exact C0|].
    assert (B : forall y, y <> f0 q -> peval f y = f0 q).
    { intros y Ny. pose proof (A y) as E. cbn in E. rewrite C0 in E.
      assert (E' : (y * peval f y = 0)%fq) by (rewrite <- E; ring).
      apply fmul_0 in E'; [|assumption]. destruct E'; [contradiction|assumption]. }
    (* drop at most one point, namely 0 *)
    destruct (in_dec (eqFp q) (f0 q) xs) as [I|N].
    - apply in_split in I. destruct I as [l1 [l2 ->]].
      apply (IH (l1 ++ l2)).
      + apply NoDup_remove_1 in ND. exact ND.
      + rewrite app_length in *. cbn in L. lia.
      + intros x Hx. apply B. intros ->. apply NoDup_remove_2 in ND. contradiction.
    - apply (IH xs); [assumption|cbn in L; lia|]. intros x Hx. apply B. intros ->. contradiction.
  Qed.

  Lemma coefs_unique xs : forall f g, NoDup xs -> length f = length g -> (length f <= length xs)%nat ->
    (forall x, In x xs -> peval f x = peval g x) -> f = g.
  Proof.
    intros f g ND E L H.
    assert (Z0 : Forall (eq (f0 q)) (psub f g)).
    { apply (coefs_zero _ xs ND).
      - rewrite psub_length. lia.
      - intros x Hx. rewrite peval_psub, (H x Hx). ring. }
    clear H L. revert g E Z0. induction f as [|a f IH]; intros [|b g] E Z0; try discriminate; [reflexivity|].
    unfold psub in *. cbn in Z0. inversion Z0 as [|? ? Z1 Z2]; subst. f_equal.
    - apply fsub_eq0. rewrite Z1. ring.
    - apply IH; [cbn in E; lia|exact Z2].
  Qed.

  (** ** products of linear factors *)
  Definition prod (l : list F) : F := fold_right (fmul q) (f1 q) l.
  (** the polynomial prod (x - X) *)
  Fixpoint plins (l : list F) : list F :=
    match l with
    | [] => [f1 q]
    | x :: l' => padd (pscale x (plins l')) (f0 q :: pscale (fopp q (f1 q)) (plins l'))
    end.
  Lemma peval_plins l y : peval (plins l) y = prod (map (fun x => fsub q x y) l).
  Proof.
    induction l as [|x l IH]; cbn [plins map]; [cbn; ring|].
    rewrite peval_padd. cbn [peval]. rewrite !peval_pscale, IH. cbn [prod fold_right]. unfold prod. ring.
  Qed.
  Lemma plins_length l : length (plins l) = S (length l).
  Proof. induction l as [|x l IH]; cbn; [reflexivity|]. rewrite padd_length. cbn. rewrite !pscale_length, IH. lia. Qed.
  Lemma prod_0 l : prod l = f0 q <-> In (f0 q) l.
  Proof.
    induction l as [|x l IH]; cbn.
    - split; [|contradiction]. intros E. exfalso. apply (F_1_neq_0 HF). exact E.
    - split.
      + intros E. apply fmul_0 in E; [|assumption]. destruct E as [E|E]; [left; exact E|right; apply IH; exact E].
      + intros [E|E]; [rewrite E; ring|]. apply IH in E. unfold prod in E. rewrite E. ring.
  Qed.

  (** ** Lagrange interpolation on points given by position *)
  Section Lagrange.
    Variables (k : nat) (x v : nat -> F).
    Definition oth (i : nat) : list F := map x (filter (fun j => negb (Nat.eqb i j)) (seq 0 k)).
    Definition lnum (i : nat) : F := prod (oth i).
    Definition lden (i : nat) : F := prod (map (fun y => fsub q y (x i)) (oth i)).
    Definition lterm (i : nat) : F := fdiv q (fmul q (v i) (lnum i)) (lden i).
    Definition fsum (l : list F) : F := fold_right (fadd q) (f0 q) l.

    Lemma filter_other i : (i < k)%nat -> length (filter (fun j => negb (Nat.eqb i j)) (seq 0 k)) = pred k.
    Proof.
      intros H.
      assert (A : forall m s, (s <= i < s + m)%nat ->
        length (filter (fun j => negb (Nat.eqb i j)) (seq s m)) = pred m).
      { induction m as [|m IH]; intros s B; [lia|]. cbn [seq filter].
        destruct (Nat.eqb i s) eqn:E; cbn [negb].
        - apply Nat.eqb_eq in E. subst s. cbn [pred].
          assert (D : forall m s, (i < s)%nat -> length (filter (fun j => negb (Nat.eqb i j)) (seq s m)) = m).
          { clear. induction m as [|m IH]; intros s B; [reflexivity|]. cbn [seq filter].
            destruct (Nat.eqb i s) eqn:E; [apply Nat.eqb_eq in E; lia|]. cbn. rewrite IH; lia. }
          apply D. lia.
        - apply Nat.eqb_neq in E. cbn [length]. rewrite IH by lia. lia. }
      apply A. lia.
    Qed.

    Hypothesis Hdist : forall i j, (i < k)%nat -> (j < k)%nat -> x i = x j -> i = j.

    Lemma lden_ne0 i : (i < k)%nat -> lden i <> f0 q.
    Proof.
      intros Hi E. unfold lden in E. apply prod_0, in_map_iff in E. destruct E as [y [E I]].
      unfold oth in I. apply in_map_iff in I. destruct I as [j [<- I]]. apply filter_In in I. destruct I as [I N].
      apply in_seq in I. apply fsub_eq0 in E. apply Hdist in E; [|lia|lia]. subst j.
      rewrite Nat.eqb_refl in N. discriminate.
    Qed.

    Definition basis (i : nat) : list F := pscale (fdiv q (v i) (lden i)) (plins (oth i)).
    Definition interp : list F := fold_right (fun i f => padd (basis i) f) [] (seq 0 k).

    Lemma basis_length i : (i < k)%nat -> length (basis i) = k.
    Proof.
      intros H. unfold basis. rewrite pscale_length, plins_length. unfold oth. rewrite map_length, filter_other by exact H. lia.
    Qed.

    Lemma basis_at i m : (i < k)%nat -> (m < k)%nat -> peval (basis i) (x m) = if Nat.eqb i m then v i else f0 q.
    Proof.
      intros Hi Hm. unfold basis. rewrite peval_pscale, peval_plins.
      destruct (Nat.eqb i m) eqn:E.
      - apply Nat.eqb_eq in E. subst m. fold (lden i). field. apply lden_ne0. exact Hi.
      - assert (Z0 : prod (map (fun y => fsub q y (x m)) (oth i)) = f0 q).
        { apply prod_0, in_map_iff. exists (x m). split; [ring|]. unfold oth. apply in_map, filter_In.
          split; [apply in_seq; lia|]. rewrite E. reflexivity. }
        rewrite Z0. ring.
    Qed.

    Lemma interp_gen l y : peval (fold_right (fun i f => padd (basis i) f) [] l) y = fsum (map (fun i => peval (basis i) y) l).
    Proof. induction l as [|i l IH]; cbn; [reflexivity|]. rewrite peval_padd, IH. reflexivity. Qed.

    Lemma interp_length : length interp = k.
    Proof.
      unfold interp. assert (A : forall l, (forall i, In i l -> (i < k)%nat) ->
         length (fold_right (fun i f => padd (basis i) f) [] l) = match l with [] => O | _ => k end).
      { induction l as [|i l IH]; intros H; [reflexivity|]. cbn [fold_right]. rewrite padd_length.
        rewrite basis_length by (apply H; left; reflexivity). rewrite IH by (intros; apply H; right; assumption).
        destruct l; lia. }
      rewrite A by (intros i I; apply in_seq in I; lia). destruct k; reflexivity.
    Qed.

    Lemma interp_at m : (m < k)%nat -> peval interp (x m) = v m.
    Proof.
      intros Hm. unfold interp. rewrite interp_gen.
      assert (A : forall l, NoDup l -> (forall i, In i l -> (i < k)%nat) ->
        fsum (map (fun i => peval (basis i) (x m)) l) = if in_dec Nat.eq_dec m l then v m else f0 q).
      { induction l as [|i l IH]; intros ND H; [reflexivity|]. inversion ND as [|? ? Ni ND']; subst.
        cbn [map fsum fold_right]. fold (fsum (map (fun i => peval (basis i) (x m)) l)).
        rewrite IH by (auto; intros; apply H; right; assumption).
        rewrite basis_at by (auto; apply H; left; reflexivity).
        destruct (Nat.eqb i m) eqn:E.
        - apply Nat.eqb_eq in E. subst i. destruct (in_dec Nat.eq_dec m l); [contradiction|].
          destruct (in_dec Nat.eq_dec m (m :: l)) as [|N]; [ring|]. exfalso; apply N; left; reflexivity.
        - apply Nat.eqb_neq in E. destruct (in_dec Nat.eq_dec m l) as [I|N];
            destruct (in_dec Nat.eq_dec m (i :: l)) as [I'|N']; try ring.
          + exfalso; apply N'; right; assumption.
          + exfalso. destruct I' as [E'|I']; [subst; apply E; reflexivity|contradiction]. }
      rewrite A; [|apply seq_NoDup|intros i I; apply in_seq in I; lia].
      destruct (in_dec Nat.eq_dec m (seq 0 k)) as [|N]; [reflexivity|]. exfalso; apply N, in_seq; lia.
    Qed.

    Lemma interp_zero : peval interp (f0 q) = fsum (map lterm (seq 0 k)).
    Proof.
      unfold interp. rewrite interp_gen. f_equal. apply map_ext_in. intros i I. apply in_seq in I.
      unfold basis, lterm. rewrite peval_pscale, peval_plins.
      assert (E : map (fun y => fsub q y (f0 q)) (oth i) = oth i).
      { rewrite <- (map_id (oth i)) at 2. apply map_ext. intros y. ring. }
      rewrite E. unfold lnum. field. apply lden_ne0. lia.
    Qed.

    Lemma distinct_points : NoDup (map x (seq 0 k)).
    Proof.
      assert (A : forall l, NoDup l -> (forall i, In i l -> (i < k)%nat) -> NoDup (map x l)).
      { induction l as [|i l IH]; intros ND H; [constructor|]. inversion ND as [|? ? Ni ND']; subst. cbn. constructor.
        - intros I. apply in_map_iff in I. destruct I as [j [E I]].
          apply Hdist in E; [subst; contradiction|apply H; right; assumption|apply H; left; reflexivity].
        - apply IH; [assumption|]. intros; apply H; right; assumption. }
      apply A; [apply seq_NoDup|]. intros i I. apply in_seq in I. lia.
    Qed.

    (** the Lagrange sum at 0 is the value at 0 of any short polynomial through the points *)
    Lemma lagrange f : (length f <= k)%nat -> (forall i, (i < k)%nat -> peval f (x i) = v i) ->
      fsum (map lterm (seq 0 k)) = peval f (f0 q).
    Proof.
      intros L H. rewrite <- interp_zero. apply (peval_unique (map x (seq 0 k))).
      - apply distinct_points.
      - rewrite interp_length, map_length, seq_length. lia.
      - rewrite map_length, seq_length. exact L.
      - intros y I. apply in_map_iff in I. destruct I as [i [<- I]]. apply in_seq in I.
        rewrite interp_at by lia. symmetry; apply H; lia.
    Qed.
  End Lagrange.
End Poly.
