(** No four of the first 5275 powers cancel, and no six of the first 209. *)
From Coq Require Import ZArith List Bool Lia.
From Verif Require Import SpecCrc CrcProofs CrcProofs2 CrcProofs3 CrcProofs4 SpecHd.
Import ListNotations.
Open Scope Z_scope.

(** ** Sets of words as binary trees *)
Inductive tree := E | N (l r : tree).
Fixpoint put (p : positive) (t : tree) : tree :=
  match p with
  | xH => match t with E => N E E | N l r => N l r end
  | xO p' => match t with E => N (put p' E) E | N l r => N (put p' l) r end
  | xI p' => match t with E => N E (put p' E) | N l r => N l (put p' r) end
  end.
Fixpoint mem (p : positive) (t : tree) : Prop :=
  match t with
  | E => False
  | N l r => match p with xH => True | xO p' => mem p' l | xI p' => mem p' r end
  end.
(** two members whose difference is [k] *)
Fixpoint meet (k : positive) (s t : tree) : bool :=
  match s, t with
  | N l r, N l' r' =>
      match k with
      | xO k' => if meet k' l l' then true else meet k' r r'
      | xI k' => if meet k' l r' then true else meet k' r l'
      | xH => true
      end
  | _, _ => false
  end.
Fixpoint meet1 (k : positive) (s : tree) : bool :=
  match s with
  | E => false
  | N l r =>
      match k with
      | xO k' => if meet1 k' l then true else meet1 k' r
      | xI k' => meet k' l r
      | xH => true
      end
  end.
Fixpoint differ (u v k : positive) : Prop :=
  match u, v, k with
  | xH, xH, xH => True
  | xO u', xO v', xO k' | xI u', xI v', xO k' | xO u', xI v', xI k' | xI u', xO v', xI k' => differ u' v' k'
  | _, _, _ => False
  end.

Lemma put_mem p : forall t, mem p (put p t).
Proof. induction p as [p IH|p IH|]; intros [|l r]; cbn; try apply IH; exact I. Qed.
Lemma put_keep p : forall q t, mem q t -> mem q (put p t).
Proof.
  induction p as [p IH|p IH|]; intros [q|q|] [|l r] H; cbn in H |- *; try contradiction; try exact H; try exact I; apply IH, H.
Qed.
Lemma differ_sym u : forall v k, differ u v k -> differ v u k.
Proof. induction u as [u IH|u IH|]; intros [v|v|] [k|k|] H; cbn in *; try contradiction; try (apply IH, H); exact I. Qed.
Lemma meet_found k : forall u v s t, mem u s -> mem v t -> differ u v k -> meet k s t = true.
Proof.
  induction k as [k IH|k IH|]; intros [u|u|] [v|v|] [|l r] [|l' r'] U V D; cbn in U, V, D |- *; try contradiction; try reflexivity.
  - rewrite (IH u v r l' U V D). destruct (meet k l r'); reflexivity.
  - rewrite (IH u v l r' U V D). reflexivity.
  - rewrite (IH u v r r' U V D). destruct (meet k l l'); reflexivity.
  - rewrite (IH u v l l' U V D). reflexivity.
Qed.
Lemma meet1_found k : forall u v s, mem u s -> mem v s -> differ u v k -> meet1 k s = true.
Proof.
  induction k as [k IH|k IH|]; intros [u|u|] [v|v|] [|l r] U V D; cbn in U, V, D |- *; try contradiction; try reflexivity.
  - exact (meet_found k v u l r V U (differ_sym _ _ _ D)).
  - exact (meet_found k u v l r U V D).
  - rewrite (IH u v r U V D). destruct (meet1 k l); reflexivity.
  - rewrite (IH u v l U V D). reflexivity.
Qed.

(** the lowest [n] bits *)
Fixpoint code (n : nat) (w : Z) : positive :=
  match n with O => xH | S n' => if Z.odd w then xI (code n' (Z.div2 w)) else xO (code n' (Z.div2 w)) end.
Lemma code_differ n : forall a b, differ (code n a) (code n b) (code n (Z.lxor a b)).
Proof.
  induction n as [|n IH]; intros a b; [exact I|]. cbn [code].
  rewrite <- (Z.bit0_odd (Z.lxor a b)), Z.lxor_spec, !Z.bit0_odd.
  assert (H : Z.div2 (Z.lxor a b) = Z.lxor (Z.div2 a) (Z.div2 b)).
  { rewrite !Z.div2_spec. apply Z.shiftr_lxor. }
  rewrite H. destruct (Z.odd a), (Z.odd b); cbn [xorb differ]; apply IH.
Qed.

(** ** The search *)
Lemma shift1_shifts s w : shift1 (shifts s w) = shifts (s + 1) w.
Proof. rewrite shifts_add. reflexivity. Qed.
Section Search.
  Variable cd : Z -> positive.
  Hypothesis cd_differ : forall a b, differ (cd a) (cd b) (cd (Z.lxor a b)).
  Fixpoint search (n : nat) (t : tree) (w : Z) : bool :=
    match n with
    | O => true
    | S n' => if meet1 (cd (Z.lxor 1 w)) t then false else search n' (put (cd w) t) (shift1 w)
    end.
  Lemma search_found n : forall t w s, search n t (shifts s w) = true ->
    (forall i, (1 <= i < s)%nat -> mem (cd (shifts i w)) t) ->
    forall a b c, (1 <= a)%nat -> (a < b)%nat -> (b < c)%nat -> (s <= c < s + n)%nat ->
      Z.lxor (shifts a w) (shifts b w) <> Z.lxor 1 (shifts c w).
  Proof.
    induction n as [|n IH]; intros t w s H M a b c A B C R X; [lia|]. cbn [search] in H.
    destruct (meet1 (cd (Z.lxor 1 (shifts s w))) t) eqn:Q; [discriminate H|].
    destruct (Nat.eq_dec c s) as [->|NE].
    - rewrite <- X in Q.
      pose proof (meet1_found _ _ _ t (M a ltac:(lia)) (M b ltac:(lia)) (cd_differ (shifts a w) (shifts b w))) as F. congruence.
    - rewrite shift1_shifts in H. refine (IH _ w (s + 1)%nat H _ a b c A B C ltac:(lia) X).
      intros i I. destruct (Nat.eq_dec i s) as [->|]; [apply put_mem|]. apply put_keep, M. lia.
  Qed.
  Fixpoint puts (w : Z) (l : list Z) (t : tree) : tree := match l with [] => t | v :: l' => puts w l' (put (cd (Z.lxor v w)) t) end.
  Lemma puts_keep w p l : forall t, mem p t -> mem p (puts w l t).
  Proof. induction l as [|v l IH]; intros t H; [exact H|]. cbn [puts]. apply IH, put_keep, H. Qed.
  Lemma puts_mem w v l : forall t, In v l -> mem (cd (Z.lxor v w)) (puts w l t).
  Proof.
    induction l as [|x l IH]; intros t []; cbn [puts].
    - subst x. apply puts_keep, put_mem.
    - apply IH. assumption.
  Qed.
  (** [t] holds the differences of the words met so far, [l] the words *)
  Fixpoint search2 (n : nat) (t : tree) (l : list Z) (w : Z) : bool :=
    match n with
    | O => true
    | S n' => if meet1 (cd (Z.lxor 1 w)) t then false else search2 n' (puts w l t) (w :: l) (shift1 w)
    end.
  Lemma search2_found n : forall t l w s, search2 n t l (shifts s w) = true ->
    (forall i, (1 <= i < s)%nat -> In (shifts i w) l) ->
    (forall i j, (1 <= i < j)%nat -> (j < s)%nat -> mem (cd (Z.lxor (shifts i w) (shifts j w))) t) ->
    forall a b c d e, (1 <= a)%nat -> (a < b)%nat -> (b < c)%nat -> (c < d)%nat -> (d < e)%nat -> (s <= e < s + n)%nat ->
      Z.lxor (Z.lxor (shifts a w) (shifts b w)) (Z.lxor (shifts c w) (shifts d w)) <> Z.lxor 1 (shifts e w).
  Proof.
    induction n as [|n IH]; intros t l w s H L M a b c d e A B C D F R X; [lia|]. cbn [search2] in H.
    destruct (meet1 (cd (Z.lxor 1 (shifts s w))) t) eqn:Q; [discriminate H|].
    destruct (Nat.eq_dec e s) as [->|NE].
    - rewrite <- X in Q.
      pose proof (meet1_found _ _ _ t (M a b ltac:(lia) ltac:(lia)) (M c d ltac:(lia) ltac:(lia))
        (cd_differ (Z.lxor (shifts a w) (shifts b w)) (Z.lxor (shifts c w) (shifts d w)))) as G. congruence.
    - rewrite shift1_shifts in H.
      refine (IH _ _ w (s + 1)%nat H _ _ a b c d e A B C D F ltac:(lia) X).
      + intros i I. destruct (Nat.eq_dec i s) as [->|]; [left; reflexivity|]. right. apply L. lia.
      + intros i j I J. destruct (Nat.eq_dec j s) as [->|]; [apply puts_mem, L; lia|]. apply puts_keep, M; lia.
  Qed.
End Search.

Definition far : Z := 5275.
Lemma searched : search (code 32) (Z.to_nat (far - 1)) E (shift1 1) = true.
Proof. vm_compute. reflexivity. Qed.
Definition near : Z := 209.
Lemma searched2 : search2 (code 32) (Z.to_nat (near - 1)) E [] (shift1 1) = true.
Proof. vm_compute. reflexivity. Qed.
#[local] Opaque search search2 code shifts.
Lemma L_far a b c : 1 <= a -> a < b -> b < c -> c < far ->
  Z.lxor (shifts (Z.to_nat a) 1) (shifts (Z.to_nat b) 1) <> Z.lxor 1 (shifts (Z.to_nat c) 1).
Proof.
  intros A B C F. apply (search_found (code 32) (code_differ 32) (Z.to_nat (far - 1)) E 1 1 searched); lia.
Qed.
Lemma L_near a b c d e : 1 <= a -> a < b -> b < c -> c < d -> d < e -> e < near ->
  Z.lxor (Z.lxor (shifts (Z.to_nat a) 1) (shifts (Z.to_nat b) 1)) (Z.lxor (shifts (Z.to_nat c) 1) (shifts (Z.to_nat d) 1)) <>
  Z.lxor 1 (shifts (Z.to_nat e) 1).
Proof.
  intros A B C D F G. apply (search2_found (code 32) (code_differ 32) (Z.to_nat (near - 1)) E [] 1 1 searched2); lia.
Qed.
