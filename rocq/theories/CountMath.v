(** Counting the elements that have a property. *)
From Coq Require Import ZArith List Bool Lia Permutation.
From Verif Require Import SpecCount.
Import ListNotations.
Open Scope Z_scope.

Lemma range_count lo hi : lo <= hi -> how_many (fun z => lo <= z < hi) (hi - lo).
Proof.
  intros H. exists (map (fun i => lo + Z.of_nat i) (seq 0 (Z.to_nat (hi - lo)))). split.
  - apply FinFun.Injective_map_NoDup; [intros i j E; lia|apply seq_NoDup].
  - split; [|rewrite map_length, seq_length; lia]. intros z. rewrite in_map_iff. split.
    + intros [i [<- I]]. apply in_seq in I. lia.
    + intros R. exists (Z.to_nat (z - lo)). split; [lia|]. apply in_seq. lia.
Qed.

Section Count.
  Context {A B : Type}.
  Implicit Types (P Q : A -> Prop).

  Lemma how_many_same P Q n : (forall z, P z <-> Q z) -> how_many P n -> how_many Q n.
  Proof. intros H [l [L [M C]]]. exists l. split; [exact L|]. split; [|exact C]. intros z. rewrite M. apply H. Qed.
  Lemma how_many_le P Q n m : how_many P n -> how_many Q m -> (forall z, P z -> Q z) -> n <= m.
  Proof.
    intros [l [L [M C]]] [l' [L' [M' C']]] H. rewrite <- C, <- C'. apply Nat2Z.inj_le. apply NoDup_incl_length; [exact L|].
    intros z I. apply M', H, M, I.
  Qed.
  Lemma how_many_unique P n m : how_many P n -> how_many P m -> n = m.
  Proof. intros H K. apply Z.le_antisymm; [apply (how_many_le P P n m H K); auto|apply (how_many_le P P m n K H); auto]. Qed.
  Lemma how_many_nonneg P n : how_many P n -> 0 <= n.
  Proof. intros [l [_ [_ <-]]]. lia. Qed.
  Lemma how_many_or P Q n m : how_many P n -> how_many Q m -> (forall z, P z -> Q z -> False) -> how_many (fun z => P z \/ Q z) (n + m).
  Proof.
    intros [l [L [M C]]] [l' [L' [M' C']]] D. exists (l ++ l'). split.
    - clear C. assert (X : forall z, In z l -> In z l' -> False) by (intros z I I'; apply (D z); [apply M, I|apply M', I']).
      clear M. induction L as [|a l N L IH]; [exact L'|]. cbn. constructor.
      + rewrite in_app_iff. intros [I|I]; [exact (N I)|]. apply (X a); [left; reflexivity|exact I].
      + apply IH. intros z I. apply X. right. exact I.
    - split; [|rewrite app_length; lia]. intros z. rewrite in_app_iff, M, M'. reflexivity.
  Qed.
  Lemma how_many_filter P n (f : A -> bool) : how_many P n -> exists m, how_many (fun x => P x /\ f x = true) m.
  Proof.
    intros [l [L [M C]]]. exists (Z.of_nat (length (filter f l))). exists (filter f l). split; [apply NoDup_filter, L|].
    split; [|reflexivity]. intros z. rewrite filter_In, M. reflexivity.
  Qed.
  (** two sets that agree outside a third *)
  Lemma how_many_close (dom : A -> Prop) (f g bad : A -> bool) n m k : how_many (fun x => dom x /\ f x = true) n -> how_many (fun x => dom x /\ g x = true) m ->
    how_many (fun x => dom x /\ bad x = true) k -> (forall x, dom x -> bad x = false -> f x = g x) -> Z.abs (n - m) <= k.
  Proof.
    intros N M K H.
    assert (S : forall h l, how_many (fun x => dom x /\ h x = true) l -> exists u v, l = u + v /\ 0 <= u <= k /\ how_many (fun x => (dom x /\ h x = true) /\ negb (bad x) = true) v).
    { intros h l L. destruct (how_many_filter _ _ bad L) as [u U]. destruct (how_many_filter _ _ (fun x => negb (bad x)) L) as [v V]. exists u, v.
      split; [|split; [split; [exact (how_many_nonneg _ _ U)|]|exact V]].
      - apply (how_many_unique _ _ _ L). refine (how_many_same _ _ _ _ (how_many_or _ _ _ _ U V _)).
        + intros z. cbv beta. destruct (bad z); cbn; intuition discriminate.
        + intros z [_ E] [_ E']. rewrite E in E'. discriminate E'.
      - refine (how_many_le _ _ _ _ U K _). intros z [[D _] E]. split; assumption. }
    destruct (S f n N) as [u [v [-> [U V]]]]. destruct (S g m M) as [u' [v' [-> [U' V']]]].
    assert (v = v'); [|lia]. apply (how_many_unique _ _ _ V). refine (how_many_same _ _ _ _ V').
    intros z. cbv beta. split; intros [[D E] F]; (split; [split; [exact D|]|exact F]); apply negb_true_iff in F; [rewrite (H z D F)|rewrite <- (H z D F)]; exact E.
  Qed.
End Count.

Lemma how_many_map {A B} (f : A -> B) (P : A -> Prop) (Q : B -> Prop) n : how_many P n -> (forall x y, P x -> P y -> f x = f y -> x = y) ->
  (forall z, Q z <-> exists x, P x /\ f x = z) -> how_many Q n.
Proof.
  intros [l [L [M C]]] J H. exists (map f l). split; [|split].
  - assert (J' : forall x y, In x l -> In y l -> f x = f y -> x = y) by (intros x y I I'; apply J; apply M; assumption). clear M C J H.
    induction L as [|a l N L IH]; [constructor|]. cbn. constructor.
    + rewrite in_map_iff. intros [x [E I]]. apply N. rewrite <- (J' x a); [exact I|right; exact I|left; reflexivity|exact E].
    + apply IH. intros x y I I'. apply J'; right; assumption.
  - intros z. rewrite in_map_iff, H. split; intros [x [U V]]; exists x; [split; [apply M, V|exact U]|split; [exact V|apply M, U]].
  - rewrite map_length. exact C.
Qed.
(** a bijection given by its inverse *)
Lemma how_many_bij {A B} (f : A -> B) (g : B -> A) (P : A -> Prop) (Q : B -> Prop) n : how_many P n -> (forall x, P x -> Q (f x) /\ g (f x) = x) ->
  (forall y, Q y -> P (g y) /\ f (g y) = y) -> how_many Q n.
Proof.
  intros H F G. apply (how_many_map f P Q n H).
  - intros x y X Y E. rewrite <- (proj2 (F x X)), <- (proj2 (F y Y)), E. reflexivity.
  - intros z. split; [intros Z; exists (g z); exact (G z Z)|]. intros [x [X <-]]. apply (F x X).
Qed.
Lemma how_many_prod {A B} (P : A -> Prop) (Q : B -> Prop) n m : how_many P n -> how_many Q m -> how_many (fun x => P (fst x) /\ Q (snd x)) (n * m).
Proof.
  intros [l [L [M C]]] [l' [L' [M' C']]]. exists (list_prod l l'). split; [|split].
  - clear M C. induction L as [|a l N L IH]; [constructor|]. cbn [list_prod].
    assert (X : forall z, In z (map (fun y => (a, y)) l') -> In z (list_prod l l') -> False).
    { intros z I I'. apply in_map_iff in I. destruct I as [y [<- _]]. apply in_prod_iff in I'. apply N, I'. }
    assert (Y : NoDup (map (fun y => (a, y)) l')) by (apply FinFun.Injective_map_NoDup; [intros u v E; injection E as E; exact E|exact L']).
    revert Y X IH. generalize (map (fun y => (a, y)) l') as s. generalize (list_prod l l') as r. intros r s Y X R. induction Y as [|z s NZ Y IH]; [exact R|]. cbn. constructor.
    + rewrite in_app_iff. intros [I|I]; [exact (NZ I)|]. apply (X z); [left; reflexivity|exact I].
    + apply IH. intros u I. apply X. right. exact I.
  - intros [a b]. rewrite in_prod_iff, M, M'. reflexivity.
  - rewrite prod_length, Nat2Z.inj_mul, C, C'. reflexivity.
Qed.
