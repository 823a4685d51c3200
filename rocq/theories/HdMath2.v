(** Sorting. *)
From Coq Require Import ZArith List Bool Lia Permutation Sorted.
Import ListNotations.
Open Scope Z_scope.

Fixpoint insert (x : Z) (l : list Z) : list Z :=
  match l with [] => [x] | y :: l' => if x <? y then x :: l else y :: insert x l' end.
Fixpoint isort (l : list Z) : list Z := match l with [] => [] | x :: l' => insert x (isort l') end.
Lemma insert_perm x l : Permutation (x :: l) (insert x l).
Proof.
  induction l as [|y l IH]; [reflexivity|]. cbn [insert]. destruct (x <? y); [reflexivity|].
  rewrite perm_swap. apply perm_skip, IH.
Qed.
Lemma isort_perm l : Permutation l (isort l).
Proof. induction l as [|x l IH]; [reflexivity|]. cbn [isort]. rewrite <- insert_perm. apply perm_skip, IH. Qed.
Lemma insert_sorted x l : ~ In x l -> StronglySorted Z.lt l -> StronglySorted Z.lt (insert x l).
Proof.
  intros N S. induction S as [|y l S IH F]; [constructor; constructor|]. cbn [insert]. destruct (Z.ltb_spec x y) as [H|H].
  - constructor; [constructor; assumption|]. constructor; [exact H|]. eapply Forall_impl; [|exact F]. intros z Hz. lia.
  - constructor; [apply IH; intros I; apply N; right; exact I|]. apply Forall_forall. intros z Hz.
    apply (Permutation_in z (Permutation_sym (insert_perm x l))) in Hz. destruct Hz as [<-|Hz].
    + destruct (Z.eq_dec x y) as [->|]; [exfalso; apply N; left; reflexivity|lia].
    + rewrite Forall_forall in F. apply F, Hz.
Qed.
Lemma isort_sorted l : NoDup l -> StronglySorted Z.lt (isort l).
Proof.
  induction 1 as [|x l N D IH]; [constructor|]. cbn [isort]. apply insert_sorted; [|exact IH].
  intros I. apply N. apply (Permutation_in x (Permutation_sym (isort_perm l))), I.
Qed.
