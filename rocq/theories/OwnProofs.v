(** Proofs about ownership. *)
From Coq Require Import ZArith Bool List Lia Permutation.
From Verif Require Import Outcome OwnModel SpecOwn.
Import ListNotations.
Open Scope Z_scope.

Lemma bindOk {A B} (x : res A) (f : A -> res B) v : bind x f = Ok v -> exists a, x = Ok a /\ f a = Ok v.
Proof. destruct x; [|discriminate]. intros H. eexists; split; [reflexivity|exact H]. Qed.

(** traces of a heap that is used correctly *)
Inductive vtrace : list event -> Prop :=
| vt_nil : vtrace []
| vt_new a tr : vtrace tr -> holds tr a = false -> vtrace (New a :: tr)
| vt_del a tr : vtrace tr -> holds tr a = true -> vtrace (Del a :: tr).

Lemma events_cons a e tr : events a (e :: tr) = events a tr ++ (if at_addr a e then [e] else []).
Proof. unfold events. cbn [rev]. rewrite filter_app. cbn [filter]. reflexivity. Qed.
Lemma cycles_snoc a k : cycles a (S k) = cycles a k ++ [New a; Del a].
Proof. induction k as [|k IH]; [reflexivity|]. change (New a :: Del a :: cycles a (S k) = New a :: Del a :: (cycles a k ++ [New a; Del a])). rewrite IH. reflexivity. Qed.

Lemma vtrace_events tr a : vtrace tr -> exists k, events a tr = cycles a k ++ (if holds tr a then [New a] else []).
Proof.
  induction 1 as [|x tr V [k E] H|x tr V [k E] H].
  - exists 0%nat. reflexivity.
  - rewrite events_cons. cbn [at_addr holds]. destruct (Z.eqb_spec x a) as [->|N].
    + exists k. rewrite E, H. cbn [orb]. rewrite app_nil_r. reflexivity.
    + exists k. rewrite E. cbn [orb]. rewrite app_nil_r. reflexivity.
  - rewrite events_cons. cbn [at_addr holds]. destruct (Z.eqb_spec x a) as [->|N].
    + exists (S k). rewrite E, H, cycles_snoc. cbn [negb andb]. rewrite app_nil_r, <- app_assoc. reflexivity.
    + exists k. rewrite E. cbn [negb andb]. rewrite app_nil_r. reflexivity.
Qed.

(** the number of curves *)
Fixpoint ncur (tr : list event) : Z :=
  match tr with [] => 0 | New _ :: t => ncur t + 1 | Del _ :: t => ncur t - 1 end.

Lemma vtrace_live tr : vtrace tr -> exists l, NoDup l /\ (forall a, In a l <-> holds tr a = true) /\ Z.of_nat (length l) = ncur tr.
Proof.
  induction 1 as [|x tr V [l [ND [I E]]] H|x tr V [l [ND [I E]]] H].
  - exists []. repeat split; try constructor; cbn; try tauto; discriminate.
  - exists (x :: l). split; [constructor; [rewrite I, H; discriminate|exact ND]|]. split.
    + intros a. cbn [In holds]. rewrite orb_true_iff, Z.eqb_eq, I. reflexivity.
    + cbn [length ncur]. lia.
  - apply I in H. apply in_split in H. destruct H as [l1 [l2 ->]]. exists (l1 ++ l2). split; [exact (NoDup_remove_1 _ _ _ ND)|].
    pose proof (NoDup_remove_2 _ _ _ ND) as NI. split.
    + intros a. cbn [holds]. rewrite andb_true_iff, negb_true_iff, Z.eqb_neq, <- I, !in_app_iff. cbn [In]. split.
      * intros H. split; [intros ->; apply NI, in_or_app; exact H|tauto].
      * intros [N [H|[H|H]]]; [tauto|congruence|tauto].
    + rewrite app_length in *. cbn [length ncur] in *. lia.
Qed.

Lemma vtrace_ge tr l : vtrace tr -> NoDup l -> (forall a, In a l -> holds tr a = true) -> Z.of_nat (length l) <= ncur tr.
Proof.
  intros V ND H. destruct (vtrace_live tr V) as [l' [_ [I <-]]]. apply inj_le, NoDup_incl_length; [exact ND|].
  intros a Ha. apply I, H, Ha.
Qed.

Section Own.
  Variable alloc : list event -> Z.
  Hypothesis Halloc : allocator alloc.

  Lemma news_ok m : forall tr ps tr', news alloc m tr = (ps, tr') -> vtrace tr ->
    vtrace tr' /\ length ps = m /\ NoDup ps /\ (forall a, In a ps -> holds tr a = false) /\
    (forall a, holds tr' a = true <-> In a ps \/ holds tr a = true) /\ ncur tr' = ncur tr + Z.of_nat m.
  Proof.
    induction m as [|m IH]; intros tr ps tr' E V.
    - injection E as <- <-. split; [exact V|]. split; [reflexivity|]. split; [constructor|]. split; [intros a []|].
      split; [intros a; cbn; tauto|cbn; lia].
    - cbn [news] in E. destruct (news alloc m (New (alloc tr) :: tr)) as [ps' t'] eqn:En. injection E as <- <-.
      destruct (IH _ _ _ En (vt_new _ _ V (Halloc tr))) as [V' [L [ND [F [Hd N]]]]].
      assert (F' : forall a, In a ps' -> alloc tr <> a /\ holds tr a = false).
      { intros a Ha. apply F in Ha. cbn [holds] in Ha. apply orb_false_elim in Ha. split; [apply Z.eqb_neq; apply Ha|apply Ha]. }
      split; [exact V'|]. split; [cbn [length]; congruence|]. split.
      { constructor; [intros H; exact (proj1 (F' _ H) eq_refl)|exact ND]. }
      split. { intros a [<-|Ha]; [apply Halloc|apply F', Ha]. }
      split. { intros a. rewrite Hd. cbn [holds In]. rewrite orb_true_iff, Z.eqb_eq. tauto. }
      rewrite N. cbn [ncur]. lia.
  Qed.

  Lemma dels_ok ps : forall tr tr', dels ps tr = Ok tr' -> vtrace tr ->
    vtrace tr' /\ NoDup ps /\ (forall a, In a ps -> holds tr a = true) /\
    (forall a, holds tr' a = true <-> ~ In a ps /\ holds tr a = true) /\ ncur tr' = ncur tr - Z.of_nat (length ps).
  Proof.
    induction ps as [|p ps IH]; intros tr tr' E V.
    - injection E as <-. split; [exact V|]. split; [constructor|]. split; [intros a []|].
      split; [intros a; cbn; tauto|cbn; lia].
    - cbn [dels] in E. destruct (holds tr p) eqn:Hp; [|discriminate E].
      destruct (IH _ _ E (vt_del _ _ V Hp)) as [V' [ND [F [Hd N]]]].
      assert (F' : forall a, In a ps -> p <> a /\ holds tr a = true).
      { intros a Ha. apply F in Ha. cbn [holds] in Ha. rewrite andb_true_iff, negb_true_iff, Z.eqb_neq in Ha. exact Ha. }
      split; [exact V'|]. split. { constructor; [intros H; exact (proj1 (F' _ H) eq_refl)|exact ND]. }
      split. { intros a [<-|Ha]; [exact Hp|apply F', Ha]. }
      split. { intros a. rewrite Hd. cbn [holds In]. rewrite andb_true_iff, negb_true_iff, Z.eqb_neq. tauto. }
      rewrite N. cbn [ncur length]. lia.
  Qed.

  Lemma dels_total ps : forall tr, NoDup ps -> (forall a, In a ps -> holds tr a = true) -> exists tr', dels ps tr = Ok tr'.
  Proof.
    induction ps as [|p ps IH]; intros tr ND H; [eexists; reflexivity|]. inversion ND as [|? ? NI ND']; subst.
    cbn [dels]. rewrite (H p (or_introl eq_refl)). apply IH; [exact ND'|]. intros a Ha. cbn [holds].
    rewrite (H a (or_intror Ha)), andb_true_r, negb_true_iff, Z.eqb_neq. intros ->. exact (NI Ha).
  Qed.
  Lemma dels_fault ps : forall tr f, dels ps tr = Err f -> f = DoubleFree.
  Proof. induction ps as [|p ps IH]; intros tr f E; [discriminate E|]. cbn [dels] in E. destruct (holds tr p); [exact (IH _ _ E)|injection E as <-; reflexivity]. Qed.

  (** lists of objects *)
  Lemma NoDup_app_intro {A} (a b : list A) : NoDup a -> NoDup b -> (forall x, In x a -> In x b -> False) -> NoDup (a ++ b).
  Proof.
    intros Na Nb D. induction Na as [|x a NI Na IH]; [exact Nb|]. cbn [app]. constructor.
    - rewrite in_app_iff. intros [H|H]; [exact (NI H)|exact (D x (or_introl eq_refl) H)].
    - apply IH. intros y H1 H2. exact (D y (or_intror H1) H2).
  Qed.
  Definition fp (o : option obj) : list Z := match o with Some x => optrs x | None => [] end.
  Lemma upd_split {A} (l1 l2 : list A) x y : upd (length l1) y (l1 ++ x :: l2) = l1 ++ y :: l2.
  Proof. induction l1 as [|z l1 IH]; [reflexivity|]. cbn [length app upd]. rewrite IH. reflexivity. Qed.
  Lemma upd_map {A B} (f : A -> B) i y : forall l, map f (upd i y l) = upd i (f y) (map f l).
  Proof. induction i as [|i IH]; intros [|x l]; try reflexivity. cbn [upd map]. rewrite IH. reflexivity. Qed.
  Lemma upd_same {A} i (y : A) : forall l, nth_error l i = Some y -> upd i y l = l.
  Proof. induction i as [|i IH]; intros [|x l] H; try discriminate H; cbn in *; [congruence|]. rewrite IH; [reflexivity|exact H]. Qed.

  Definition kinds (w : world) : list (option kind) := map (option_map okind) (wobjs w).
  (** the basic invariant *)
  Definition basic (w : world) : Prop :=
    vtrace (wtrace w) /\ forall i x, nth_error (wobjs w) i = Some (Some x) -> length (optrs x) = curves (okind x).
  Definition inv (w : world) : Prop :=
    basic w /\ NoDup (pointers w) /\ forall a, In a (pointers w) <-> holds (wtrace w) a = true.
  Definition excess (w : world) : Z := Z.of_nat (length (pointers w)) - ncur (wtrace w).
  Definition leak (w : world) : Prop := exists a, holds (wtrace w) a = true /\ ~ In a (pointers w).

  Lemma kinds_nth w i k : nth_error (kinds w) i = Some (Some k) -> exists x, nth_error (wobjs w) i = Some (Some x) /\ okind x = k.
  Proof.
    unfold kinds. rewrite nth_error_map. destruct (nth_error (wobjs w) i) as [[x|]|]; cbn; intros H; try discriminate H.
    injection H as H. exists x. split; [reflexivity|exact H].
  Qed.
  Lemma pointers_snoc l x tr : pointers (mkworld (l ++ [Some x]) tr) = flat_map fp l ++ optrs x.
  Proof. unfold pointers. cbn [wobjs]. rewrite flat_map_app. cbn. rewrite app_nil_r. reflexivity. Qed.
  Lemma pointers_mid l1 o l2 tr : pointers (mkworld (l1 ++ o :: l2) tr) = flat_map fp l1 ++ fp o ++ flat_map fp l2.
  Proof. unfold pointers. cbn [wobjs]. rewrite flat_map_app. reflexivity. Qed.

  Lemma nth_snoc {A} (l : list A) x i y : nth_error (l ++ [x]) i = Some y -> nth_error l i = Some y \/ y = x.
  Proof.
    intros H. destruct (Nat.lt_ge_cases i (length l)) as [L|L].
    - left. rewrite nth_error_app1 in H by exact L. exact H.
    - right. rewrite nth_error_app2 in H by exact L. destruct (i - length l)%nat as [|m]; cbn in H; [congruence|destruct m; discriminate H].
  Qed.
  Lemma nth_mid {A} (l1 l2 : list A) x y i z : nth_error (l1 ++ y :: l2) i = Some z ->
    z = y \/ nth_error (l1 ++ x :: l2) i = Some z.
  Proof.
    intros H. destruct (Nat.lt_trichotomy i (length l1)) as [L|[->|L]].
    - right. rewrite nth_error_app1 in * by exact L. exact H.
    - left. rewrite nth_error_app2, Nat.sub_diag in H by lia. cbn in H. congruence.
    - right. rewrite nth_error_app2 in * by lia. destruct (i - length l1)%nat eqn:E; [lia|exact H].
  Qed.
  Lemma split_nth w i o : nth_error (wobjs w) i = Some o ->
    exists l1 l2, wobjs w = l1 ++ o :: l2 /\ length l1 = i /\ forall y, upd i y (wobjs w) = l1 ++ y :: l2.
  Proof.
    intros H. apply nth_error_split in H. destruct H as [l1 [l2 [E L]]]. exists l1, l2. split; [exact E|]. split; [exact L|].
    intros y. rewrite E, <- L. apply upd_split.
  Qed.

  Definition after (w : world) (o : op) (env' : list (option kind)) (w' : world) : Prop :=
    kinds w' = env' /\ basic w' /\ excess w <= excess w' /\ (leak w -> leak w') /\
    (inv w -> ~ shares o -> inv w') /\ (inv w -> shares o -> excess w < excess w' \/ leak w').

  Lemma pointers_len w l1 x l2 : wobjs w = l1 ++ Some x :: l2 -> pointers w = flat_map fp l1 ++ optrs x ++ flat_map fp l2.
  Proof. intros E. destruct w as [l tr]. cbn [wobjs] in E. subst l. apply (pointers_mid l1 (Some x) l2). Qed.
  Lemma curves_pos k : (0 < curves k)%nat.
  Proof. destruct k; cbn; lia. Qed.
  Lemma NoDup_app_mid {A} (a b c : list A) : NoDup (a ++ b ++ c) -> NoDup (a ++ c) /\ NoDup b /\ forall x, In x b -> ~ In x (a ++ c).
  Proof.
    intros H. assert (P : Permutation (a ++ b ++ c) (b ++ a ++ c)).
    { rewrite !app_assoc. apply Permutation_app_tail, Permutation_app_comm. }
    apply (Permutation_NoDup P) in H. clear P. induction b as [|y b IH]; cbn [app] in H.
    - split; [exact H|]. split; [constructor|intros x []].
    - inversion H as [|? ? NI ND]; subst. destruct (IH ND) as [A1 [A2 A3]]. split; [exact A1|]. split.
      + constructor; [intros I; apply NI, in_or_app; left; exact I|exact A2].
      + intros x [<-|I]; [intros I; apply NI, in_or_app; right; exact I|apply A3, I].
  Qed.

  Lemma step_construct w k env' : basic w -> sstep (kinds w) (Construct k) = Some env' ->
    exists w', ostep alloc w (Construct k) = Ok w' /\ after w (Construct k) env' w'.
  Proof.
    intros [V B] S. cbn [sstep ostep] in *. destruct (news alloc (curves k) (wtrace w)) as [ps tr] eqn:En.
    destruct (news_ok _ _ _ _ En V) as [V' [L [ND [F [Hd N]]]]]. eexists; split; [reflexivity|].
    assert (EP : pointers (mkworld (wobjs w ++ [Some (mkobj k ps)]) tr) = pointers w ++ ps) by apply pointers_snoc.
    split; [unfold kinds; cbn [wobjs]; rewrite map_app; injection S as <-; reflexivity|].
    split. { split; [exact V'|]. cbn [wobjs]. intros i x H. apply nth_snoc in H. destruct H as [H|H]; [exact (B _ _ H)|].
      injection H as ->. exact L. }
    split. { unfold excess. rewrite EP, app_length. cbn [wtrace]. rewrite N, L. lia. }
    split. { intros [a [H NI]]. exists a. rewrite EP. cbn [wtrace]. split; [apply Hd; right; exact H|].
      rewrite in_app_iff. intros [I|I]; [exact (NI I)|]. rewrite (F a I) in H. discriminate H. }
    split; [|intros _ []]. intros [_ [ND' I']] _. split; [|split].
    - split; [exact V'|]. cbn [wobjs]. intros i x H. apply nth_snoc in H. destruct H as [H|H]; [exact (B _ _ H)|].
      injection H as ->. exact L.
    - rewrite EP. apply NoDup_app_intro; try assumption. intros a I1 I2. apply I' in I1. rewrite (F a I2) in I1. discriminate I1.
    - intros a. rewrite EP, in_app_iff, I'. cbn [wtrace]. rewrite Hd. tauto.
  Qed.

  Lemma step_copy w i env' : basic w -> sstep (kinds w) (Copy i) = Some env' ->
    exists w', ostep alloc w (Copy i) = Ok w' /\ after w (Copy i) env' w'.
  Proof.
    intros [V B] S. cbn [sstep ostep] in *.
    destruct (nth_error (kinds w) i) as [[k|]|] eqn:E; try discriminate S. destruct (kinds_nth w i k E) as [x [Ex K]]. rewrite Ex.
    eexists; split; [reflexivity|].
    assert (EP : pointers (mkworld (wobjs w ++ [Some x]) (wtrace w)) = pointers w ++ optrs x) by apply pointers_snoc.
    assert (P : (0 < length (optrs x))%nat) by (rewrite (B _ _ Ex); apply curves_pos).
    split; [unfold kinds; cbn [wobjs]; rewrite map_app; injection S as <-; cbn; rewrite K; reflexivity|].
    split. { split; [exact V|]. cbn [wobjs]. intros j y H. apply nth_snoc in H. destruct H as [H|H]; [exact (B _ _ H)|].
      injection H as ->. exact (B _ _ Ex). }
    assert (X : excess w < excess (mkworld (wobjs w ++ [Some x]) (wtrace w))).
    { unfold excess. rewrite EP, app_length. cbn [wtrace]. lia. }
    split; [lia|].
    split. { intros [a [H NI]]. exists a. rewrite EP. split; [exact H|]. rewrite in_app_iff. intros [I|I]; [exact (NI I)|].
      apply NI. destruct (split_nth w i _ Ex) as [l1 [l2 [El _]]]. rewrite (pointers_len w _ _ _ El), !in_app_iff. tauto. }
    split; [intros _ H; exfalso; apply H; exact I|]. intros _ _. left. exact X.
  Qed.

  Lemma step_assign w i j env' : basic w -> sstep (kinds w) (Assign i j) = Some env' ->
    exists w', ostep alloc w (Assign i j) = Ok w' /\ after w (Assign i j) env' w'.
  Proof.
    intros [V B] S. cbn [sstep ostep] in *.
    destruct (nth_error (kinds w) i) as [[k|]|] eqn:E; try discriminate S. destruct (nth_error (kinds w) j) as [[k'|]|] eqn:E'; try discriminate S.
    destruct (kinds_nth w i k E) as [x [Ex K]], (kinds_nth w j k' E') as [y [Ey K']]. rewrite Ex, Ey.
    assert (KK : k = k' /\ env' = kinds w) by (destruct k, k'; try discriminate S; injection S as <-; split; reflexivity).
    destruct KK as [<- ->]. clear S.
    eexists; split; [reflexivity|]. set (w' := mkworld _ _).
    destruct (split_nth w i _ Ex) as [l1 [l2 [El [Ll Eu]]]].
    assert (EP : pointers w = flat_map fp l1 ++ optrs x ++ flat_map fp l2) by exact (pointers_len w _ _ _ El).
    assert (EP' : pointers w' = flat_map fp l1 ++ optrs y ++ flat_map fp l2).
    { unfold w'. rewrite Eu. apply (pointers_mid l1 (Some y) l2). }
    assert (LL : length (optrs x) = length (optrs y)) by (rewrite (B _ _ Ex), (B _ _ Ey), K, K'; reflexivity).
    assert (IY : forall a, In a (optrs y) -> i <> j -> In a (flat_map fp l1 ++ flat_map fp l2)).
    { intros a Ha Nij. rewrite El in Ey. apply in_or_app. destruct (Nat.lt_trichotomy j i) as [H|[H|H]].
      - left. rewrite nth_error_app1 in Ey by lia. apply in_flat_map. exists (Some y). split; [exact (nth_error_In _ _ Ey)|exact Ha].
      - exfalso. lia.
      - right. rewrite nth_error_app2 in Ey by lia. destruct (j - length l1)%nat as [|d] eqn:Ed; [lia|]. cbn in Ey.
        apply in_flat_map. exists (Some y). split; [exact (nth_error_In _ _ Ey)|exact Ha]. }
    assert (EQ : i = j -> w' = w).
    { intros <-. rewrite Ex in Ey. injection Ey as <-. unfold w'. rewrite (upd_same i (Some x) _ Ex). destruct w; reflexivity. }
    split. { unfold kinds, w'. cbn [wobjs]. rewrite upd_map. apply upd_same. cbn [option_map]. rewrite K', <- K.
      rewrite nth_error_map, Ex. reflexivity. }
    assert (B' : basic w').
    { split; [exact V|]. unfold w'. cbn [wobjs]. rewrite Eu. intros m z H. apply (nth_mid _ _ (Some x)) in H. destruct H as [H|H].
      - injection H as ->. exact (B _ _ Ey).
      - rewrite <- El in H. exact (B _ _ H). }
    split; [exact B'|].
    split. { unfold excess. rewrite EP, EP', !app_length, LL. cbn [wtrace w']. lia. }
    split. { intros [a [H NI]]. destruct (Nat.eq_dec i j) as [e|Nij]; [rewrite (EQ e); exists a; split; assumption|].
      exists a. split; [exact H|]. rewrite EP'. rewrite EP in NI. rewrite !in_app_iff in *. intros [I|[I|I]]; [tauto| |tauto].
      specialize (IY a I Nij). rewrite in_app_iff in IY. tauto. }
    split. { intros Iw NS. cbn [shares] in NS. destruct (Nat.eq_dec i j) as [e|Nij]; [rewrite (EQ e); exact Iw|]. contradiction. }
    intros [_ [ND I']] Nij. cbn [shares] in Nij. right. rewrite EP in ND. destruct (NoDup_app_mid _ _ _ ND) as [_ [_ D]].
    assert (P : exists a, In a (optrs x)).
    { pose proof (curves_pos (okind x)) as P. rewrite <- (B _ _ Ex) in P. destruct (optrs x) as [|a t]; [cbn in P; lia|]. exists a. left. reflexivity. }
    destruct P as [a Ha]. exists a. split.
    - cbn [w' wtrace]. apply I'. rewrite EP, !in_app_iff. tauto.
    - rewrite EP', !in_app_iff. specialize (D a Ha). rewrite in_app_iff in D. intros [I|[I|I]]; [tauto| |tauto].
      specialize (IY a I Nij). rewrite in_app_iff in IY. tauto.
  Qed.

  Lemma step_destroy w i env' : basic w -> sstep (kinds w) (Destroy i) = Some env' ->
    (exists w', ostep alloc w (Destroy i) = Ok w' /\ after w (Destroy i) env' w') \/
    (ostep alloc w (Destroy i) = Err DoubleFree /\ ~ inv w).
  Proof.
    intros [V B] S. cbn [sstep ostep] in *.
    destruct (nth_error (kinds w) i) as [[k|]|] eqn:E; try discriminate S. destruct (kinds_nth w i k E) as [x [Ex K]]. rewrite Ex.
    destruct (split_nth w i _ Ex) as [l1 [l2 [El [Ll Eu]]]].
    assert (EP : pointers w = flat_map fp l1 ++ optrs x ++ flat_map fp l2) by exact (pointers_len w _ _ _ El).
    destruct (dels (optrs x) (wtrace w)) as [tr|f] eqn:Ed.
    - left. cbn [bind]. eexists; split; [reflexivity|]. set (w' := mkworld _ _).
      destruct (dels_ok _ _ _ Ed V) as [V' [ND [F [Hd N]]]].
      assert (EP' : pointers w' = flat_map fp l1 ++ flat_map fp l2).
      { unfold w'. rewrite Eu. apply (pointers_mid l1 None l2). }
      split. { unfold kinds, w'. cbn [wobjs]. rewrite upd_map. injection S as <-. reflexivity. }
      assert (B' : basic w').
      { split; [exact V'|]. unfold w'. cbn [wobjs]. rewrite Eu. intros m z H. apply (nth_mid _ _ (Some x)) in H. destruct H as [H|H].
        - discriminate H.
        - rewrite <- El in H. exact (B _ _ H). }
      split; [exact B'|].
      split. { unfold excess. rewrite EP, EP', !app_length. cbn [wtrace w']. rewrite N. lia. }
      split. { intros [a [H NI]]. exists a. rewrite EP in NI. rewrite EP'. rewrite !in_app_iff in *. cbn [wtrace w'].
        split; [apply Hd; split; [tauto|exact H]|tauto]. }
      split; [|intros _ []]. intros [_ [NDp I']] _. rewrite EP in NDp. destruct (NoDup_app_mid _ _ _ NDp) as [ND1 [_ D]].
      split; [exact B'|]. split; [rewrite EP'; exact ND1|]. intros a. cbn [wtrace w']. rewrite EP', Hd, <- I', EP.
      specialize (D a). rewrite !in_app_iff in *. tauto.
    - right. cbn [bind]. rewrite (dels_fault _ _ _ Ed). split; [reflexivity|]. intros [_ [ND I']].
      rewrite EP in ND. destruct (NoDup_app_mid _ _ _ ND) as [_ [NDx _]].
      destruct (dels_total (optrs x) (wtrace w) NDx) as [tr' Et]; [|rewrite Ed in Et; discriminate Et].
      intros a Ha. apply I'. rewrite EP, !in_app_iff. tauto.
  Qed.

  Lemma step_all w o env' : basic w -> sstep (kinds w) o = Some env' ->
    (exists w', ostep alloc w o = Ok w' /\ after w o env' w') \/ (ostep alloc w o = Err DoubleFree /\ ~ inv w).
  Proof.
    intros B S. destruct o as [k|i|i j|i].
    - left. apply step_construct; assumption.
    - left. apply step_copy; assumption.
    - left. apply step_assign; assumption.
    - apply step_destroy; assumption.
  Qed.

  Lemma run_all h : forall w env', basic w -> srun (kinds w) h = Some env' ->
    (exists w', orun alloc w h = Ok w' /\ kinds w' = env' /\ basic w' /\ excess w <= excess w' /\ (leak w -> leak w')) \/
    orun alloc w h = Err DoubleFree.
  Proof.
    induction h as [|o h IH]; intros w env' B S.
    - left. exists w. cbn [srun orun] in *. injection S as <-. repeat split; try apply B; try lia. tauto.
    - cbn [srun orun] in *. destruct (sstep (kinds w) o) as [e1|] eqn:E; [|discriminate S].
      destruct (step_all w o e1 B E) as [[w1 [-> A]]|[-> _]]; [|right; reflexivity]. cbn [bind].
      destruct A as [K1 [B1 [X1 [L1 _]]]]. rewrite <- K1 in S. destruct (IH w1 env' B1 S) as [[w' [-> [K' [B' [X' L']]]]]|R]; [left|right; exact R].
      exists w'. split; [reflexivity|]. split; [exact K'|]. split; [exact B'|]. split; [lia|]. intros H. apply L', L1, H.
  Qed.

  Lemma run_unshared h : forall w env', inv w -> srun (kinds w) h = Some env' -> unshared h ->
    exists w', orun alloc w h = Ok w' /\ kinds w' = env' /\ inv w'.
  Proof.
    induction h as [|o h IH]; intros w env' I S U.
    - exists w. cbn [srun orun] in *. injection S as <-. split; [reflexivity|]. split; [reflexivity|exact I].
    - cbn [srun orun] in *. destruct (sstep (kinds w) o) as [e1|] eqn:E; [|discriminate S]. inversion U as [|? ? N U']; subst.
      destruct (step_all w o e1 (proj1 I) E) as [[w1 [-> A]]|[_ F]]; [|contradiction]. cbn [bind].
      destruct A as [K1 [_ [_ [_ [I1 _]]]]]. rewrite <- K1 in S. exact (IH w1 env' (I1 I N) S U').
  Qed.

  Lemma inv0 : inv world0.
  Proof.
    split; [split; [constructor|intros [|i] x H; discriminate H]|]. split; [constructor|]. intros a. cbn. split; [intros []|discriminate].
  Qed.
  Lemma excess0 w : inv w -> excess w = 0.
  Proof.
    intros [[V _] [ND I]]. destruct (vtrace_live _ V) as [l [NDl [Il El]]]. unfold excess. rewrite <- El.
    assert (P : Permutation (pointers w) l). { apply NoDup_Permutation; try assumption. intros a. rewrite I, Il. reflexivity. }
    rewrite (Permutation_length P). lia.
  Qed.

  Lemma kinds_owned w : Forall (eq None) (kinds w) -> pointers w = [].
  Proof.
    unfold kinds, pointers. induction (wobjs w) as [|o l IH]; intros H; [reflexivity|]. cbn [map] in H. inversion H as [|? ? E F]; subst.
    destruct o; [discriminate E|]. cbn. apply IH, F.
  Qed.
  Lemma owned_in w a : owned w a <-> In a (pointers w).
  Proof.
    unfold owned, pointers. rewrite in_flat_map. split.
    - intros [i [x [H Ha]]]. exists (Some x). split; [exact (nth_error_In _ _ H)|exact Ha].
    - intros [[x|] [H Ha]]; [|destruct Ha]. apply In_nth_error in H. destruct H as [i H]. exists i, x. split; assumption.
  Qed.

  Lemma L_C56_owned h : program h -> unshared h ->
    exists w, orun alloc world0 h = Ok w /\ NoDup (pointers w) /\ (forall a, owned w a <-> holds (wtrace w) a = true) /\
      forall a, (owned w a -> exists k, events a (wtrace w) = cycles a k ++ [New a]) /\
                (~ owned w a -> exists k, events a (wtrace w) = cycles a k).
  Proof.
    intros [env S] U. destruct (run_unshared h world0 env inv0 S U) as [w [E [_ [[V _] [ND I]]]]]. exists w. split; [exact E|].
    split; [exact ND|]. assert (O : forall a, owned w a <-> holds (wtrace w) a = true) by (intros a; rewrite owned_in; apply I).
    split; [exact O|]. intros a. destruct (vtrace_events _ a V) as [k Ek]. split.
    - intros Oa. apply O in Oa. rewrite Oa in Ek. exists k. exact Ek.
    - intros N. exists k. rewrite Ek. destruct (holds (wtrace w) a) eqn:H; [exfalso; apply N, O, H|apply app_nil_r].
  Qed.

  Lemma count_curves l : Forall (fun o => match o with Some x => length (optrs x) = curves (okind x) | None => True end) l ->
    length (flat_map fp l) = (length (filter (fun o => match o with Some _ => true | None => false end) (map (option_map okind) l)) +
      length (filter (fun o => match o with Some KPuda => true | _ => false end) (map (option_map okind) l)))%nat.
  Proof.
    induction l as [|o l IH]; intros H; [reflexivity|]. inversion H as [|? ? Ho Hl]; subst. cbn [flat_map map filter].
    rewrite app_length, (IH Hl). destruct o as [[k ps]|]; cbn [option_map okind optrs fp length] in *; [|reflexivity].
    rewrite Ho. destruct k; cbn [curves length]; lia.
  Qed.
  Lemma L_C56_number h env : srun [] h = Some env -> unshared h ->
    exists w l, orun alloc world0 h = Ok w /\ NoDup l /\ (forall a, In a l <-> holds (wtrace w) a = true) /\
      length l = (length (filter (fun o => match o with Some _ => true | None => false end) env) +
                  length (filter (fun o => match o with Some KPuda => true | _ => false end) env))%nat.
  Proof.
    intros S U. destruct (run_unshared h world0 env inv0 S U) as [w [E [K [[_ B] [ND I]]]]]. exists w, (pointers w).
    split; [exact E|]. split; [exact ND|]. split; [exact I|]. subst env. unfold kinds, pointers.
    assert (B' : Forall (fun o => match o with Some x => length (optrs x) = curves (okind x) | None => True end) (wobjs w)).
    { apply Forall_forall. intros o Ho. apply In_nth_error in Ho. destruct Ho as [i Ho]. destruct o as [x|]; [exact (B i x Ho)|exact Logic.I]. }
    clear -B'. exact (count_curves _ B').
  Qed.

  Lemma L_C56_complete h : complete h -> unshared h ->
    exists w, orun alloc world0 h = Ok w /\ forall a, exists k, events a (wtrace w) = cycles a k.
  Proof.
    intros [env [S F]] U. destruct (run_unshared h world0 env inv0 S U) as [w [E [K [[V _] [ND I]]]]]. exists w. split; [exact E|].
    intros a. destruct (vtrace_events _ a V) as [k Ek]. exists k. rewrite Ek.
    destruct (holds (wtrace w) a) eqn:H; [|apply app_nil_r]. exfalso. apply I in H. rewrite <- K in F. rewrite (kinds_owned w F) in H. exact H.
  Qed.

  Lemma shares_dec o : shares o \/ ~ shares o.
  Proof. destruct o as [k|i|i j|i]; cbn; try tauto. destruct (Nat.eq_dec i j); tauto. Qed.
  Lemma run_shared h : forall w env', inv w -> srun (kinds w) h = Some env' -> ~ unshared h ->
    (exists w', orun alloc w h = Ok w' /\ kinds w' = env' /\ basic w' /\ (1 <= excess w' \/ (0 <= excess w' /\ leak w'))) \/
    orun alloc w h = Err DoubleFree.
  Proof.
    induction h as [|o h IH]; intros w env' I S U.
    - exfalso. apply U. constructor.
    - cbn [srun orun] in *. destruct (sstep (kinds w) o) as [e1|] eqn:E; [|discriminate S].
      destruct (step_all w o e1 (proj1 I) E) as [[w1 [-> A]]|[-> _]]; [|right; reflexivity]. cbn [bind].
      destruct A as [K1 [B1 [X1 [L1 [I1 SH]]]]]. rewrite <- K1 in S. pose proof (excess0 w I) as X0.
      destruct (shares_dec o) as [So|No].
      + destruct (run_all h w1 env' B1 S) as [[w' [-> [K' [B' [X' L']]]]]|R]; [left|right; exact R].
        exists w'. split; [reflexivity|]. split; [exact K'|]. split; [exact B'|].
        destruct (SH I So) as [H|H]; [left; lia|right]. split; [lia|]. apply L', H.
      + apply (IH w1 env' (I1 I No) S). intros U'. apply U. constructor; assumption.
  Qed.

  Lemma L_C56_shared h : complete h -> ~ unshared h -> orun alloc world0 h = Err DoubleFree.
  Proof.
    intros [env [S F]] U. destruct (run_shared h world0 env inv0 S U) as [[w [E [K [[V B] X]]]]|E]; [|exact E]. exfalso.
    rewrite <- K in F. apply kinds_owned in F. unfold excess, leak in X. rewrite F in X. cbn [length] in X.
    destruct X as [X|[X [a [Ha _]]]].
    - pose proof (vtrace_ge _ [] V (NoDup_nil Z) (fun a (H : In a []) => match H with end)) as G. cbn in G. lia.
    - assert (G : Z.of_nat (length [a]) <= ncur (wtrace w)).
      { apply vtrace_ge; [exact V|constructor; [intros []|constructor]|]. intros b [<-|[]]. exact Ha. }
      cbn in G. lia.
  Qed.

  Lemma orun_app h1 : forall w h2, orun alloc w (h1 ++ h2) = (do w' <- orun alloc w h1; orun alloc w' h2).
  Proof.
    induction h1 as [|o h1 IH]; intros w h2; [reflexivity|]. cbn [app orun]. destruct (ostep alloc w o); [|reflexivity]. cbn [bind]. apply IH.
  Qed.
  Lemma srun_app h1 : forall e h2 e2, srun e (h1 ++ h2) = Some e2 -> exists e1, srun e h1 = Some e1 /\ srun e1 h2 = Some e2.
  Proof.
    induction h1 as [|o h1 IH]; intros e h2 e2 S; [exists e; split; [reflexivity|exact S]|]. cbn [app srun] in *.
    destruct (sstep e o); [|discriminate S]. exact (IH _ _ _ S).
  Qed.
  (** a copy of a destroyed object *)
  Lemma L_C56_dangling h i w : program (h ++ [Copy i; Destroy i]) -> orun alloc world0 (h ++ [Copy i; Destroy i]) = Ok w ->
    exists l x, wobjs w = l ++ [Some x] /\ optrs x <> [] /\ forall a, In a (optrs x) -> holds (wtrace w) a = false.
  Proof.
    intros [env S] R. apply srun_app in S. destruct S as [e1 [S1 S2]]. rewrite orun_app in R.
    destruct (run_all h world0 e1 (proj1 inv0) S1) as [[w1 [E1 [K1 [[V B] _]]]]|E1]; rewrite E1 in R; [|discriminate R]. cbn [bind orun] in R.
    apply bindOk in R. destruct R as [w2 [E2 R]]. apply bindOk in R. destruct R as [w3 [E3 R]]. injection R as <-.
    cbn [ostep] in E2. destruct (nth_error (wobjs w1) i) as [[x|]|] eqn:Ex; try discriminate E2. injection E2 as <-.
    cbn [ostep wobjs wtrace] in E3.
    assert (Ex2 : nth_error (wobjs w1 ++ [Some x]) i = Some (Some x)).
    { rewrite nth_error_app1; [exact Ex|]. apply nth_error_Some. rewrite Ex. discriminate. }
    rewrite Ex2 in E3. apply bindOk in E3. destruct E3 as [tr [Ed E3]]. injection E3 as <-. cbn [wobjs wtrace].
    apply nth_error_split in Ex. destruct Ex as [l1 [l2 [El Ll]]].
    exists (l1 ++ None :: l2), x. split.
    { rewrite El, <- Ll, <- !app_assoc. cbn [app]. rewrite upd_split. reflexivity. }
    assert (P : (0 < length (optrs x))%nat).
    { rewrite (B i x); [apply curves_pos|]. rewrite El, <- Ll, nth_error_app2, Nat.sub_diag by lia. reflexivity. }
    split; [intros H; rewrite H in P; cbn in P; lia|].
    destruct (dels_ok _ _ _ Ed V) as [_ [_ [_ [Hd _]]]]. intros a Ha. apply not_true_is_false. intros H. apply Hd in H. apply H, Ha.
  Qed.
End Own.

(** two allocators: one never reuses an address, one reuses the last one given back *)
Fixpoint next (tr : list event) : Z :=
  match tr with [] => 1 | New a :: t | Del a :: t => Z.max (a + 1) (next t) end.
Definition reuse (tr : list event) : Z := match tr with Del a :: _ => a | _ => next tr end.
Lemma next_above tr a : holds tr a = true -> a < next tr.
Proof.
  induction tr as [|[x|x] tr IH]; cbn [holds next]; [discriminate| |].
  - rewrite orb_true_iff, Z.eqb_eq. intros [->|H]; [lia|specialize (IH H); lia].
  - rewrite andb_true_iff. intros [_ H]. specialize (IH H). lia.
Qed.
Lemma next_allocator : allocator next.
Proof. intros tr. apply not_true_is_false. intros H. apply next_above in H. lia. Qed.
Lemma reuse_allocator : allocator reuse.
Proof.
  intros tr. destruct tr as [|[a|a] tr]; try exact (next_allocator _). cbn [reuse holds]. rewrite Z.eqb_refl. reflexivity.
Qed.
