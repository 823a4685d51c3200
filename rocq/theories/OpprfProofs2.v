(** Proofs about shuffles, reuse and round numbers of the oblivious programmable PRF. *)
From Coq Require Import ZArith Bool List Lia Permutation.
From Verif Require Import Outcome FieldModel ZpField CurveParams EccModel SpecEcc DmeModel SpecDme OtModel SpecOt CrcModel AesModel OpprfModel SpecOpprf OpprfProofs.
Import ListNotations.
Open Scope Z_scope.

(** ** Related computations *)
Lemma alike_bind {A B A' B'} (R : A -> B -> Prop) (Q : A' -> B' -> Prop) r r' k k' :
  alike R r r' -> (forall a b, R a b -> alike Q (k a) (k' b)) -> alike Q (bind r k) (bind r' k').
Proof. intros H K. destruct r, r'; cbn in *; try contradiction; [apply K, H|exact H]. Qed.
Lemma alike_refl {A} (r : res A) : alike eq r r.
Proof. destruct r; reflexivity. Qed.
Lemma alike_same {A B A'} (Q : A -> B -> Prop) (r : res A') k k' :
  (forall a, alike Q (k a) (k' a)) -> alike Q (bind r k) (bind r k').
Proof. intros K. destruct r; cbn; [apply K|reflexivity]. Qed.
Lemma alike_eq {A} (r r' : res A) : alike eq r r' -> r = r'.
Proof. destruct r, r'; cbn; intros H; try contradiction; congruence. Qed.
Lemma alike_foldM {A S T} (R : S -> T -> Prop) (f : S -> A -> res S) (g : T -> A -> res T) l :
  (forall s t a, R s t -> alike R (f s a) (g t a)) -> forall s t, R s t -> alike R (foldM f l s) (foldM g l t).
Proof.
  intros H. induction l as [|a l IH]; intros s t K; [exact K|]. cbn [foldM]. apply (alike_bind R); [apply H, K|]. intros; apply IH; assumption.
Qed.

(** everything but gk, the ciphertexts kept by the OT object and surplus keys *)
Definition blank (S : server) : server :=
  mksrv (otsndr_new (sdme (ots S))) (scur S) (theta S) (ga S) (kopprf S) (sr S) (pt_inf CV)
    (firstn 16 (k_lt S)) (firstn 16 (k_eq S)) (firstn 16 (k_gt S)) (firstn 16 (ok S)) (Sl0 S) (Sl1 S) (Si0 S) (Si1 S).
(** ... and what prepareKeysAndInputs overwrites *)
Definition blank0 (S : server) : server :=
  mksrv (otsndr_new (sdme (ots S))) (scur S) (theta S) (ga S) (pt_inf CV) (pt_inf CV) (pt_inf CV) (k_lt S) (k_eq S) (k_gt S) (ok S)
    inputl_default inputl_default (Si0 S) (Si1 S).
Definition like (S T : server) : Prop := blank S = blank T.
Definition like0 (S T : server) : Prop := blank0 S = blank0 T.
Definition likec (C D : client) : Prop :=
  rdme (otr C) = rdme (otr D) /\ ccur C = ccur D /\ cx C = cx D /\ result C = result D /\ key C = key D.

Lemma mapM_same {A B} (f g : A -> res B) l : (forall a, In a l -> f a = g a) -> mapM f l = mapM g l.
Proof.
  intros H. induction l as [|x l IH]; [reflexivity|]. cbn. rewrite H by (left; reflexivity).
  rewrite IH by (intros a I; apply H; right; exact I). reflexivity.
Qed.
Lemma nth_error_ext {A} (l l' : list A) : (forall i, nth_error l i = nth_error l' i) -> l = l'.
Proof.
  revert l'. induction l as [|a l IH]; intros [|b l'] H; try reflexivity.
  - discriminate (H 0%nat).
  - discriminate (H 0%nat).
  - f_equal; [pose proof (H 0%nat) as E; cbn in E; congruence|]. apply IH. intros i. apply (H (S i)).
Qed.

Section Opprf2.
  Variables (dbg : bool) (live : Z -> bool) (e : env) (iv : list Z).

  Lemma like_fields S T : like S T -> sdme (ots S) = sdme (ots T) /\ scur S = scur T /\ theta S = theta T /\ ga S = ga T /\
    kopprf S = kopprf T /\ sr S = sr T /\ firstn 16 (k_lt S) = firstn 16 (k_lt T) /\ firstn 16 (k_eq S) = firstn 16 (k_eq T) /\
    firstn 16 (k_gt S) = firstn 16 (k_gt T) /\ firstn 16 (ok S) = firstn 16 (ok T) /\
    Sl0 S = Sl0 T /\ Sl1 S = Sl1 T /\ Si0 S = Si0 T /\ Si1 S = Si1 T.
  Proof.
    intros H.
    refine (conj (f_equal (fun s => sdme (ots s)) H) (conj (f_equal scur H) (conj (f_equal theta H) (conj (f_equal ga H)
     (conj (f_equal kopprf H) (conj (f_equal sr H) (conj (f_equal k_lt H) (conj (f_equal k_eq H) (conj (f_equal k_gt H) (conj (f_equal ok H)
     (conj (f_equal Sl0 H) (conj (f_equal Sl1 H) (conj (f_equal Si0 H) (f_equal Si1 H)))))))))))))).
  Qed.
  Lemma like0_fields S T : like0 S T -> sdme (ots S) = sdme (ots T) /\ scur S = scur T /\ theta S = theta T /\ ga S = ga T /\
    k_lt S = k_lt T /\ k_eq S = k_eq T /\ k_gt S = k_gt T /\ ok S = ok T /\ Si0 S = Si0 T /\ Si1 S = Si1 T.
  Proof.
    intros H.
    refine (conj (f_equal (fun s => sdme (ots s)) H) (conj (f_equal scur H) (conj (f_equal theta H) (conj (f_equal ga H)
     (conj (f_equal k_lt H) (conj (f_equal k_eq H) (conj (f_equal k_gt H) (conj (f_equal ok H)
     (conj (f_equal Si0 H) (f_equal Si1 H)))))))))).
  Qed.
  Lemma nth_firstn {A} (l : list A) k : forall i, (i < k)%nat -> nth_error (firstn k l) i = nth_error l i.
  Proof. revert l. induction k as [|k IH]; intros l i H; [lia|]. destruct l, i; cbn; try reflexivity. apply IH. lia. Qed.
  Lemma vat_firstn {A} (l l' : list A) i : firstn 16 l = firstn 16 l' -> i < 16 -> vat l i = vat l' i.
  Proof.
    intros E H. unfold vat. destruct (Z.ltb_spec i 0); [reflexivity|].
    rewrite <- (nth_firstn l 16), <- (nth_firstn l' 16), E by lia. reflexivity.
  Qed.

  Ltac fields H :=
    let a := fresh in pose proof H as a; apply like_fields in a;
    destruct a as [?E [?E [?E [?E [?E [?E [?E [?E [?E [?E [?E [?E [?E ?E]]]]]]]]]]]]].

  (** alike up to the rows *)
  Definition no_rows (S : server) : server := set_rows (blank S) [] [].
  Definition no_top (S : server) : server :=
    let B := no_rows S in
    mksrv (ots B) (scur B) (theta B) (ga B) (kopprf B) (sr B) (gk B) (k_lt B) (k_eq B) (k_gt B) (ok B) inputl_default inputl_default [] [].
  Lemma prep_top_like S T : no_top S = no_top T ->
    alike (fun S' T' => no_rows S' = no_rows T' /\ Si0 S' = Si0 S /\ Si1 S' = Si1 S /\ Si0 T' = Si0 T /\ Si1 T' = Si1 T)
      (prep_top dbg live S) (prep_top dbg live T).
  Proof.
    intros H. pose proof (f_equal (fun s => sdme (ots s)) H) as H0. pose proof (f_equal scur H) as H1. pose proof (f_equal theta H) as H2.
    pose proof (f_equal ga H) as H3. pose proof (f_equal kopprf H) as H4. pose proof (f_equal sr H) as H5. pose proof (f_equal k_lt H) as H6.
    pose proof (f_equal k_eq H) as H7. pose proof (f_equal k_gt H) as H8. pose proof (f_equal ok H) as H9.
    cbn [no_top no_rows blank set_rows otsndr_new sdme ots scur theta ga kopprf sr k_lt k_eq k_gt ok] in *.
    unfold prep_top, tbit. rewrite (vat_firstn (ok S) (ok T)) by (assumption || (unfold BITS, MSG_BITS; lia)).
    rewrite H2, H3, H5.
    do 4 (apply alike_same; intros ?).
    rewrite (vat_firstn (if negb (Z.land (theta T) (2 ^ Z.of_nat (MSG_BITS - 1)) =? 0) then k_lt S else k_eq S)
                        (if negb (Z.land (theta T) (2 ^ Z.of_nat (MSG_BITS - 1)) =? 0) then k_lt T else k_eq T))
      by ((destruct (negb _); assumption) || (unfold BITS, MSG_BITS; lia)).
    apply alike_same. intros ?.
    rewrite (vat_firstn (if negb (Z.land (theta T) (2 ^ Z.of_nat (MSG_BITS - 1)) =? 0) then k_eq S else k_gt S)
                        (if negb (Z.land (theta T) (2 ^ Z.of_nat (MSG_BITS - 1)) =? 0) then k_eq T else k_gt T))
      by ((destruct (negb _); assumption) || (unfold BITS, MSG_BITS; lia)).
    apply alike_same. intros ?.
    cbn [alike]. split; [|repeat split].
    unfold no_rows, blank, set_rows. cbn [ots scur theta ga kopprf sr k_lt k_eq k_gt ok Sl0 Sl1 Si0 Si1].
    rewrite ?H0, ?H1, ?H2, ?H3, ?H4, ?H5, ?H6, ?H7, ?H8, ?H9. reflexivity.
  Qed.


  Lemma prep_row_like S T j : no_rows S = no_rows T -> (j < 15)%nat -> prep_row dbg live e iv S j = prep_row dbg live e iv T j.
  Proof.
    intros H J. pose proof (f_equal theta H) as H2.
    pose proof (f_equal ga H) as H3. pose proof (f_equal sr H) as H5. pose proof (f_equal k_lt H) as H6.
    pose proof (f_equal k_eq H) as H7. pose proof (f_equal k_gt H) as H8. pose proof (f_equal ok H) as H9.
    cbn [no_rows blank set_rows ots scur theta ga kopprf sr k_lt k_eq k_gt ok] in *. unfold prep_row, tbit.
    rewrite (vat_firstn (k_lt S) (k_lt T)), (vat_firstn (k_lt S) (k_lt T) (Z.of_nat (Datatypes.S j) - 1)) by (assumption || lia).
    rewrite (vat_firstn (k_eq S) (k_eq T)), (vat_firstn (k_eq S) (k_eq T) (Z.of_nat (Datatypes.S j) - 1)) by (assumption || lia).
    rewrite (vat_firstn (k_gt S) (k_gt T)), (vat_firstn (k_gt S) (k_gt T) (Z.of_nat (Datatypes.S j) - 1)) by (assumption || lia).
    rewrite (vat_firstn (ok S) (ok T) (Z.of_nat (Datatypes.S j) - 1)) by (assumption || lia).
    rewrite H2, H3, H5. reflexivity.
  Qed.

  (** rows that agree at 0 and above [k] *)
  Definition agree {A} (k : nat) (l l' : list A) : Prop :=
    length l = length l' /\ forall i, (i = 0 \/ k < i)%nat -> nth_error l i = nth_error l' i.
  Lemma agree_refl {A} k (l : list A) : agree k l l.
  Proof. split; reflexivity. Qed.
  Lemma nth_update {A} (l : list A) j a i : (j < length l)%nat ->
    nth_error (firstn j l ++ a :: skipn (S j) l) i = if (i =? j)%nat then Some a else nth_error l i.
  Proof.
    revert l i. induction j as [|j IH]; intros l i H; destruct l as [|y l]; cbn [length] in H; try lia.
    - destruct i; reflexivity.
    - destruct i; [reflexivity|]. cbn [firstn skipn app nth_error]. rewrite IH by lia. reflexivity.
  Qed.
  Lemma vset_agree {A} (l l' : list A) j a : agree (S j) l l' -> alike (agree j) (vset l (S j) a) (vset l' (S j) a).
  Proof.
    intros [L H]. unfold vset. rewrite L. destruct (Nat.ltb_spec (S j) (length l')) as [K|]; [|reflexivity].
    cbn [alike]. split.
    - rewrite !app_length. cbn [length]. rewrite !firstn_length, !skipn_length, L. reflexivity.
    - intros i I. rewrite !nth_update by (rewrite ?L; exact K). destruct (Nat.eqb_spec i (S j)); [reflexivity|]. apply H. lia.
  Qed.
  Lemma agree_0 {A} (l l' : list A) : agree 0 l l' -> l = l'.
  Proof.
    intros [L H]. apply nth_error_ext. intros i. apply H. lia.
  Qed.
  Definition upto (k : nat) (S T : server) : Prop :=
    no_rows S = no_rows T /\ agree k (Si0 S) (Si0 T) /\ agree k (Si1 S) (Si1 T).

  Lemma prep_step_upto S T j : upto (Datatypes.S j) S T -> (j < 15)%nat ->
    alike (upto j) (prep_step dbg live e iv S j) (prep_step dbg live e iv T j).
  Proof.
    intros [H [A B]] J. unfold prep_step. rewrite (prep_row_like S T j H J). apply alike_same. intros r.
    apply (alike_bind (agree j)); [apply vset_agree, A|]. intros s0 t0 A0.
    apply (alike_bind (agree j)); [apply vset_agree, B|]. intros s1 t1 B1.
    split; [exact H|]. split; [exact A0|exact B1].
  Qed.
  Lemma upto_like S T : upto 0 S T -> like S T.
  Proof.
    intros [H [A B]]. apply agree_0 in A, B. unfold like. unfold no_rows, set_rows in H.
    pose proof (f_equal (fun s => sdme (ots s)) H) as H0. pose proof (f_equal scur H) as H1. pose proof (f_equal theta H) as H2.
    pose proof (f_equal ga H) as H3. pose proof (f_equal kopprf H) as H4. pose proof (f_equal sr H) as H5. pose proof (f_equal k_lt H) as H6.
    pose proof (f_equal k_eq H) as H7. pose proof (f_equal k_gt H) as H8. pose proof (f_equal ok H) as H9.
    pose proof (f_equal Sl0 H) as G0. pose proof (f_equal Sl1 H) as G1.
    cbn [blank otsndr_new sdme ots scur theta ga kopprf sr k_lt k_eq k_gt ok Sl0 Sl1] in *. unfold blank.
    rewrite H0, H1, H2, H3, H4, H5, H6, H7, H8, H9, G0, G1, A, B. reflexivity.
  Qed.
  Lemma prep_steps_like k : (k <= 15)%nat -> forall S T, upto k S T ->
    alike like (foldM (prep_step dbg live e iv) (rev (seq 0 k)) S) (foldM (prep_step dbg live e iv) (rev (seq 0 k)) T).
  Proof.
    induction k as [|k IH]; intros K S T U.
    - cbn. apply upto_like, U.
    - rewrite seq_S, rev_app_distr. cbn [rev app foldM]. replace (0 + k)%nat with k by lia.
      apply (alike_bind (upto k)); [apply prep_step_upto; [exact U|lia]|]. intros S' T' U'. apply IH; [lia|exact U'].
  Qed.

  (** servers before prepareKeysAndInputs: the keys already there matter, of the rows only row 0 *)
  Definition before (S T : server) (d d' : prep_draws) : Prop :=
    sdme (ots S) = sdme (ots T) /\ scur S = scur T /\ theta S = theta T /\ ga S = ga T /\
    d_kopprf d = d_kopprf d' /\ d_r d = d_r d' /\
    firstn 16 (k_lt S ++ map (d_lt d) (seq 0 16)) = firstn 16 (k_lt T ++ map (d_lt d') (seq 0 16)) /\
    firstn 16 (k_eq S ++ map (d_eq d) (seq 0 16)) = firstn 16 (k_eq T ++ map (d_eq d') (seq 0 16)) /\
    firstn 16 (k_gt S ++ map (d_gt d) (seq 0 16)) = firstn 16 (k_gt T ++ map (d_gt d') (seq 0 16)) /\
    agree 15 (Si0 S) (Si0 T) /\ agree 15 (Si1 S) (Si1 T).

  Lemma prepare_alike S T d d' : before S T d d' ->
    (forall o o', mapM (fun j => getRandomScalar live CV (scur T) (d_ok d j)) (seq 0 16) = Ok o ->
       mapM (fun j => getRandomScalar live CV (scur T) (d_ok d' j)) (seq 0 16) = Ok o' -> firstn 16 (ok S ++ o) = firstn 16 (ok T ++ o')) ->
    alike like (prepareKeysAndInputs dbg live e iv S d) (prepareKeysAndInputs dbg live e iv T d').
  Proof.
    intros [H0 [H1 [H2 [H3 [H4 [H5 [H6 [H7 [H8 [A B]]]]]]]]]] HO.
    unfold prepareKeysAndInputs, MSG_BITS. rewrite H1, H4, H5. do 2 (apply alike_same; intros ?).
    apply (alike_bind (fun o o' => firstn 16 (ok S ++ o) = firstn 16 (ok T ++ o'))).
    - assert (G : forall (f : nat -> Z) l, mapM (fun j => getRandomScalar live CV (scur T) (f j)) l =
          match deref live CV (scur T) with Ok _ => Ok (map (fun j => fe_new FIELD_n (f j)) l) | Err g => match l with [] => Ok [] | _ => Err g end end).
      { intros f l. induction l as [|j l IH]; [cbn; destruct (deref live CV (scur T)); reflexivity|]. cbn [mapM map]. unfold getRandomScalar at 1.
        destruct (deref live CV (scur T)) as [c|g]; cbn [bind]; [|reflexivity]. rewrite IH. reflexivity. }
      pose proof (HO) as HO'. rewrite !G in *. destruct (deref live CV (scur T)); [|reflexivity]. apply HO'; reflexivity.
    - intros o o' HO'. cbv zeta. eapply alike_bind.
      + apply prep_top_like. unfold no_top, no_rows, blank, set_rows. cbn [ots scur theta ga kopprf sr k_lt k_eq k_gt ok].
        rewrite ?H0, ?H1, ?H2, ?H3, ?H6, ?H7, ?H8, ?HO'. reflexivity.
      + intros S' T' [N [R0 [R1 [R2 R3]]]]. apply prep_steps_like; [lia|]. split; [exact N|].
        rewrite R0, R1, R2, R3. cbn [Si0 Si1]. split; assumption.
  Qed.

  Lemma prepare_like S T d : like0 S T -> alike like (prepareKeysAndInputs dbg live e iv S d) (prepareKeysAndInputs dbg live e iv T d).
  Proof.
    intros H. apply like0_fields in H. destruct H as [H0 [H1 [H2 [H3 [H4 [H5 [H6 [H7 [H8 H9]]]]]]]]].
    apply prepare_alike.
    - unfold before. rewrite H4, H5, H6, H8, H9. repeat split; assumption.
    - intros o o' E E'. rewrite E in E'. apply Ok_inj in E'. subst o'. rewrite H7. reflexivity.
  Qed.

  Lemma encMsgsZ_like o o' pk m0 m1 s0 t0 s1 t1 : sdme o = sdme o' ->
    encMsgsZ dbg live o pk m0 m1 s0 t0 s1 t1 = encMsgsZ dbg live o' pk m0 m1 s0 t0 s1 t1.
  Proof. intros H. unfold encMsgsZ. rewrite H. reflexivity. Qed.
  Lemma encMsgs_like o o' pk m0 m1 s0 t0 s1 t1 : sdme o = sdme o' ->
    encMsgs dbg live o pk m0 m1 s0 t0 s1 t1 = encMsgs dbg live o' pk m0 m1 s0 t0 s1 t1.
  Proof. intros H. unfold encMsgs. rewrite H. reflexivity. Qed.
  Lemma set_ots_like S T o : like S T -> like (set_ots S o) (set_ots T o).
  Proof.
    intros H. fields H. unfold like, blank, set_ots. cbn [ots scur theta ga kopprf sr k_lt k_eq k_gt ok Sl0 Sl1 Si0 Si1].
    rewrite E0, E1, E2, E3, E4, E5, E6, E7, E8, E9, E10, E11, E12. reflexivity.
  Qed.
  Definition likex {A} (a b : server * A) : Prop := like (fst a) (fst b) /\ snd a = snd b.
  Lemma encZ_like S T pk m0 m1 q : like S T -> alike likex (encZ dbg live S pk m0 m1 q) (encZ dbg live T pk m0 m1 q).
  Proof.
    intros H. unfold encZ. rewrite (encMsgsZ_like (ots S) (ots T)) by (apply (like_fields _ _ H)).
    apply alike_same. intros r. split; [apply set_ots_like, H|reflexivity].
  Qed.
  Lemma encP_like S T pk m0 m1 q : like S T -> alike likex (encP dbg live S pk m0 m1 q) (encP dbg live T pk m0 m1 q).
  Proof.
    intros H. unfold encP. rewrite (encMsgs_like (ots S) (ots T)) by (apply (like_fields _ _ H)).
    apply alike_same. intros r. split; [apply set_ots_like, H|reflexivity].
  Qed.
  Lemma runOTRound_like S T round pk qa qb qc qp u v : like S T ->
    alike likex (runOTRound dbg live S round pk qa qb qc qp u v) (runOTRound dbg live T round pk qa qb qc qp u v).
  Proof.
    intros H. fields H. unfold runOTRound. destruct (round =? BITS).
    - rewrite E9, E10. apply (alike_bind likex); [apply encZ_like, H|]. intros a b [L1 M1].
      apply (alike_bind likex); [apply encP_like, L1|]. intros p q [L2 M2]. split; [exact L2|cbn; congruence].
    - rewrite E11, E12. apply alike_same. intros r0. apply alike_same. intros r1.
      apply (alike_bind likex); [apply encZ_like, H|]. intros a a' [L1 M1].
      apply (alike_bind likex); [apply encZ_like, L1|]. intros b b' [L2 M2].
      apply (alike_bind likex); [apply encZ_like, L2|]. intros c c' [L3 M3].
      apply (alike_bind likex); [apply encP_like, L3|]. intros p p' [L4 M4]. split; [exact L4|cbn; congruence].
  Qed.
  Lemma masks_like S T d u v : like S T -> sendEncryptedMasks dbg live e iv S d u v = sendEncryptedMasks dbg live e iv T d u v.
  Proof.
    intros H. fields H. unfold sendEncryptedMasks.
    rewrite (vat_firstn (ok S) (ok T)), (vat_firstn (k_lt S) (k_lt T)), (vat_firstn (k_eq S) (k_eq T)), (vat_firstn (k_gt S) (k_gt T)) by (assumption || lia).
    assert (M : mapM (fun j => vat (ok S) (Z.of_nat j)) (seq 1 (MSG_BITS - 1)) = mapM (fun j => vat (ok T) (Z.of_nat j)) (seq 1 (MSG_BITS - 1))).
    { apply mapM_same. intros j I. apply in_seq in I. apply vat_firstn; [assumption|]. unfold MSG_BITS in I. lia. }
    rewrite M, E0, E3, E4. reflexivity.
  Qed.

  Lemma start_like C D round d : likec C D -> runOTRound_start dbg live C round d = runOTRound_start dbg live D round d.
  Proof. intros [H1 [H2 [H3 [H4 H5]]]]. unfold runOTRound_start, selectMsg. rewrite H1, H2, H3, H4, H5. reflexivity. Qed.
  Lemma likec_refl C : likec C C.
  Proof. repeat split. Qed.

  Lemma one_round_like S T C D r : like S T -> likec C D ->
    alike (fun a b => like (fst a) (fst b) /\ likec (snd a) (snd b)) (one_round dbg live e iv (S, C) r) (one_round dbg live e iv (T, D) r).
  Proof.
    intros H K. unfold one_round. cbn [fst snd]. rewrite (start_like C D) by exact K. apply alike_same. intros c.
    apply (alike_bind likex); [apply runOTRound_like, H|]. intros s t [L M]. rewrite M. apply alike_same. intros c'.
    split; [exact L|apply likec_refl].
  Qed.

  Lemma unmask_like C D ms d : likec C D -> alike likec (unmaskResult dbg live e iv C ms d) (unmaskResult dbg live e iv D ms d).
  Proof.
    intros [H1 [H2 [H3 [H4 H5]]]]. unfold unmaskResult. rewrite H2, H4, H5. apply alike_same. intros [x|].
    - do 3 (apply alike_same; intros ?). repeat split; assumption.
    - destruct dbg; reflexivity.
  Qed.

  Definition same_rest (d d' : session_draws) : Prop :=
    sd_round d = sd_round d' /\ sd_random d = sd_random d' /\ sd_u d = sd_u d' /\ sd_v d = sd_v d' /\ sd_mask d = sd_mask d'.
  Lemma session_alike S T C D d d' :
    alike like (prepareKeysAndInputs dbg live e iv S (sd_prep d)) (prepareKeysAndInputs dbg live e iv T (sd_prep d')) ->
    same_rest d d' -> likec C D ->
    alike (fun a b => like (fst a) (fst b) /\ likec (snd a) (snd b)) (session dbg live e iv S C d) (session dbg live e iv T D d').
  Proof.
    intros H [R1 [R2 [R3 [R4 R5]]]] K. unfold session. rewrite R1, R2, R3, R4, R5. apply (alike_bind like); [exact H|]. intros S1 T1 L1.
    eapply alike_bind.
    - apply (alike_foldM (fun a b => like (fst a) (fst b) /\ likec (snd a) (snd b))).
      + intros [s c] [t c'] a [A B]. apply one_round_like; assumption.
      + split; assumption.
    - intros [S2 C2] [T2 D2] [L2 K2]. cbn [fst snd] in *. rewrite (masks_like S2 T2) by exact L2. apply alike_same. intros ms.
      apply (alike_bind likec); [apply unmask_like, K2|]. intros C3 D3 K3. split; assumption.
  Qed.

  (** evaluations of servers and clients that differ only in what the previous evaluation left behind *)
  Lemma session_like S T C D d : like0 S T -> likec C D ->
    alike (fun a b => like (fst a) (fst b) /\ likec (snd a) (snd b)) (session dbg live e iv S C d) (session dbg live e iv T D d).
  Proof.
    intros H K. apply session_alike; [|repeat split|exact K]. apply prepare_like, H.
  Qed.

  (** ** Histories *)
  Definition config (S : server) : dme * option Z * Z * point := (sdme (ots S), scur S, theta S, ga S).
  Definition rowsok (S : server) : Prop := length (Si0 S) = 16%nat /\ length (Si1 S) = 16%nat.

  Lemma vset_length {A} (l l' : list A) i a : vset l i a = Ok l' -> length l' = length l.
  Proof.
    unfold vset. destruct (Nat.ltb_spec i (length l)); [|discriminate]. intros E. apply Ok_inj in E. subst l'.
    rewrite app_length. cbn [length]. rewrite firstn_length, skipn_length. lia.
  Qed.
  Ltac inv H := let a := fresh "v" in let E := fresh "Q" in apply bind_Ok in H; destruct H as [a [E H]].

  Lemma prep_step_keeps S j S' : prep_step dbg live e iv S j = Ok S' ->
    config S' = config S /\ length (Si0 S') = length (Si0 S) /\ length (Si1 S') = length (Si1 S).
  Proof.
    unfold prep_step. intros H. inv H. inv H. inv H. apply Ok_inj in H. subst S'. split; [reflexivity|].
    cbn [Si0 Si1 set_rows]. split; eapply vset_length; eassumption.
  Qed.
  Lemma prep_steps_keep l : forall S S', foldM (prep_step dbg live e iv) l S = Ok S' ->
    config S' = config S /\ length (Si0 S') = length (Si0 S) /\ length (Si1 S') = length (Si1 S).
  Proof.
    induction l as [|j l IH]; intros S S' H; cbn [foldM] in H.
    - apply Ok_inj in H. subst. repeat split.
    - inv H. apply prep_step_keeps in Q. apply IH in H. destruct Q as [Q1 [Q2 Q3]], H as [P1 [P2 P3]]. repeat split; congruence.
  Qed.
  Lemma prepare_keeps S d S' : prepareKeysAndInputs dbg live e iv S d = Ok S' ->
    config S' = config S /\ length (Si0 S') = length (Si0 S) /\ length (Si1 S') = length (Si1 S).
  Proof.
    unfold prepareKeysAndInputs. intros H. do 3 inv H. inv H. apply prep_steps_keep in H.
    unfold prep_top in Q2. do 6 inv Q2. apply Ok_inj in Q2. subst v2. exact H.
  Qed.
  Lemma encMsgsZ_keeps o pk m0 m1 s0 t0 s1 t1 r : encMsgsZ dbg live o pk m0 m1 s0 t0 s1 t1 = Ok r -> sdme (fst r) = sdme o.
  Proof. unfold encMsgsZ. intros H. do 2 inv H. apply Ok_inj in H. subst r. reflexivity. Qed.
  Lemma encMsgs_keeps o pk m0 m1 s0 t0 s1 t1 r : encMsgs dbg live o pk m0 m1 s0 t0 s1 t1 = Ok r -> sdme (fst r) = sdme o.
  Proof. unfold encMsgs. intros H. do 2 inv H. apply Ok_inj in H. subst r. reflexivity. Qed.
  Lemma encZ_keeps S pk m0 m1 q r : encZ dbg live S pk m0 m1 q = Ok r -> like (fst r) S.
  Proof.
    unfold encZ. intros H. inv H. apply Ok_inj in H. subst r. apply encMsgsZ_keeps in Q.
    unfold like, blank, set_ots. cbn [fst ots scur theta ga kopprf sr k_lt k_eq k_gt ok Sl0 Sl1 Si0 Si1]. rewrite Q. reflexivity.
  Qed.
  Lemma encP_keeps S pk m0 m1 q r : encP dbg live S pk m0 m1 q = Ok r -> like (fst r) S.
  Proof.
    unfold encP. intros H. inv H. apply Ok_inj in H. subst r. apply encMsgs_keeps in Q.
    unfold like, blank, set_ots. cbn [fst ots scur theta ga kopprf sr k_lt k_eq k_gt ok Sl0 Sl1 Si0 Si1]. rewrite Q. reflexivity.
  Qed.
  Lemma runOTRound_keeps S round pk qa qb qc qp u v r : runOTRound dbg live S round pk qa qb qc qp u v = Ok r -> like (fst r) S.
  Proof.
    unfold runOTRound. destruct (round =? BITS); intros H.
    - inv H. inv H. apply Ok_inj in H. subst r. cbn [fst]. apply encZ_keeps in Q. apply encP_keeps in Q0. unfold like in *. congruence.
    - do 6 inv H. apply Ok_inj in H. subst r. cbn [fst]. apply encZ_keeps in Q1, Q2, Q3. apply encP_keeps in Q4. unfold like in *. congruence.
  Qed.
  Lemma like_config S T : like S T -> config S = config T /\ length (Si0 S) = length (Si0 T) /\ length (Si1 S) = length (Si1 T).
  Proof. intros H. fields H. unfold config. repeat split; congruence. Qed.

  Lemma happens_keeps S C v S' C' : happens dbg live e iv (S, C) v = Ok (S', C') ->
    (config S' = config S /\ (rowsok S -> rowsok S')) /\ rdme (otr C') = rdme (otr C) /\ ccur C' = ccur C.
  Proof.
    unfold rowsok. destruct v; cbn [happens]; intros H.
    - inv H. apply Ok_inj in H. assert (v = S' /\ C = C') as [-> <-] by (split; congruence).
      apply prepare_keeps in Q. destruct Q as [A [B D]]. rewrite B, D. tauto.
    - inv H. apply Ok_inj in H. assert (fst v0 = S' /\ C = C') as [<- <-] by (split; congruence).
      apply runOTRound_keeps, like_config in Q. destruct Q as [A [B D]]. rewrite B, D. tauto.
    - inv H. apply Ok_inj in H. assert (S = S' /\ C = C') as [<- <-] by (split; congruence). tauto.
    - inv H. apply Ok_inj in H. assert (v = S' /\ C = C') as [-> <-] by (split; congruence).
      unfold server_clean in Q. inv Q. apply Ok_inj in Q. subst S'. cbn [Si0 Si1]. unfold fresh_rows. rewrite repeat_length. repeat split.
    - apply Ok_inj in H. assert (S = S' /\ setMessage C x = C') as [<- <-] by (split; congruence). cbn. tauto.
    - inv H. apply Ok_inj in H. assert (S = S' /\ fst v = C') as [<- <-] by (split; congruence).
      unfold runOTRound_start in Q. destruct (cx C); [|discriminate Q]. inv Q. inv Q. apply Ok_inj in Q. subst v. cbn [fst otr ccur].
      unfold selectMsg in Q1. inv Q1. apply Ok_inj in Q1. subst v1. cbn [fst rdme]. tauto.
    - inv H. apply Ok_inj in H. assert (S = S' /\ v = C') as [<- <-] by (split; congruence).
      unfold runOTRound_end in Q. do 3 inv Q. apply Ok_inj in Q. subst v. cbn [otr ccur]. tauto.
    - inv H. apply Ok_inj in H. assert (S = S' /\ v = C') as [<- <-] by (split; congruence).
      unfold unmaskResult in Q. inv Q. destruct v0; [|destruct dbg; discriminate Q]. do 3 inv Q. apply Ok_inj in Q. subst v. cbn [otr ccur]. tauto.
    - apply Ok_inj in H. assert (S = S' /\ client_clean C = C') as [<- <-] by (split; congruence). cbn. tauto.
  Qed.

  Lemma history_keeps l : forall S C S' C', history dbg live e iv l (S, C) = Ok (S', C') ->
    (config S' = config S /\ (rowsok S -> rowsok S')) /\ rdme (otr C') = rdme (otr C) /\ ccur C' = ccur C.
  Proof.
    unfold history. induction l as [|v l IH]; intros S C S' C' H; cbn [foldM] in H.
    - apply Ok_inj in H. assert (S = S' /\ C = C') as [<- <-] by (split; congruence). tauto.
    - inv H. destruct v0 as [S1 C1]. apply happens_keeps in Q. apply IH in H. destruct Q as [[A1 A2] [B1 D1]], H as [[A3 A4] [B2 D2]].
      repeat split; try congruence; intros; apply A4, A2; assumption.
  Qed.

  Lemma clean_like0 S0 S g S' : fresh_server S0 -> config S = config S0 -> server_clean dbg live S g = Ok S' -> like0 S' S0.
  Proof.
    intros [F1 [F2 [F3 [F4 [F5 F6]]]]] CF H. unfold server_clean in H. inv H. apply Ok_inj in H. subst S'.
    pose proof (f_equal (fun t => fst (fst (fst t))) CF) as H0. pose proof (f_equal (fun t => snd (fst (fst t))) CF) as H1.
    pose proof (f_equal (fun t => snd (fst t)) CF) as H2. pose proof (f_equal snd CF) as H3. cbn [config fst snd] in H0, H1, H2, H3.
    unfold like0, blank0. cbn [ots scur theta ga kopprf sr k_lt k_eq k_gt ok Sl0 Sl1 Si0 Si1].
    rewrite H0, H1, H2, H3, F1, F2, F3, F4, F5, F6. reflexivity.
  Qed.

  Lemma L_C53_clean c c' th crs g0 N P S0 P' l S C g S' x d :
    server_new dbg live c th crs g0 = Ok N -> setSecret dbg live N P = Ok (S0, P') ->
    history dbg live e iv l (S0, client_new c' crs) = Ok (S, C) -> server_clean dbg live S g = Ok S' ->
    alike same_outcome (session dbg live e iv S' (setMessage (client_clean C) x) d)
                       (session dbg live e iv S0 (setMessage (client_new c' crs) x) d).
  Proof.
    intros HN HS HH HC. apply history_keeps in HH. destruct HH as [[CF _] [R1 R2]].
    assert (F : fresh_server S0).
    { unfold server_new in HN. inv HN. apply Ok_inj in HN. subst N.
      unfold setSecret in HS. inv HS. inv HS. apply Ok_inj in HS.
      apply (f_equal fst) in HS. cbn [fst] in HS. subst S0. repeat split. }
    pose proof (session_like S' S0 (setMessage (client_clean C) x) (setMessage (client_new c' crs) x) d
                  (clean_like0 _ _ _ _ F CF HC)) as L.
    assert (K : likec (setMessage (client_clean C) x) (setMessage (client_new c' crs) x)).
    { unfold likec, setMessage, client_clean. cbn [otr ccur cx result key]. rewrite R1, R2. repeat split. }
    specialize (L K). destruct (session dbg live e iv S' _ d) as [[S1 C1]|], (session dbg live e iv S0 _ d) as [[S2 C2]|]; cbn [alike fst snd] in *; try exact L.
    destruct L as [L [_ [_ [_ [K1 K2]]]]]. unfold same_outcome. cbn [fst snd]. split; [exact K1|]. split; [exact K2|]. apply (like_fields _ _ L).
  Qed.

  Lemma alike_outcome r r' : alike (fun a b => like (fst a) (fst b) /\ likec (snd a) (snd b)) r r' -> alike same_outcome r r'.
  Proof.
    destruct r as [[S1 C1]|], r' as [[S2 C2]|]; cbn [alike fst snd]; try tauto.
    intros [L [_ [_ [_ [K1 K2]]]]]. unfold same_outcome. cbn [fst snd]. split; [exact K1|]. split; [exact K2|]. apply (like_fields _ _ L).
  Qed.

  (** ** Preparing twice *)
  Definition keyparts (S : server) := (k_lt S, k_eq S, k_gt S, ok S).
  Lemma vset_0 {A} (l l' : list A) j a : vset l (S j) a = Ok l' -> nth_error l' 0 = nth_error l 0.
  Proof.
    unfold vset. destruct (Nat.ltb_spec (S j) (length l)); [|discriminate]. intros E. apply Ok_inj in E. subst l'.
    rewrite nth_update by assumption. reflexivity.
  Qed.
  Lemma prep_steps_keys l : forall S S', foldM (prep_step dbg live e iv) l S = Ok S' ->
    keyparts S' = keyparts S /\ nth_error (Si0 S') 0 = nth_error (Si0 S) 0 /\ nth_error (Si1 S') 0 = nth_error (Si1 S) 0.
  Proof.
    induction l as [|j l IH]; intros S S' H; cbn [foldM] in H.
    - apply Ok_inj in H. subst. repeat split.
    - inv H. apply IH in H. destruct H as [P1 [P2 P3]]. unfold prep_step in Q. do 3 inv Q. apply Ok_inj in Q. subst v.
      cbn [Si0 Si1 set_rows] in *. apply vset_0 in Q1, Q2. split; [exact P1|]. split; congruence.
  Qed.
  Lemma prepare_keys S d S' : prepareKeysAndInputs dbg live e iv S d = Ok S' ->
    exists o, mapM (fun j => getRandomScalar live CV (scur S) (d_ok d j)) (seq 0 16) = Ok o /\
      k_lt S' = k_lt S ++ map (d_lt d) (seq 0 16) /\ k_eq S' = k_eq S ++ map (d_eq d) (seq 0 16) /\
      k_gt S' = k_gt S ++ map (d_gt d) (seq 0 16) /\ ok S' = ok S ++ o /\
      nth_error (Si0 S') 0 = nth_error (Si0 S) 0 /\ nth_error (Si1 S') 0 = nth_error (Si1 S) 0.
  Proof.
    unfold prepareKeysAndInputs, MSG_BITS. intros H. do 3 inv H. inv H. apply prep_steps_keys in H. destruct H as [K [N0 N1]].
    unfold prep_top in Q2. do 6 inv Q2. apply Ok_inj in Q2. subst v2. exists v1. split; [exact Q1|].
    cbn [keyparts k_lt k_eq k_gt ok Si0 Si1] in *. unfold keyparts in K. cbn [k_lt k_eq k_gt ok] in K.
    repeat split; congruence.
  Qed.
  Lemma mapM_length {A B} (f : A -> res B) l r : mapM f l = Ok r -> length r = length l.
  Proof.
    revert r. induction l as [|a l IH]; intros r H; cbn [mapM] in H; [apply Ok_inj in H; subst; reflexivity|].
    inv H. inv H. apply Ok_inj in H. subst r. cbn [length]. rewrite (IH _ Q0). reflexivity.
  Qed.
  Lemma firstn_same {A} (l l1 : list A) : length l = 16%nat -> firstn 16 (l ++ l1) = firstn 16 ([] ++ l).
  Proof. intros L. rewrite firstn_app, L. cbn [Nat.sub app]. rewrite firstn_O, app_nil_r. reflexivity. Qed.

  Lemma L_C53_twice S0 S1 C d1 d : fresh_server S0 -> prepareKeysAndInputs dbg live e iv S0 d1 = Ok S1 ->
    alike same_outcome (session dbg live e iv S1 C d) (session dbg live e iv S0 C (with_prep d (keep_keys d1 (sd_prep d)))).
  Proof.
    intros [F1 [F2 [F3 [F4 [F5 F6]]]]] H. apply alike_outcome. apply session_alike; [|repeat split|apply likec_refl].
    pose proof (prepare_keeps _ _ _ H) as [CF [L0 L1]]. apply prepare_keys in H. destruct H as [o [EO [K1 [K2 [K3 [K4 [N0 N1]]]]]]].
    unfold config in CF. cbn [with_prep sd_prep].
    assert (LM : forall (f : nat -> Z), length (map f (seq 0 16)) = 16%nat) by (intros f; rewrite map_length, seq_length; reflexivity).
    apply prepare_alike.
    - unfold before, keep_keys. cbn [d_kopprf d_r d_lt d_eq d_gt d_ok]. rewrite K1, K2, K3, F1, F2, F3.
      repeat (match goal with |- _ /\ _ => split end); try congruence; try (apply firstn_same, LM).
      + split; [exact L0|]. intros i [->|I]; [exact N0|]. rewrite F5 in L0 |- *. unfold fresh_rows in *. rewrite repeat_length in L0. unfold MSG_BITS in *.
        rewrite !(proj2 (nth_error_None _ _)); [reflexivity|rewrite repeat_length; lia|lia].
      + split; [exact L1|]. intros i [->|I]; [exact N1|]. rewrite F6 in L1 |- *. unfold fresh_rows in *. rewrite repeat_length in L1. unfold MSG_BITS in *.
        rewrite !(proj2 (nth_error_None _ _)); [reflexivity|rewrite repeat_length; lia|lia].
    - cbn [keep_keys d_ok]. intros o1 o2 E1 E2. rewrite EO in E2. apply Ok_inj in E2. subst o2. rewrite K4, F4. cbn [app].
      apply (firstn_same o). rewrite (mapM_length _ _ _ EO). apply seq_length.
  Qed.
End Opprf2.
