(** Proofs about the byte buffers: what stays behind (C92). *)
From Coq Require Import ZArith Bool List Lia.
From Verif Require Import Outcome FieldModel CurveParams EccModel DmeModel OtModel CrcModel SpecCrc CrcProofs CrcProofs2 CrcProofs3 AesModel SpecAes AesProofs.
From Verif Require Import OpprfModel SpecOpprf OpprfProofs OpprfProofs2 OpprfProofs3 HeapModel SpecHeap HeapProofs.
Import ListNotations.
Open Scope Z_scope.

Section Heap2.
  Variable alloc : mem -> nat -> Z.
  Hypothesis AL : allocator alloc.

  Lemma getRaw_some n m r m' : n <> 0 -> getRaw_h alloc n m = Ok (r, m') -> r = (alloc m (length (getRawMpz n)), getRawMpz n) /\ m' = mkcell (fst r) (getRawMpz n) :: m.
  Proof.
    intros N E. unfold getRaw_h in E. cbv zeta in E. destruct (Z.eqb_spec (Z.of_nat (length (getRawMpz n))) 0) as [Z|Z].
    - exfalso. apply N, getRaw_nil. destruct (getRawMpz n); [reflexivity|cbn [length] in Z; lia].
    - apply Ok_inj in E. injection E as <- <-. split; reflexivity.
  Qed.
  Lemma getRaw_zero m : getRaw_h alloc 0 m = Ok ((0, []), m).
  Proof. reflexivity. Qed.

  Lemma raw_app n be w : n <> 0 -> getRawMpz (setRawMpz (getRawMpz n ++ obj32 be w)) = getRawMpz n ++ obj32 be w.
  Proof.
    intros N. rewrite setRaw_be. apply getRaw_unique. destruct (L_getRaw n) as [F [_ H]]. split; [apply Forall_app; split; [exact F|apply obj32_bytes]|]. split; [reflexivity|].
    intros b r E. destruct (getRawMpz n) as [|c l] eqn:G; [apply getRaw_nil in G; contradiction|]. cbn [app] in E. injection E as <- _. exact (H c l eq_refl).
  Qed.

  Lemma append_leaves be room addr n m r m' : appendCRC_h alloc be room n m = Ok (r, m') ->
    appendCRC be room addr n = Ok r /\ n <> 0 /\ (exists t, length t = 4%nat /\ getRawMpz r = getRawMpz n ++ t) /\ exists a, m' = mkcell a (getRawMpz r) :: m.
  Proof.
    intros E. pose proof (gives_append alloc be room addr n m) as V. rewrite E in V. unfold value in V. cbn [bind fst] in V. split; [symmetry; exact V|].
    unfold appendCRC_h in E. apply sbind_Ok in E. destruct E as [x [m1 [E1 E]]]. cbv zeta in E. apply sbind_Ok in E. destruct E as [w [m2 [E2 E]]]. apply lift_Ok in E2.
    destruct E2 as [E2 ->]. destruct (Z.eq_dec n 0) as [->|N]; [rewrite getRaw_zero in E1; apply Ok_inj in E1; injection E1 as <- <-; discriminate E|].
    split; [exact N|]. destruct (getRaw_some n m x m1 N E1) as [X ->]. rewrite X in *. cbn [fst snd] in *.
    destruct (Z.of_nat (length (getRawMpz n)) =? 0); [discriminate E|]. destruct (room _ <? _); [discriminate E|].
    apply sbind_Ok in E. destruct E as [u [m3 [E3 E]]]. apply lift_Ok in E. destruct E as [E ->]. apply Ok_inj in E. subst r.
    unfold write_h in E3. apply Ok_inj in E3. injection E3 as _ E3. cbn [map caddr] in E3. rewrite Z.eqb_refl in E3.
    rewrite raw_app by exact N. split; [exists (obj32 be w); split; [apply obj32_length|reflexivity]|].
    exists (alloc m (length (getRawMpz n))). rewrite <- E3. apply (f_equal2 cons); [reflexivity|].
    assert (LN : (0 < length (getRawMpz n))%nat) by (destruct (getRawMpz n) eqn:G; [apply getRaw_nil in G; contradiction|cbn; lia]).
    destruct (AL m (length (getRawMpz n)) LN) as [_ NI]. revert NI. generalize (alloc m (length (getRawMpz n))). intros a NI. clear -NI.
    induction m as [|c m IH]; [reflexivity|]. cbn [map]. cbn [map In] in NI. rewrite (proj2 (Z.eqb_neq (caddr c) a)) by tauto. rewrite IH by tauto. reflexivity.
  Qed.

  Section Cipher.
    Variables (e : env) (iv : list Z).

    Lemma crypt_leaves text k m p m' : crypt_h alloc e iv text k m = Ok (p, m') ->
      crypt e iv text k = Ok p /\ k <> 0 /\ (text = 0 -> p = 0) /\ exists a, (text = 0 /\ m' = mkcell a (getRawMpz k) :: m) \/ exists b, m' = mkcell a (getRawMpz k) :: mkcell b (getRawMpz text) :: m.
    Proof.
      intros E. pose proof (gives_crypt alloc e iv text k m) as V. rewrite E in V. unfold value in V. cbn [bind fst] in V. symmetry in V. split; [exact V|].
      assert (K : k <> 0). { intros ->. unfold crypt in V. cbv zeta in V. apply bind_Ok in V. destruct V as [kb [KB _]]. discriminate KB. }
      split; [exact K|]. split.
      { intros ->. unfold crypt in V. cbv zeta in V. apply bind_Ok in V. destruct V as [kb [_ V]]. apply bind_Ok in V. destruct V as [v [_ V]]. cbn in V. apply Ok_inj in V. symmetry. exact V. }
      unfold crypt_h in E. apply sbind_Ok in E. destruct E as [t [m1 [E1 E]]]. apply sbind_Ok in E. destruct E as [x [m2 [E2 E]]]. apply lift_Ok in E. destruct E as [_ ->].
      destruct (getRaw_some k m1 x m2 K E2) as [_ ->]. exists (fst x). destruct (Z.eq_dec text 0) as [->|N].
      - left. rewrite getRaw_zero in E1. apply Ok_inj in E1. injection E1 as _ <-. split; reflexivity.
      - right. destruct (getRaw_some text m t m1 N E1) as [_ ->]. exists (fst t). reflexivity.
    Qed.

    Lemma enc_leaves k p m c m' : encryptCRC_h alloc e iv k p m = Ok (c, m') ->
      exists msg t a1 a2 a3, appendCRC (big_endian_host e) (room e) (heap e) p = Ok msg /\ length t = 4%nat /\ getRawMpz msg = getRawMpz p ++ t /\
        m' = [mkcell a3 (getRawMpz k); mkcell a2 (getRawMpz msg); mkcell a1 (getRawMpz msg)] ++ m.
    Proof.
      intros E. unfold encryptCRC_h in E. apply sbind_Ok in E. destruct E as [msg [m1 [E1 E]]].
      destruct (append_leaves _ _ (heap e) _ _ _ _ E1) as [A [N [[t [LT T]] [a1 ->]]]]. destruct (crypt_leaves _ _ _ _ _ E) as [_ [_ [_ [a3 H]]]].
      assert (MZ : msg <> 0) by (intros ->; change (getRawMpz 0) with (@nil Z) in T; apply (f_equal (@length Z)) in T; rewrite app_length in T; cbn in T; lia).
      destruct H as [[H _]|[a2 ->]]; [contradiction|]. exists msg, t, a1, a2, a3. split; [exact A|]. split; [exact LT|]. split; [exact T|]. reflexivity.
    Qed.

    Lemma validate_leaves be addr n m b m' : validateCRC_h alloc be n m = Ok (b, m') ->
      validateCRC be addr n = Ok b /\ n <> 0 /\ exists a, m' = mkcell a (getRawMpz n) :: m.
    Proof.
      intros E. pose proof (gives_validate alloc be addr n m) as V. rewrite E in V. unfold value in V. cbn [bind fst] in V. split; [symmetry; exact V|].
      unfold validateCRC_h in E. apply sbind_Ok in E. destruct E as [x [m1 [E1 E]]]. cbv zeta in E.
      destruct (Z.eq_dec n 0) as [->|N]; [rewrite getRaw_zero in E1; apply Ok_inj in E1; injection E1 as <- <-; discriminate E|]. split; [exact N|].
      destruct (getRaw_some n m x m1 N E1) as [_ ->]. exists (fst x). destruct (Z.of_nat (length (snd x)) =? 0); [discriminate E|].
      do 4 (apply sbind_Ok in E; destruct E as [? [? [E2 E]]]; apply lift_Ok in E2; destruct E2 as [_ ->]).
      apply sbind_Ok in E; destruct E as [? [? [E2 E]]]; apply lift_Ok in E2; destruct E2 as [_ ->]. apply lift_Ok in E. destruct E as [_ ->]. reflexivity.
    Qed.
    Lemma remove_leaves n m r m' : n <> 0 -> removeCRC_h alloc n m = Ok (r, m') -> removeCRC n = Ok r /\ exists a, m' = mkcell a (getRawMpz n) :: m.
    Proof.
      intros N E. pose proof (gives_remove alloc n m) as V. rewrite E in V. unfold value in V. cbn [bind fst] in V. split; [symmetry; exact V|].
      unfold removeCRC_h in E. apply sbind_Ok in E. destruct E as [x [m1 [E1 E]]]. cbv zeta in E. apply lift_Ok in E. destruct E as [_ ->].
      destruct (getRaw_some n m x m1 N E1) as [_ ->]. exists (fst x). reflexivity.
    Qed.

    Lemma dec_leaves k c m r m' : decryptCRC_h alloc e iv k c m = Ok (r, m') ->
      exists x ok a1 a2 a3 a4, decrypt e iv c k = Ok x /\ validateCRC (big_endian_host e) (heap e) x = Ok ok /\
        m' = (if ok then [mkcell a4 (getRawMpz x)] else []) ++ [mkcell a3 (getRawMpz x); mkcell a2 (getRawMpz k); mkcell a1 (getRawMpz c)] ++ m /\
        if ok then removeCRC x = Ok r else r = 0.
    Proof.
      intros E. unfold decryptCRC_h in E. apply sbind_Ok in E. destruct E as [x [m1 [E1 E]]]. apply sbind_Ok in E. destruct E as [ok [m2 [E2 E]]].
      destruct (crypt_leaves _ _ _ _ _ E1) as [D [_ [ZC [a2 H]]]]. destruct (validate_leaves _ (heap e) _ _ _ _ E2) as [V [N [a3 ->]]].
      destruct H as [[H _]|[a1 ->]]; [exfalso; exact (N (ZC H))|]. destruct ok.
      - destruct (remove_leaves _ _ _ _ N E) as [R [a4 ->]]. exists x, true, a1, a2, a3, a4. split; [exact D|]. split; [exact V|]. split; [reflexivity|exact R].
      - apply lift_Ok in E. destruct E as [E ->]. apply Ok_inj in E. exists x, false, a1, a2, a3, 0. split; [exact D|]. split; [exact V|]. split; [reflexivity|symmetry; exact E].
    Qed.

    (** what is removed is what stood before the checksum *)
    Lemma opened_found k c m r m' : block_cipher (block e) -> decryptCRC_h alloc e iv k c m = Ok (r, m') -> r <> 0 -> found m' (getRawMpz r).
    Proof.
      intros B E NZ. destruct (dec_leaves _ _ _ _ _ E) as [x [ok [a1 [a2 [a3 [a4 [D [V [-> H]]]]]]]]]. destruct ok; [|contradiction].
      destruct (crypt_range _ _ _ _ _ B D) as [X0 X]. apply validate_inv in V. destruct V as [l [t [G [T _]]]]. rewrite (remove_eq x l t G T) in H by lia. apply Ok_inj in H. subst r.
      assert (R : getRawMpz (big_endian l) = l).
      { apply getRaw_unique. destruct (L_getRaw x) as [F [_ SH]]. rewrite G in F, SH. apply Forall_app in F. split; [apply F|]. split; [reflexivity|].
        intros b q ->. exact (SH b (q ++ t) eq_refl). }
      exists (mkcell a4 (getRawMpz x)), t. split; [left; reflexivity|]. rewrite R. exact G.
    Qed.
  End Cipher.

  (** ** Numbers of blocks *)
  Definition leaves {A} (n : nat) (a : ST A) : Prop := forall m x m', a m = Ok (x, m') -> exists new, m' = new ++ m /\ length new = n.
  Definition grows {A} (n : nat) (a : ST A) : Prop := forall m x m', a m = Ok (x, m') -> exists new, m' = new ++ m /\ (n <= length new)%nat.
  Lemma leaves_lift {A} (r : res A) : leaves 0 (lift r).
  Proof. intros m x m' E. apply lift_Ok in E. destruct E as [_ ->]. exists []. split; reflexivity. Qed.
  Lemma leaves_bind {A B} j k (a : ST A) (f : A -> ST B) : leaves j a -> (forall x, leaves k (f x)) -> leaves (j + k) (sbind a f).
  Proof.
    intros H K m y m2 E. apply sbind_Ok in E. destruct E as [x [m1 [E1 E2]]]. destruct (H _ _ _ E1) as [n1 [-> L1]]. destruct (K _ _ _ _ E2) as [n2 [-> L2]].
    exists (n2 ++ n1). split; [rewrite app_assoc; reflexivity|]. rewrite app_length. lia.
  Qed.
  Lemma grows_lift {A} (r : res A) : grows 0 (lift r).
  Proof. intros m x m' E. apply lift_Ok in E. destruct E as [_ ->]. exists []. split; [reflexivity|cbn; lia]. Qed.
  Lemma grows_bind {A B} j k (a : ST A) (f : A -> ST B) : grows j a -> (forall x, grows k (f x)) -> grows (j + k) (sbind a f).
  Proof.
    intros H K m y m2 E. apply sbind_Ok in E. destruct E as [x [m1 [E1 E2]]]. destruct (H _ _ _ E1) as [n1 [-> L1]]. destruct (K _ _ _ _ E2) as [n2 [-> L2]].
    exists (n2 ++ n1). split; [rewrite app_assoc; reflexivity|]. rewrite app_length. lia.
  Qed.
  Lemma leaves_grows {A} n (a : ST A) : leaves n a -> grows n a.
  Proof. intros H m x m' E. destruct (H _ _ _ E) as [new [-> L]]. exists new. split; [reflexivity|lia]. Qed.
  Lemma grows_less {A} n k (a : ST A) : (k <= n)%nat -> grows n a -> grows k a.
  Proof. intros LE H m x m' E. destruct (H _ _ _ E) as [new [-> L]]. exists new. split; [reflexivity|lia]. Qed.
  Lemma leaves_fold {A T} n (f : T -> A -> ST T) : (forall s a, leaves n (f s a)) -> forall l s, leaves (n * length l) (foldS f l s).
  Proof.
    intros H. induction l as [|a l IH]; intros s; cbn [foldS length]; [rewrite Nat.mul_0_r; apply leaves_lift|]. rewrite Nat.mul_succ_r, Nat.add_comm. apply leaves_bind; [apply H|exact IH].
  Qed.
  Lemma grows_fold {A T} (g : A -> nat) (f : T -> A -> ST T) : (forall s a, grows (g a) (f s a)) -> forall l s, grows (fold_right (fun a n => (g a + n)%nat) 0%nat l) (foldS f l s).
  Proof. intros H. induction l as [|a l IH]; intros s; cbn [foldS fold_right]; [apply grows_lift|]. apply grows_bind; [apply H|exact IH]. Qed.
  Lemma leaves_sfold {A T} (g : A -> nat) (P : A -> Prop) (f : T -> A -> ST T) : (forall s a, P a -> leaves (g a) (f s a)) -> forall l, Forall P l -> forall s,
    leaves (fold_right (fun a n => (g a + n)%nat) 0%nat l) (foldS f l s).
  Proof. intros H l F. induction F as [|a l Pa F IH]; intros s; cbn [foldS fold_right]; [apply leaves_lift|]. apply leaves_bind; [apply H, Pa|exact IH]. Qed.
  Lemma found_more m new bs : found m bs -> found (new ++ m) bs.
  Proof. intros [c [t [I E]]]. exists c, t. split; [apply in_or_app; right; exact I|exact E]. Qed.

  Section Opprf.
    Variables (e : env) (iv : list Z) (dbg : bool) (live : Z -> bool).

    Lemma leaves_enc k p : leaves 3 (encryptCRC_h alloc e iv k p).
    Proof. intros m x m' E. destruct (enc_leaves _ _ _ _ _ _ _ E) as [msg [t [a1 [a2 [a3 [_ [_ [_ ->]]]]]]]]. eexists. split; [reflexivity|reflexivity]. Qed.
    Lemma grows_dec k c m x m' : decryptCRC_h alloc e iv k c m = Ok (x, m') -> exists new, m' = new ++ m /\ (3 <= length new)%nat /\ (x <> 0 -> (4 <= length new)%nat).
    Proof.
      intros E. destruct (dec_leaves _ _ _ _ _ _ _ E) as [y [ok [a1 [a2 [a3 [a4 [_ [_ [-> H]]]]]]]]]. rewrite app_assoc. eexists. split; [reflexivity|].
      destruct ok; cbn [app length]; [split; intros; lia|]. split; [lia|]. intros N. contradiction.
    Qed.

    Lemma leaves_row S j : leaves 18 (prep_row_h alloc e iv dbg live S j).
    Proof.
      unfold prep_row_h. cbv zeta.
      assert (L : forall A B (r : res A) (f : A -> ST B) n, (forall x, leaves n (f x)) -> leaves n (sbind (lift r) f)) by (intros; apply (leaves_bind 0); [apply leaves_lift|assumption]).
      assert (E : forall B k p (f : Z -> ST B) n, (forall x, leaves n (f x)) -> leaves (3 + n) (sbind (encryptCRC_h alloc e iv k p) f)) by (intros; apply leaves_bind; [apply leaves_enc|assumption]).
      do 7 (apply L; intros ?). destruct (negb (tbit S j));
        (do 3 (apply (E _ _ _ _); intros ?); apply L; intros ?; do 2 (apply (E _ _ _ _); intros ?); apply (E _ _ _ _ 0%nat); intros ?; do 3 (apply L; intros ?); apply leaves_lift).
    Qed.
    Lemma leaves_step S j : leaves 18 (prep_step_h alloc e iv dbg live S j).
    Proof. apply (leaves_bind 18 0); [apply leaves_row|intros ?]. do 2 (apply (leaves_bind 0 0); [apply leaves_lift|intros ?]). apply leaves_lift. Qed.
    Lemma leaves_prepare S d : leaves 270 (prepareKeysAndInputs_h alloc e iv dbg live S d).
    Proof.
      unfold prepareKeysAndInputs_h. cbv zeta. do 4 (apply (leaves_bind 0 270); [apply leaves_lift|intros ?]).
      exact (leaves_fold 18 (prep_step_h alloc e iv dbg live) leaves_step (rev (seq 0 (MSG_BITS - 1))) _).
    Qed.
    Lemma leaves_masks S d u v : leaves 9 (sendEncryptedMasks_h alloc e iv dbg live S d u v).
    Proof.
      unfold sendEncryptedMasks_h.
      assert (L : forall A B (r : res A) (f : A -> ST B) n, (forall x, leaves n (f x)) -> leaves n (sbind (lift r) f)) by (intros; apply (leaves_bind 0); [apply leaves_lift|assumption]).
      do 8 (apply L; intros ?). apply (leaves_bind 3 6); [apply leaves_enc|intros ?]. do 2 (apply L; intros ?). apply (leaves_bind 3 3); [apply leaves_enc|intros ?].
      do 3 (apply L; intros ?). apply (leaves_bind 3 0); [apply leaves_enc|intros ?]. apply leaves_lift.
    Qed.

    Lemma open_key_leaves R k : forall l m x m', open_key_h alloc e iv dbg live R k l m = Ok (x, m') -> exists new, m' = new ++ m /\ (x <> None -> (4 <= length new)%nat) /\
      (forall t, x = Some t -> block_cipher (block e) -> found m' (getRawMpz t)) /\ (l <> [] -> found m' (getRawMpz k)).
    Proof.
      induction l as [|v l IH]; intros m x m' E; cbn [open_key_h] in E.
      - apply lift_Ok in E. destruct E as [E ->]. apply Ok_inj in E. subst x. exists []. split; [reflexivity|]. split; [intros N; contradiction|]. split; [intros t N; discriminate N|intros N; contradiction].
      - apply sbind_Ok in E. destruct E as [t [m1 [E1 E]]]. apply lift_Ok in E1. destruct E1 as [_ ->]. apply sbind_Ok in E. destruct E as [t' [m2 [E2 E]]].
        destruct (grows_dec _ _ _ _ _ E2) as [new [M2 [L3 L4]]].
        assert (FK : found m2 (getRawMpz k)).
        { destruct (dec_leaves _ _ _ _ _ _ _ E2) as [y [ok [a1 [a2 [a3 [a4 [_ [_ [-> _]]]]]]]]]. exists (mkcell a2 (getRawMpz k)), []. split; [|rewrite app_nil_r; reflexivity].
          apply in_or_app. right. right. left. reflexivity. }
        destruct (Z.eqb_spec t' 0) as [Z|Z].
        + destruct (IH _ _ _ E) as [new' [-> [H1 [H2 _]]]]. subst m2. exists (new' ++ new). split; [rewrite app_assoc; reflexivity|].
          split; [intros N; rewrite app_length; specialize (H1 N); lia|]. split; [exact H2|]. intros _. apply found_more, FK.
        + apply lift_Ok in E. destruct E as [E ->]. apply Ok_inj in E. subst x m2. exists new. split; [reflexivity|]. split; [intros _; exact (L4 Z)|].
          split; [|intros _; exact FK]. intros q Q B. injection Q as <-. exact (opened_found e iv _ _ _ _ _ B E2 Z).
    Qed.
    Lemma open_mask_leaves k : forall l m x m', open_mask_h alloc e iv k l m = Ok (x, m') -> exists new, m' = new ++ m /\ (x <> None -> (4 <= length new)%nat) /\
      (forall t, x = Some t -> block_cipher (block e) -> found m' (getRawMpz t)) /\ (l <> [] -> found m' (getRawMpz k)).
    Proof.
      induction l as [|v l IH]; intros m x m' E; cbn [open_mask_h] in E.
      - apply lift_Ok in E. destruct E as [E ->]. apply Ok_inj in E. subst x. exists []. split; [reflexivity|]. split; [intros N; contradiction|]. split; [intros t N; discriminate N|intros N; contradiction].
      - apply sbind_Ok in E. destruct E as [t' [m2 [E2 E]]].
        destruct (grows_dec _ _ _ _ _ E2) as [new [M2 [L3 L4]]].
        assert (FK : found m2 (getRawMpz k)).
        { destruct (dec_leaves _ _ _ _ _ _ _ E2) as [y [ok [a1 [a2 [a3 [a4 [_ [_ [-> _]]]]]]]]]. exists (mkcell a2 (getRawMpz k)), []. split; [|rewrite app_nil_r; reflexivity].
          apply in_or_app. right. right. left. reflexivity. }
        destruct (Z.eqb_spec t' 0) as [Z|Z].
        + destruct (IH _ _ _ E) as [new' [-> [H1 [H2 _]]]]. subst m2. exists (new' ++ new). split; [rewrite app_assoc; reflexivity|].
          split; [intros N; rewrite app_length; specialize (H1 N); lia|]. split; [exact H2|]. intros _. apply found_more, FK.
        + apply lift_Ok in E. destruct E as [E ->]. apply Ok_inj in E. subst x m2. exists new. split; [reflexivity|]. split; [intros _; exact (L4 Z)|].
          split; [|intros _; exact FK]. intros q Q B. injection Q as <-. exact (opened_found e iv _ _ _ _ _ B E2 Z).
    Qed.

    (** the client: the key it had and the key it finds *)
    Lemma end_leaves C r c m C' m' : runOTRound_end_h alloc e iv dbg live C r c m = Ok (C', m') -> exists new, m' = new ++ m /\ ((if (r =? 16)%Z then 0 else 4) <= length new)%nat /\
      (r <> 16 -> found m' (getRawMpz (key C)) /\ (block_cipher (block e) -> found m' (getRawMpz (key C')))).
    Proof.
      intros E. unfold runOTRound_end_h in E. apply sbind_Ok in E. destruct E as [k [m1 [E1 E]]].
      do 2 (apply sbind_Ok in E; destruct E as [? [? [E2 E]]]; apply lift_Ok in E2; destruct E2 as [_ ->]). apply lift_Ok in E. destruct E as [E ->]. apply Ok_inj in E. subst C'. cbn [OpprfModel.key].
      change BITS with 16 in E1. destruct (Z.eqb_spec r 16) as [R|R].
      - apply sbind_Ok in E1. destruct E1 as [? [? [E2 E1]]]. apply lift_Ok in E2. destruct E2 as [_ ->]. apply lift_Ok in E1. destruct E1 as [_ ->]. exists []. split; [reflexivity|]. split; [cbn; lia|]. intros N. contradiction.
      - apply sbind_Ok in E1. destruct E1 as [o [m2 [E2 E1]]]. destruct (open_key_leaves _ _ _ _ _ _ E2) as [new [-> [H1 [H2 H3]]]].
        destruct o as [t|]; [|destruct dbg; apply lift_Ok in E1; destruct E1 as [E1 _]; discriminate E1]. apply lift_Ok in E1. destruct E1 as [E1 ->]. apply Ok_inj in E1. subst k.
        exists new. split; [reflexivity|]. split; [apply H1; discriminate|]. intros _. split; [|intros B; exact (H2 t eq_refl B)]. apply H3. intros N. rewrite N in E2. cbn [open_key_h] in E2.
        apply lift_Ok in E2. destruct E2 as [E2 _]. discriminate E2.
    Qed.
    Lemma unmask_leaves C l d m C' m' : unmaskResult_h alloc e iv dbg live C l d m = Ok (C', m') -> exists new, m' = new ++ m /\ (4 <= length new)%nat /\
      found m' (getRawMpz (key C)).
    Proof.
      intros E. unfold unmaskResult_h in E. apply sbind_Ok in E. destruct E as [o [m1 [E1 E]]]. destruct (open_mask_leaves _ _ _ _ _ E1) as [new [-> [H1 [H2 H3]]]].
      destruct o as [t|]; [|destruct dbg; apply lift_Ok in E; destruct E as [E _]; discriminate E].
      do 3 (apply sbind_Ok in E; destruct E as [? [? [E2 E]]]; apply lift_Ok in E2; destruct E2 as [_ ->]). apply lift_Ok in E. destruct E as [_ ->].
      exists new. split; [reflexivity|]. split; [apply H1; discriminate|]. apply H3. intros N. rewrite N in E1. cbn [open_mask_h] in E1. apply lift_Ok in E1. destruct E1 as [E1 _]. discriminate E1.
    Qed.

    Lemma grows_happens SC v : grows (blocks v) (happens_h alloc e iv dbg live SC v).
    Proof.
      assert (L : forall A B n (a : ST A) (f : A -> res B), grows n a -> grows n (sbind a (fun x => lift (f x)))).
      { intros A B k a f H. rewrite (plus_n_O k). apply grows_bind; [exact H|intros x; apply grows_lift]. }
      destruct SC as [S C], v; cbn [happens_h blocks]; try apply grows_lift.
      - apply (L _ _ 270%nat _ (fun S' => Ok (S', C))). apply leaves_grows, leaves_prepare.
      - apply (L _ _ 0%nat _ (fun r => Ok (fst r, C))). apply grows_lift.
      - apply (L _ _ 9%nat _ (fun _ => Ok (S, C))). apply leaves_grows, leaves_masks.
      - apply (L _ _ 0%nat _ (fun S' => Ok (S', C))). apply grows_lift.
      - apply (L _ _ 0%nat _ (fun r => Ok (S, fst r))). apply grows_lift.
      - apply (L _ _ _ _ (fun C' => Ok (S, C'))). intros m x m' E. destruct (end_leaves _ _ _ _ _ _ E) as [new [-> [H _]]]. exists new. split; [reflexivity|exact H].
      - apply (L _ _ _ _ (fun C' => Ok (S, C'))). intros m x m' E. destruct (unmask_leaves _ _ _ _ _ _ E) as [new [-> [H _]]]. exists new. split; [reflexivity|exact H].
    Qed.
    Lemma leaves_happens SC v : of_server v -> leaves (blocks v) (happens_h alloc e iv dbg live SC v).
    Proof.
      assert (L : forall A B n (a : ST A) (f : A -> res B), leaves n a -> leaves n (sbind a (fun x => lift (f x)))).
      { intros A B k a f H. rewrite (plus_n_O k). apply leaves_bind; [exact H|intros x; apply leaves_lift]. }
      destruct SC as [S C], v; cbn [happens_h blocks of_server]; intros O; try contradiction.
      - apply (L _ _ 270%nat _ (fun S' => Ok (S', C))). apply leaves_prepare.
      - apply (L _ _ 0%nat _ (fun r => Ok (fst r, C))). apply leaves_lift.
      - apply (L _ _ 9%nat _ (fun _ => Ok (S, C))). apply leaves_masks.
      - apply (L _ _ 0%nat _ (fun S' => Ok (S', C))). apply leaves_lift.
    Qed.

    Lemma L_C92_kept l SC m SC' m' : history_h alloc e iv dbg live l SC m = Ok (SC', m') ->
      exists new, m' = new ++ m /\ (fold_right (fun v n => (blocks v + n)%nat) 0%nat l <= length new)%nat /\
        (Forall of_server l -> length new = fold_right (fun v n => (blocks v + n)%nat) 0%nat l).
    Proof.
      intros E. destruct (grows_fold blocks (happens_h alloc e iv dbg live) grows_happens l SC m SC' m' E) as [new [M L]]. exists new. split; [exact M|]. split; [exact L|].
      intros F. destruct (leaves_sfold blocks of_server (happens_h alloc e iv dbg live) leaves_happens l F SC m SC' m' E) as [new' [M' L']].
      rewrite M in M'. apply app_inv_tail in M'. subst new'. exact L'.
    Qed.

    (** the server's keys *)
    Lemma enc_found k p m c m' : encryptCRC_h alloc e iv k p m = Ok (c, m') -> exists new, m' = new ++ m /\ found m' (getRawMpz k) /\ found m' (getRawMpz p).
    Proof.
      intros E. destruct (enc_leaves _ _ _ _ _ _ _ E) as [msg [t [a1 [a2 [a3 [_ [_ [G ->]]]]]]]]. eexists. split; [reflexivity|]. split.
      - exists (mkcell a3 (getRawMpz k)), []. split; [left; reflexivity|rewrite app_nil_r; reflexivity].
      - exists (mkcell a2 (getRawMpz msg)), t. split; [right; left; reflexivity|exact G].
    Qed.
    Lemma row_found S j m x m' : prep_row_h alloc e iv dbg live S j m = Ok (x, m') ->
      forall l i, In l [k_lt S; k_eq S; k_gt S] -> i = j \/ i = Datatypes.S j -> exists k, vat l (Z.of_nat i) = Ok k /\ found m' (getRawMpz k).
    Proof.
      intros E l i L I. unfold prep_row_h in E. cbv zeta in E. replace (Z.of_nat (Datatypes.S j) - 1) with (Z.of_nat j) in E by lia.
      apply sbind_Ok in E. destruct E as [lt1 [m1 [A1 E]]]. apply lift_Ok in A1. destruct A1 as [A1 ->].
      apply sbind_Ok in E. destruct E as [eq1 [m1 [A2 E]]]. apply lift_Ok in A2. destruct A2 as [A2 ->].
      apply sbind_Ok in E. destruct E as [gt1 [m1 [A3 E]]]. apply lift_Ok in A3. destruct A3 as [A3 ->].
      apply sbind_Ok in E. destruct E as [lt0 [m1 [A4 E]]]. apply lift_Ok in A4. destruct A4 as [A4 ->].
      apply sbind_Ok in E. destruct E as [eq0 [m1 [A5 E]]]. apply lift_Ok in A5. destruct A5 as [A5 ->].
      apply sbind_Ok in E. destruct E as [gt0 [m1 [A6 E]]]. apply lift_Ok in A6. destruct A6 as [A6 ->].
      apply sbind_Ok in E. destruct E as [okj [m1 [A7 E]]]. apply lift_Ok in A7. destruct A7 as [_ ->].
      assert (K : found m' (getRawMpz lt1) /\ found m' (getRawMpz eq1) /\ found m' (getRawMpz gt1) /\ found m' (getRawMpz lt0) /\ found m' (getRawMpz eq0) /\ found m' (getRawMpz gt0)).
      { clear A1 A2 A3 A4 A5 A6 L I. destruct (negb (tbit S j)).
        - apply sbind_Ok in E. destruct E as [? [m1 [B1 E]]]. destruct (enc_found _ _ _ _ _ B1) as [n1 [M1 [F1 F2]]].
          apply sbind_Ok in E. destruct E as [? [m2 [B2 E]]]. destruct (enc_found _ _ _ _ _ B2) as [n2 [M2 [F3 F4]]].
          apply sbind_Ok in E. destruct E as [? [m3 [B3 E]]]. destruct (enc_found _ _ _ _ _ B3) as [n3 [M3 [F5 F6]]].
          assert (G : exists q, m' = q ++ m3).
          { apply sbind_Ok in E. destruct E as [? [? [B4 E]]]. apply lift_Ok in B4. destruct B4 as [_ ->].
            apply sbind_Ok in E. destruct E as [? [m4 [B4 E]]]. destruct (enc_found _ _ _ _ _ B4) as [n4 [M4 _]].
            apply sbind_Ok in E. destruct E as [? [m5 [B5 E]]]. destruct (enc_found _ _ _ _ _ B5) as [n5 [M5 _]].
            apply sbind_Ok in E. destruct E as [? [m6 [B6 E]]]. destruct (enc_found _ _ _ _ _ B6) as [n6 [M6 _]].
            do 3 (apply sbind_Ok in E; destruct E as [? [? [C1 E]]]; apply lift_Ok in C1; destruct C1 as [_ ->]). apply lift_Ok in E. destruct E as [_ ->].
            exists (n6 ++ n5 ++ n4). rewrite M6, M5, M4, !app_assoc. reflexivity. }
          destruct G as [q ->]. subst m3. subst m2. repeat split; repeat (first [assumption|apply found_more]).
        - apply sbind_Ok in E. destruct E as [? [m1 [B1 E]]]. destruct (enc_found _ _ _ _ _ B1) as [n1 [M1 [F1 F2]]].
          apply sbind_Ok in E. destruct E as [? [m2 [B2 E]]]. destruct (enc_found _ _ _ _ _ B2) as [n2 [M2 [F3 F4]]].
          apply sbind_Ok in E. destruct E as [? [m3 [B3 E]]]. destruct (enc_found _ _ _ _ _ B3) as [n3 [M3 [F5 F6]]].
          assert (G : exists q, m' = q ++ m3 /\ found m' (getRawMpz eq0)).
          { apply sbind_Ok in E. destruct E as [? [? [B4 E]]]. apply lift_Ok in B4. destruct B4 as [_ ->].
            apply sbind_Ok in E. destruct E as [? [m4 [B4 E]]]. destruct (enc_found _ _ _ _ _ B4) as [n4 [M4 _]].
            apply sbind_Ok in E. destruct E as [? [m5 [B5 E]]]. destruct (enc_found _ _ _ _ _ B5) as [n5 [M5 [_ F7]]].
            apply sbind_Ok in E. destruct E as [? [m6 [B6 E]]]. destruct (enc_found _ _ _ _ _ B6) as [n6 [M6 _]].
            do 3 (apply sbind_Ok in E; destruct E as [? [? [C1 E]]]; apply lift_Ok in C1; destruct C1 as [_ ->]). apply lift_Ok in E. destruct E as [_ ->].
            exists (n6 ++ n5 ++ n4). split; [rewrite M6, M5, M4, !app_assoc; reflexivity|]. rewrite M6. apply found_more. exact F7. }
          destruct G as [q [-> F7]]. split; [|split; [|split; [|split; [|split; [exact F7|]]]]]; apply found_more; subst m3; try assumption; apply found_more; subst m2; try assumption; apply found_more; assumption. }
      destruct K as [K1 [K2 [K3 [K4 [K5 K6]]]]].
      destruct I as [-> | ->], L as [<-|[<-|[<-|[]]]]; eexists; (split; [eassumption|assumption]).
    Qed.
    Lemma step_found S j m S' m' : prep_step_h alloc e iv dbg live S j m = Ok (S', m') -> k_lt S' = k_lt S /\ k_eq S' = k_eq S /\ k_gt S' = k_gt S /\
      forall l i, In l [k_lt S; k_eq S; k_gt S] -> i = j \/ i = Datatypes.S j -> exists k, vat l (Z.of_nat i) = Ok k /\ found m' (getRawMpz k).
    Proof.
      intros E. unfold prep_step_h in E. apply sbind_Ok in E. destruct E as [r [m1 [E1 E]]]. do 2 (apply sbind_Ok in E; destruct E as [? [? [C1 E]]]; apply lift_Ok in C1; destruct C1 as [_ ->]).
      apply lift_Ok in E. destruct E as [E ->]. apply Ok_inj in E. subst S'. split; [reflexivity|]. split; [reflexivity|]. split; [reflexivity|]. exact (row_found S j m r m1 E1).
    Qed.
    Lemma fold_found : forall js S m S' m', foldS (prep_step_h alloc e iv dbg live) js S m = Ok (S', m') ->
      forall l i j, In j js -> In l [k_lt S; k_eq S; k_gt S] -> i = j \/ i = Datatypes.S j -> exists k, vat l (Z.of_nat i) = Ok k /\ found m' (getRawMpz k).
    Proof.
      induction js as [|j0 js IH]; intros S m S' m' E l i j J L I; [destruct J|]. cbn [foldS] in E. apply sbind_Ok in E. destruct E as [S1 [m1 [E1 E]]].
      destruct (step_found _ _ _ _ _ E1) as [K1 [K2 [K3 H]]]. destruct J as [->|J].
      - destruct (H l i L I) as [k [V F]]. exists k. split; [exact V|].
        destruct (leaves_fold 18 (prep_step_h alloc e iv dbg live) leaves_step js S1 m1 S' m' E) as [new [-> _]]. apply found_more, F.
      - apply (IH S1 m1 S' m' E l i j J); [rewrite K1, K2, K3; exact L|exact I].
    Qed.

    Lemma prepare_found S d m S' m' : k_lt S = [] -> k_eq S = [] -> k_gt S = [] -> prepareKeysAndInputs_h alloc e iv dbg live S d m = Ok (S', m') ->
      forall s j, (j < 16)%nat -> found m' (getRawMpz (level_key d s j)).
    Proof.
      intros N1 N2 N3 E s j J. unfold prepareKeysAndInputs_h in E. cbv zeta in E. do 3 (apply sbind_Ok in E; destruct E as [? [? [C1 E]]]; apply lift_Ok in C1; destruct C1 as [_ ->]).
      apply sbind_Ok in E; destruct E as [S2 [? [C1 E]]]; apply lift_Ok in C1; destruct C1 as [C1 ->].
      rewrite N1, N2, N3 in C1. cbn [app] in C1.
      assert (K : k_lt S2 = map (d_lt d) (seq 0 MSG_BITS) /\ k_eq S2 = map (d_eq d) (seq 0 MSG_BITS) /\ k_gt S2 = map (d_gt d) (seq 0 MSG_BITS)).
      { unfold prep_top in C1. cbv zeta in C1. do 6 (apply bind_Ok in C1; destruct C1 as [? [_ C1]]). apply Ok_inj in C1. subst S2. split; [reflexivity|]. split; reflexivity. }
      destruct K as [K1 [K2 K3]].
      assert (H : forall l f, In l [k_lt S2; k_eq S2; k_gt S2] -> l = map f (seq 0 MSG_BITS) -> found m' (getRawMpz (f j))).
      { intros l f I L. destruct (fold_found _ _ _ _ _ E l j (if (j <? 15)%nat then j else 14%nat)) as [k [V F]].
        - apply in_rev. rewrite rev_involutive. apply in_seq. destruct (Nat.ltb_spec j 15); cbn; lia.
        - exact I.
        - destruct (Nat.ltb_spec j 15); [left; reflexivity|right; lia].
        - rewrite L in V. unfold vat in V. rewrite (proj2 (Z.ltb_ge _ 0)) in V by lia. rewrite Nat2Z.id in V. change MSG_BITS with 16%nat in V.
          rewrite (map_nth_error f j (seq 0 16) (nth_error_nth' (seq 0 16) 0%nat ltac:(rewrite seq_length; exact J))) in V. rewrite seq_nth in V by exact J. apply Ok_inj in V. subst k. exact F. }
      destruct s; cbn [level_key].
      - apply (H (k_eq S2) (d_eq d)); [right; left; reflexivity|exact K2].
      - apply (H (k_lt S2) (d_lt d)); [left; reflexivity|exact K1].
      - apply (H (k_gt S2) (d_gt d)); [right; right; left; reflexivity|exact K3].
    Qed.

    Lemma L_C92_server d l S C m SC' m' : k_lt S = [] -> k_eq S = [] -> k_gt S = [] ->
      history_h alloc e iv dbg live (EPrepare d :: l) (S, C) m = Ok (SC', m') -> forall s j, (j < 16)%nat -> found m' (getRawMpz (level_key d s j)).
    Proof.
      intros N1 N2 N3 E s j J. unfold history_h in E. cbn [foldS] in E. apply sbind_Ok in E. destruct E as [SC1 [m1 [E1 E]]]. cbn [happens_h] in E1.
      apply sbind_Ok in E1. destruct E1 as [S1 [m2 [E1 E2]]]. apply lift_Ok in E2. destruct E2 as [_ ->].
      destruct (grows_fold blocks (happens_h alloc e iv dbg live) grows_happens l SC1 m2 SC' m' E) as [new [-> _]]. apply found_more. exact (prepare_found S d m S1 m2 N1 N2 N3 E1 s j J).
    Qed.
    Lemma L_C92_client r c l S C m SC1 m1 SC' m' : block_cipher (block e) -> r <> 16 ->
      happens_h alloc e iv dbg live (S, C) (EFinish r c) m = Ok (SC1, m1) -> history_h alloc e iv dbg live l SC1 m1 = Ok (SC', m') ->
      found m' (getRawMpz (key C)) /\ found m' (getRawMpz (key (snd SC1))).
    Proof.
      intros B R E1 E. cbn [happens_h] in E1. apply sbind_Ok in E1. destruct E1 as [C1 [m2 [E1 E2]]]. apply lift_Ok in E2. destruct E2 as [E2 ->]. apply Ok_inj in E2. subst SC1. cbn [snd].
      destruct (end_leaves _ _ _ _ _ _ E1) as [_ [_ [_ H]]]. destruct (H R) as [H1 H2]. specialize (H2 B).
      destruct (grows_fold blocks (happens_h alloc e iv dbg live) grows_happens l _ m2 SC' m' E) as [new [-> _]]. split; apply found_more; assumption.
    Qed.

    (** preparing and cleaning any number of times *)
    Lemma L_C92_rounds ds : forall S C a m, aes_ready e iv -> server_ready live S a ->
      (forall d g s j, In (d, g) ds -> (j < 16)%nat -> 2 ^ 120 <= level_key d s j < 2 ^ 128) ->
      exists S' new, history_h alloc e iv dbg live (flat_map (fun p => [EPrepare (fst p); ECleanServer (snd p)]) ds) (S, C) m = Ok ((S', C), new ++ m) /\
        (k_lt S' = [] /\ k_eq S' = [] /\ k_gt S' = [] /\ ok S' = []) /\ length new = (270 * length ds)%nat /\
        forall d g s j, In (d, g) ds -> (j < 16)%nat -> found (new ++ m) (getRawMpz (level_key d s j)).
    Proof.
      induction ds as [|[d g] ds IH]; intros S C a m A SR K.
      - exists S, []. split; [reflexivity|]. split; [exact (sr_keys _ _ _ SR)|]. split; [reflexivity|]. intros d g s j [].
      - destruct (prepare_ok dbg live e iv S d a A SR) as [S1 [P [BA _]]]; [intros s j J; exact (K d g s j (or_introl eq_refl) J)|].
        destruct (clean_ready dbg live S S1 a d g SR BA) as [S2 [CL [SR2 _]]].
        pose proof (gives_prepare alloc e iv dbg live S d) as V.
        assert (PM' : exists n1, prepareKeysAndInputs_h alloc e iv dbg live S d m = Ok (S1, n1)).
        { specialize (V m). rewrite P in V. unfold value in V. destruct (prepareKeysAndInputs_h alloc e iv dbg live S d m) as [[x y]|f]; cbn [bind fst] in V; [|discriminate V]. apply Ok_inj in V. subst x. exists y. reflexivity. }
        destruct PM' as [m1 PM']. destruct (leaves_prepare S d _ _ _ PM') as [n1 [-> L1]].
        destruct (IH S2 C a (n1 ++ m) A SR2) as [S' [n2 [H [KE [L2 F]]]]]; [intros d' g' s j I; exact (K d' g' s j (or_intror I))|].
        exists S', (n2 ++ n1). split; [|split; [exact KE|split]].
        + unfold history_h in *. cbn [flat_map app foldS happens_h fst snd]. unfold sbind at 1 2. rewrite PM'. cbn [bind fst snd].
          change (lift (Ok (S1, C)) (n1 ++ m)) with (@Ok ((server * client) * mem) ((S1, C), n1 ++ m)). cbn [bind fst snd happens_h]. unfold sbind at 1 2. unfold lift at 1. rewrite CL. cbn [bind fst snd]. change (lift (Ok (S2, C)) (n1 ++ m)) with (@Ok ((server * client) * mem) ((S2, C), n1 ++ m)). cbn [bind fst snd]. rewrite H, app_assoc. reflexivity.
        + rewrite app_length, L2, L1. cbn [length]. lia.
        + intros d' g' s j [Q|I] J.
          * injection Q as <- <-. rewrite <- app_assoc. apply found_more. destruct (sr_keys _ _ _ SR) as [Q1 [Q2 [Q3 _]]].
            exact (prepare_found S d m S1 (n1 ++ m) Q1 Q2 Q3 PM' s j J).
          * rewrite <- app_assoc. exact (F d' g' s j I J).
    Qed.
  End Opprf.
End Heap2.

(** an allocator: one above the highest address in use *)
Definition bump (m : mem) (n : nat) : Z := 1 + fold_right (fun c a => Z.max (caddr c) a) 0 m.
Lemma bump_ok : allocator bump.
Proof.
  intros m n _. assert (H : 0 <= fold_right (fun c a => Z.max (caddr c) a) 0 m /\ forall a, In a (map caddr m) -> a <= fold_right (fun c a => Z.max (caddr c) a) 0 m).
  { induction m as [|c m [I1 I2]]; cbn [map fold_right In]; [split; [lia|intros a []]|]. split; [lia|]. intros a [<-|I]; [lia|]. specialize (I2 a I). lia. }
  destruct H as [H1 H2]. unfold bump. split; [lia|]. intros I. specialize (H2 _ I). lia.
Qed.
