(** Proofs about the byte buffers (C92). *)
From Coq Require Import ZArith Bool List Lia.
From Verif Require Import Outcome FieldModel CurveParams EccModel DmeModel OtModel CrcModel SpecCrc CrcProofs CrcProofs2 CrcProofs3 AesModel SpecAes AesProofs.
From Verif Require Import OpprfModel SpecOpprf HeapModel SpecHeap.
Import ListNotations.
Open Scope Z_scope.

(** ** Values *)
Definition gives {A} (a : ST A) (r : res A) : Prop := forall m, value (a m) = r.

Lemma gives_lift {A} (r : res A) : gives (lift r) r.
Proof. intros m. unfold value, lift. destruct r; reflexivity. Qed.
Lemma gives_bind {A B} (a : ST A) r (f : A -> ST B) g : gives a r -> (forall x, gives (f x) (g x)) -> gives (sbind a f) (bind r g).
Proof.
  intros H K m. specialize (H m). unfold value, sbind in *. destruct (a m) as [[x m1]|f1]; cbn [bind fst snd] in *.
  - subst r. cbn [bind]. exact (K x m1).
  - subst r. reflexivity.
Qed.
(** the same with the memory known to the continuation *)
Lemma sbind_Ok {A B} (a : ST A) (f : A -> ST B) m y m2 : sbind a f m = Ok (y, m2) -> exists x m1, a m = Ok (x, m1) /\ f x m1 = Ok (y, m2).
Proof. unfold sbind. intros H. apply bind_Ok in H. destruct H as [[x m1] [E H]]. exists x, m1. split; [exact E|exact H]. Qed.
Lemma lift_Ok {A} (r : res A) m y m2 : lift r m = Ok (y, m2) -> r = Ok y /\ m2 = m.
Proof. unfold lift. intros H. apply bind_Ok in H. destruct H as [x [-> E]]. apply Ok_inj in E. injection E as <- <-. split; reflexivity. Qed.

Lemma calc_any be a a' bs c len : Forall byte bs -> word c -> u32 len <= Z.of_nat (length bs) ->
  calculate_crc32c be {| base := a; bytes := bs |} c len = calculate_crc32c be {| base := a'; bytes := bs |} c len.
Proof. intros F W L. rewrite !L_calculate by assumption. reflexivity. Qed.
Lemma u32_le z : 0 <= z -> u32 z <= z.
Proof. intros Z. unfold u32. apply Z.mod_le; lia. Qed.
Lemma word_0 : word 0.
Proof. unfold word. lia. Qed.

Section Heap.
  Variable alloc : mem -> nat -> Z.

  Lemma gives_append be room addr n : gives (appendCRC_h alloc be room n) (appendCRC be room addr n).
  Proof.
    intros m. unfold appendCRC_h, appendCRC, getRaw_h, sbind, value. cbv zeta.
    pose proof (raw_bytes n) as F. generalize dependent (getRawMpz n). intros bs F.
    destruct (Z.eqb_spec (Z.of_nat (length bs)) 0) as [E|E]; cbn [bind fst snd]; unfold lift.
    - rewrite (calc_any be 0 addr) by (try exact F; try exact word_0; apply u32_le; lia).
      destruct (calculate_crc32c _ _ _ _); cbn [bind fst snd]; [rewrite E; reflexivity|reflexivity].
    - rewrite (calc_any be (alloc m (length bs)) addr) by (try exact F; try exact word_0; apply u32_le; lia).
      destruct (calculate_crc32c _ _ _ _); cbn [bind fst snd]; [|reflexivity]. apply Z.eqb_neq in E. rewrite E.
      destruct (room (Z.of_nat (length bs)) <? Z.of_nat (length bs) + 4); reflexivity.
  Qed.

  Lemma gives_validate be addr n : gives (validateCRC_h alloc be n) (validateCRC be addr n).
  Proof.
    intros m. unfold validateCRC_h, validateCRC, getRaw_h, sbind, value. cbv zeta.
    pose proof (raw_bytes n) as F. generalize dependent (getRawMpz n). intros bs F.
    assert (G : forall a m1, Z.of_nat (length bs) <> 0 ->
      (do x <- (do x0 <- lift (rd {| base := a; bytes := bs |} (Z.of_nat (length bs) - 4)) m1;
         do x1 <- lift (rd {| base := a; bytes := bs |} (Z.of_nat (length bs) - 3)) (snd x0);
         do x2 <- lift (rd {| base := a; bytes := bs |} (Z.of_nat (length bs) - 2)) (snd x1);
         do x3 <- lift (rd {| base := a; bytes := bs |} (Z.of_nat (length bs) - 1)) (snd x2);
         do x4 <- lift (calculate_crc32c be {| base := a; bytes := bs |} 0 (u64 (Z.of_nat (length bs) - 4))) (snd x3);
         lift (Ok (fst x4 =? Z.lor (Z.lor (Z.lor (fst x0) (Z.shiftl (fst x1) 8)) (Z.shiftl (fst x2) 16)) (Z.shiftl (fst x3) 24))) (snd x4)); Ok (fst x)) =
      (do b0 <- rd {| base := addr; bytes := bs |} (Z.of_nat (length bs) - 4); do b1 <- rd {| base := addr; bytes := bs |} (Z.of_nat (length bs) - 3);
       do b2 <- rd {| base := addr; bytes := bs |} (Z.of_nat (length bs) - 2); do b3 <- rd {| base := addr; bytes := bs |} (Z.of_nat (length bs) - 1);
       do crc <- calculate_crc32c be {| base := addr; bytes := bs |} 0 (u64 (Z.of_nat (length bs) - 4));
       Ok (crc =? Z.lor (Z.lor (Z.lor b0 (Z.shiftl b1 8)) (Z.shiftl b2 16)) (Z.shiftl b3 24)))).
    { intros a m1 NE. unfold lift, rd. cbn [bytes].
      destruct (Z.ltb_spec (Z.of_nat (length bs)) 4) as [S|S].
      - rewrite (proj2 (Z.leb_gt 0 (Z.of_nat (length bs) - 4))) by lia. reflexivity.
      - rewrite !(proj2 (Z.leb_le 0 _)) by lia. rewrite !(proj2 (Z.ltb_lt _ _)) by lia. cbn [andb bind fst snd].
        rewrite (calc_any be a addr) by (try exact F; try exact word_0; unfold u64; pose proof (u32_le ((Z.of_nat (length bs) - 4) mod 2 ^ 64) ltac:(apply Z.mod_pos_bound; lia)); pose proof (Z.mod_le (Z.of_nat (length bs) - 4) (2 ^ 64)); lia).
        destruct (calculate_crc32c _ _ _ _); reflexivity. }
    destruct (Z.eqb_spec (Z.of_nat (length bs)) 0) as [E|E]; cbn [bind fst snd].
    - rewrite E. reflexivity.
    - rewrite (proj2 (Z.eqb_neq _ _) E). apply (G _ _ E).
  Qed.

  Lemma gives_remove n : gives (removeCRC_h alloc n) (removeCRC n).
  Proof.
    intros m. unfold removeCRC_h, removeCRC, getRaw_h, sbind, value, lift. cbv zeta.
    destruct (Z.of_nat (length (getRawMpz n)) =? 0); cbn [bind fst snd];
      destruct (Z.of_nat (length (getRawMpz n)) <? u64 (Z.of_nat (length (getRawMpz n)) - 4)); reflexivity.
  Qed.

  Section Cipher.
    Variables (e : env) (iv : list Z).
    Lemma gives_crypt text k : gives (crypt_h alloc e iv text k) (crypt e iv text k).
    Proof.
      intros m. unfold crypt_h, crypt, getRaw_h, sbind, value, lift. cbv zeta.
      destruct (Z.of_nat (length (getRawMpz text)) =? 0); cbn [bind fst snd];
        destruct (Z.of_nat (length (getRawMpz k)) =? 0); cbn [bind fst snd];
        destruct (key_block k); try reflexivity; cbn [bind]; destruct (iv_block e iv); try reflexivity; cbn [bind];
        destruct (s32 (Z.of_nat (length (getRawMpz text))) <? 0); try reflexivity;
        destruct (128 <? s32 (Z.of_nat (length (getRawMpz text)))); reflexivity.
    Qed.
    Lemma gives_enc k p : gives (encryptCRC_h alloc e iv k p) (encryptCRC e iv k p).
    Proof. apply gives_bind; [apply gives_append|]. intros x. apply gives_crypt. Qed.
    Lemma gives_dec k c : gives (decryptCRC_h alloc e iv k c) (decryptCRC e iv k c).
    Proof.
      apply gives_bind; [apply gives_crypt|]. intros x. apply gives_bind; [apply gives_validate|]. intros []; [apply gives_remove|apply gives_lift].
    Qed.

    Section Opprf.
      Variables (dbg : bool) (live : Z -> bool).
      Ltac pure := repeat first [apply gives_lift|apply gives_enc|apply gives_dec|apply gives_bind; [first [apply gives_lift|apply gives_enc|apply gives_dec]|intros ?]].
      Lemma gives_row S j : gives (prep_row_h alloc e iv dbg live S j) (prep_row dbg live e iv S j).
      Proof. unfold prep_row_h, prep_row. cbv zeta. do 7 (apply gives_bind; [apply gives_lift|intros ?]). destruct (negb (tbit S j)); pure. Qed.
      Lemma gives_step S j : gives (prep_step_h alloc e iv dbg live S j) (prep_step dbg live e iv S j).
      Proof. apply gives_bind; [apply gives_row|intros ?]. pure. Qed.
      Lemma gives_fold {A T} (f : T -> A -> ST T) g : (forall s a, gives (f s a) (g s a)) -> forall l s, gives (foldS f l s) (foldM g l s).
      Proof. intros H. induction l as [|a l IH]; intros s; [apply gives_lift|]. apply gives_bind; [apply H|exact IH]. Qed.
      Lemma gives_prepare S d : gives (prepareKeysAndInputs_h alloc e iv dbg live S d) (prepareKeysAndInputs dbg live e iv S d).
      Proof.
        unfold prepareKeysAndInputs_h, prepareKeysAndInputs. cbv zeta. do 4 (apply gives_bind; [apply gives_lift|intros ?]).
        apply gives_fold. exact gives_step.
      Qed.
      Lemma gives_masks S d u v : gives (sendEncryptedMasks_h alloc e iv dbg live S d u v) (sendEncryptedMasks dbg live e iv S d u v).
      Proof. unfold sendEncryptedMasks_h, sendEncryptedMasks. pure. Qed.
      Lemma gives_open R k l : gives (open_key_h alloc e iv dbg live R k l) (open_key dbg live e iv R k l).
      Proof.
        induction l as [|v l IH]; [apply gives_lift|]. cbn [open_key_h open_key]. apply gives_bind; [apply gives_lift|intros t].
        apply gives_bind; [apply gives_dec|intros t']. destruct (t' =? 0); [exact IH|apply gives_lift].
      Qed.
      Lemma gives_end C r c : gives (runOTRound_end_h alloc e iv dbg live C r c) (runOTRound_end dbg live e iv C r c).
      Proof.
        unfold runOTRound_end_h, runOTRound_end. apply gives_bind; [|intros ?; pure]. destruct (r =? BITS); [pure|].
        apply gives_bind; [apply gives_open|]. intros [t|]; apply gives_lift.
      Qed.
      Lemma gives_open_mask k l : gives (open_mask_h alloc e iv k l) (open_mask e iv k l).
      Proof.
        induction l as [|v l IH]; [apply gives_lift|]. cbn [open_mask_h open_mask]. apply gives_bind; [apply gives_dec|intros t'].
        destruct (t' =? 0); [exact IH|apply gives_lift].
      Qed.
      Lemma gives_unmask C l d : gives (unmaskResult_h alloc e iv dbg live C l d) (unmaskResult dbg live e iv C l d).
      Proof. apply gives_bind; [apply gives_open_mask|]. intros [x|]; pure. Qed.
      Lemma gives_happens SC v : gives (happens_h alloc e iv dbg live SC v) (happens dbg live e iv SC v).
      Proof.
        destruct SC as [S C], v; cbn [happens_h happens]; try apply gives_lift;
          (apply gives_bind; [first [apply gives_lift|apply gives_prepare|apply gives_masks|apply gives_end|apply gives_unmask]|intros ?; apply gives_lift]).
      Qed.
      Lemma L_C92_values l SC : gives (history_h alloc e iv dbg live l SC) (history dbg live e iv l SC).
      Proof. apply gives_fold. exact gives_happens. Qed.
    End Opprf.
  End Cipher.
End Heap.
