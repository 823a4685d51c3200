(** Counter mode with a permutation. *)
From Coq Require Import ZArith List Bool Lia.
From Verif Require CrcProofs3.
From Verif Require Import Outcome SpecCrc CrcModel CrcProofs CrcProofs2 AesModel SpecAes AesProofs Aes128 SpecAes2 Aes128Proofs SpecPair.
Import ListNotations.
Open Scope Z_scope.

#[local] Opaque aes128.
Lemma counter_16 z : is16 (block_of z).
Proof. destruct (proj2 (L_C46_counter z (block_of z)) eq_refl) as [L [F _]]. split; assumption. Qed.
Lemma counter_inj z z' : block_of z = block_of z' -> z mod 2 ^ 128 = z' mod 2 ^ 128.
Proof.
  intros E. destruct (proj2 (L_C46_counter z (block_of z)) eq_refl) as [_ [_ H]].
  destruct (proj2 (L_C46_counter z' (block_of z')) eq_refl) as [_ [_ H']]. rewrite E in H. congruence.
Qed.
Lemma counter_id l : is16 l -> block_of (big_endian l) = l.
Proof.
  intros [L F]. symmetry. apply L_C46_counter. split; [exact L|]. split; [exact F|].
  symmetry. apply Z.mod_small. pose proof (be_range l F) as R. rewrite L in R. exact R.
Qed.

Lemma L_C111_stream f k iv i j : block_cipher f -> injective f k -> (i < j)%nat -> Z.of_nat j - Z.of_nat i < 2 ^ 128 ->
  ~ (forall r, (r < 16)%nat -> stream_byte f k iv (16 * i + r) = stream_byte f k iv (16 * j + r)).
Proof.
  intros B I Hij Hd H.
  assert (E : f k (block_of (big_endian iv + Z.of_nat i)) = f k (block_of (big_endian iv + Z.of_nat j))).
  { apply (nth_ext _ _ 0 0); [rewrite (proj1 (B k _)), (proj1 (B k _)); reflexivity|].
    intros r Hr. rewrite (proj1 (B k _)) in Hr. specialize (H r Hr). unfold stream_byte in H.
    rewrite !(Nat.mul_comm 16), !(Nat.add_comm _ r), !Nat.mod_add, !Nat.div_add, Nat.mod_small, Nat.div_small in H by lia. exact H. }
  apply I in E; [|apply counter_16|apply counter_16]. apply counter_inj in E.
  assert (D : (2 ^ 128 | Z.of_nat j - Z.of_nat i)).
  { replace (Z.of_nat j - Z.of_nat i) with ((big_endian iv + Z.of_nat j) - (big_endian iv + Z.of_nat i)) by ring.
    apply Z.mod_divide; [discriminate|]. rewrite Zminus_mod, E, Z.sub_diag. reflexivity. }
  apply Z.divide_pos_le in D; lia.
Qed.

Lemma L_C111_blocks e iv v text key k : block_cipher (block e) -> injective (block e) k -> iv_block e iv = Ok v ->
  leading16 (getRawMpz key) k -> nbytes text <= 128 ->
  exists out, length out = length (getRawMpz text) /\ encrypt e iv text key = Ok (big_endian out) /\
    forall i j, (i < j)%nat -> (16 * j + 16 <= length out)%nat -> same_block (getRawMpz text) i j -> ~ same_block out i j.
Proof.
  intros B I V K N. destruct (L_C46_ctr e iv v text key k B V K N) as [out [_ [[L C] [E _]]]].
  exists out. split; [exact L|]. split; [exact E|]. intros i j Hij Hj Hs Ho.
  assert (LL : Z.of_nat (length out) <= 128).
  { rewrite L. rewrite getRaw_length. exact N. }
  apply (L_C111_stream (block e) k v i j B I Hij); [assert (Z.of_nat j <= 128) by lia; lia|].
  intros r Hr. specialize (Hs r Hr). specialize (Ho r Hr). rewrite !C in Ho by lia. rewrite Hs in Ho.
  apply (f_equal (Z.lxor (nth (16 * j + r) (getRawMpz text) 0))) in Ho.
  rewrite <- !Z.lxor_assoc, Z.lxor_nilpotent, !Z.lxor_0_l in Ho. exact Ho.
Qed.

Lemma perm_injective f k inv : (forall b, is16 b -> inv (f k b) = b) -> injective f k.
Proof. intros H b b' Hb Hb' E. rewrite <- (H b Hb), E. apply H, Hb'. Qed.
Lemma L_C111_injective k : is16 k -> injective aes128 k.
Proof. intros Hk. destruct (L_C111_permutation k Hk) as [inv H]. apply (perm_injective _ _ inv). intros b Hb. exact (proj1 (H b Hb)). Qed.

(** ** Counting initial vectors *)
Fixpoint words (n : nat) : list (list Z) :=
  match n with O => [[]] | S n' => flat_map (fun b => map (cons b) (words n')) all_bytes end.
Lemma words_In n l : In l (words n) <-> length l = n /\ Forall byte l.
Proof.
  revert l. induction n as [|n IH]; intros l; cbn [words].
  - split; [intros [<-|[]]; split; [reflexivity|apply Forall_nil]|]. intros [L _]. destruct l; [left; reflexivity|discriminate].
  - rewrite in_flat_map. split.
    + intros [b [Hb Hl]]. apply in_map_iff in Hl. destruct Hl as [l' [<- Hl]]. apply IH in Hl. destruct Hl as [L F].
      split; [cbn [length]; congruence|]. apply Forall_cons; [|exact F]. unfold all_bytes in Hb. apply in_map_iff in Hb.
      destruct Hb as [i [<- Hi]]. apply in_seq in Hi. unfold byte. lia.
    + intros [L F]. destruct l as [|b l]; [discriminate|]. inversion_clear F. exists b. split; [apply all_bytes_In; assumption|].
      apply in_map. apply IH. split; [cbn in L; congruence|assumption].
Qed.
Lemma all_bytes_NoDup : NoDup all_bytes.
Proof. apply FinFun.Injective_map_NoDup; [intros x y; apply Nat2Z.inj|apply seq_NoDup]. Qed.
Lemma flat_cons_NoDup (m : list (list Z)) bs : NoDup bs -> NoDup m -> NoDup (flat_map (fun b => map (cons b) m) bs).
Proof.
  intros Hb Hm. induction Hb as [|b bs Hnin Hb IH]; [apply NoDup_nil|]. cbn [flat_map].
  assert (A : forall (a c : list (list Z)), NoDup a -> NoDup c -> (forall x, In x a -> ~ In x c) -> NoDup (a ++ c)).
  { clear. intros a c Ha Hc. induction Ha as [|x a Hx Ha IHa]; intros D; [exact Hc|]. cbn [app]. constructor.
    - rewrite in_app_iff. intros [H|H]; [apply Hx, H|apply (D x (or_introl eq_refl) H)].
    - apply IHa. intros y Hy. apply D. right. exact Hy. }
  apply A; [|exact IH|].
  - apply FinFun.Injective_map_NoDup; [intros x y E; congruence|exact Hm].
  - intros x Hx Hin. apply in_map_iff in Hx. destruct Hx as [l [<- _]]. apply in_flat_map in Hin. destruct Hin as [b' [Hb' Hl]].
    apply in_map_iff in Hl. destruct Hl as [l' [E _]]. injection E as -> _. apply Hnin, Hb'.
Qed.
Lemma words_NoDup n : NoDup (words n).
Proof.
  induction n as [|n IH]; cbn [words]; [constructor; [intros []|constructor]|]. apply flat_cons_NoDup; [apply all_bytes_NoDup|exact IH].
Qed.
Lemma words_length n : Z.of_nat (length (words n)) = 256 ^ Z.of_nat n.
Proof.
  induction n as [|n IH]; [reflexivity|]. cbn [words]. rewrite Nat2Z.inj_succ, Z.pow_succ_r, <- IH by lia.
  assert (H : forall bs : list Z, length (flat_map (fun b => map (cons b) (words n)) bs) = (length bs * length (words n))%nat).
  { induction bs as [|b bs IHb]; [reflexivity|]. cbn [flat_map length Nat.mul]. rewrite app_length, map_length, IHb. reflexivity. }
  rewrite H, Nat2Z.inj_mul. reflexivity.
Qed.

Lemma L_C111_blocks_count : has_size is16 (256 ^ 16).
Proof. exists (words 16). split; [apply words_NoDup|]. split; [intros x; symmetry; apply words_In|apply words_length]. Qed.

Lemma L_C111_vectors k b : is16 k -> byte b -> has_size (fun v => is16 v /\ stream_byte aes128 k v 0 = b) (256 ^ 15).
Proof.
  intros Hk Hb. destruct (L_C111_permutation k Hk) as [inv P].
  assert (C16 : forall l, In l (words 15) -> is16 (b :: l)).
  { intros l Hl. apply words_In in Hl. destruct Hl as [L F]. split; [cbn [length]; rewrite L; reflexivity|apply Forall_cons; assumption]. }
  assert (S0 : forall v, is16 v -> stream_byte aes128 k v 0 = nth 0 (aes128 k v) 0).
  { intros v Hv. unfold stream_byte. change (0 mod 16)%nat with 0%nat. change (0 / 16)%nat with 0%nat.
    change (Z.of_nat 0) with 0. rewrite Z.add_0_r, (counter_id v Hv). reflexivity. }
  exists (map (fun l => inv (b :: l)) (words 15)). split; [|split].
  - assert (Inj : forall x y, In x (words 15) -> In y (words 15) -> inv (b :: x) = inv (b :: y) -> x = y).
    { intros x y Hx Hy E. destruct (P _ (C16 x Hx)) as [_ [_ E1]]. destruct (P _ (C16 y Hy)) as [_ [_ E2]].
      rewrite E in E1. rewrite E1 in E2. injection E2 as ->. reflexivity. }
    pose proof (words_NoDup 15) as ND. clear C16 S0. revert Inj. induction ND as [|x l Hx ND IH]; intros Inj; cbn [map]; constructor.
    + intros Hin. apply in_map_iff in Hin. destruct Hin as [y [E Hy]]. apply Hx.
      rewrite <- (Inj y x (or_intror Hy) (or_introl eq_refl) E). exact Hy.
    + apply IH. intros a c Ha Hc. apply Inj; right; assumption.
  - intros v. rewrite in_map_iff. split.
    + intros [Hv Hs]. rewrite S0 in Hs by exact Hv. pose proof (aes_16 k v) as HA.
      destruct (aes128 k v) as [|x l] eqn:EA; [destruct HA; discriminate|]. cbn [nth] in Hs. subst x.
      exists l. split; [rewrite <- EA; exact (proj1 (P v Hv))|]. destruct HA as [L F]. inversion_clear F. apply words_In. split; [cbn in L; congruence|assumption].
    + intros [l [<- Hl]]. destruct (P _ (C16 l Hl)) as [_ [H1 H2]]. split; [exact H1|]. rewrite S0 by exact H1. rewrite H2. reflexivity.
  - rewrite map_length. apply words_length.
Qed.

Lemma iv_block_16 e v : is16 v -> iv_block e v = Ok v.
Proof.
  intros [L _]. unfold iv_block. cbv zeta.
  assert (H : (Z.of_nat (length (v ++ 0 :: after_iv e)) <? 16) = false) by (apply Z.ltb_ge; rewrite app_length, L; cbn [length]; lia).
  rewrite H. rewrite firstn_app, L, Nat.sub_diag, firstn_O, app_nil_r. rewrite <- L, firstn_all. reflexivity.
Qed.
Lemma leading_16 key k : leading16 (getRawMpz key) k -> is16 k.
Proof.
  intros [L [r E]]. split; [exact L|]. pose proof (CrcProofs3.raw_bytes key) as F. rewrite E in F. apply Forall_app in F. apply F.
Qed.
Lemma size_ext {X} (D D' : X -> Prop) N : (forall x, D x <-> D' x) -> has_size D N -> has_size D' N.
Proof.
  intros H [l [ND [HD HN]]]. exists l. split; [exact ND|]. split; [|exact HN]. intros x. rewrite <- H. apply HD.
Qed.
Lemma L_C111_good e key k : block e = aes128 -> leading16 (getRawMpz key) k ->
  has_size (fun v => is16 v /\ forall m, 0 < m -> nbytes m <= 128 -> exists c, encrypt e v m key = Ok c /\ decrypt e v c key = Ok m) (256 ^ 15).
Proof.
  intros EB K. assert (BC : block_cipher (block e)) by (rewrite EB; exact L_C111_cipher).
  apply (size_ext (fun v => is16 v /\ stream_byte aes128 k v 0 = 0)).
  - intros v. split; intros [Hv H]; (split; [exact Hv|]).
    + apply (L_C46_when e v v key k BC (iv_block_16 e v Hv) K). rewrite EB. exact H.
    + pose proof (proj1 (L_C46_when e v v key k BC (iv_block_16 e v Hv) K) H) as H'. rewrite EB in H'. exact H'.
  - apply L_C111_vectors; [apply (leading_16 key k K)|unfold byte; lia].
Qed.

Lemma L_C111_answers :
  aes128 (block_of 0x2b7e151628aed2a6abf7158809cf4f3c) (block_of 0x3243f6a8885a308d313198a2e0370734) = block_of 0x3925841d02dc09fbdc118597196a0b32 /\
  aes128 (block_of 0x000102030405060708090a0b0c0d0e0f) (block_of 0x00112233445566778899aabbccddeeff) = block_of 0x69c4e0d86a7b0430d8cdb78070b4c55a.
Proof. vm_compute. split; reflexivity. Qed.
