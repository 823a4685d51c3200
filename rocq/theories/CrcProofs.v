(** Proofs about the CRC and the byte conversions. *)
From Coq Require Import ZArith List Bool Lia.
From Verif Require Import Outcome CrcTables CrcModel SpecCrc.
Import ListNotations.
Open Scope Z_scope.

(** ** The register is linear *)

Lemma odd_lxor a b : Z.odd (Z.lxor a b) = xorb (Z.odd a) (Z.odd b).
Proof. rewrite <- !Z.bit0_odd. apply Z.lxor_spec. Qed.

Lemma lxor_swap a b c d : Z.lxor (Z.lxor a b) (Z.lxor c d) = Z.lxor (Z.lxor a c) (Z.lxor b d).
Proof. rewrite !Z.lxor_assoc. f_equal. rewrite <- !Z.lxor_assoc. f_equal. apply Z.lxor_comm. Qed.

Lemma shift1_lxor a b : shift1 (Z.lxor a b) = Z.lxor (shift1 a) (shift1 b).
Proof.
  unfold shift1. rewrite odd_lxor, Z.shiftr_lxor. destruct (Z.odd a), (Z.odd b); cbn [xorb].
  - rewrite lxor_swap, Z.lxor_nilpotent, Z.lxor_0_r. reflexivity.
  - rewrite !Z.lxor_assoc. f_equal. apply Z.lxor_comm.
  - rewrite Z.lxor_assoc. reflexivity.
  - reflexivity.
Qed.

Lemma shifts_lxor k : forall a b, shifts k (Z.lxor a b) = Z.lxor (shifts k a) (shifts k b).
Proof. induction k as [|k IH]; intros a b; cbn [shifts]; [reflexivity|]. rewrite shift1_lxor. apply IH. Qed.

Lemma shifts_add j k c : shifts (j + k) c = shifts k (shifts j c).
Proof. revert c; induction j as [|j IH]; intros c; [reflexivity|]. cbn [shifts Nat.add]. apply IH. Qed.

Lemma shifts_0 k : shifts k 0 = 0.
Proof. induction k as [|k IH]; [reflexivity|exact IH]. Qed.

Lemma shift1_double x : shift1 (2 * x) = x.
Proof.
  unfold shift1. rewrite Z.odd_mul. cbn [Z.odd andb]. rewrite Z.shiftr_div_pow2 by lia.
  change (2 ^ 1) with 2. rewrite Z.mul_comm, Z.div_mul; lia.
Qed.

Lemma shifts_shiftl k x : shifts k (Z.shiftl x (Z.of_nat k)) = x.
Proof.
  revert x; induction k as [|k IH]; intros x; [cbn; apply Z.shiftl_0_r|].
  cbn [shifts]. rewrite Nat2Z.inj_succ, Z.shiftl_mul_pow2, Z.pow_succ_r by lia.
  replace (x * (2 * 2 ^ Z.of_nat k)) with (2 * (x * 2 ^ Z.of_nat k)) by ring.
  rewrite shift1_double, <- Z.shiftl_mul_pow2 by lia. apply IH.
Qed.

Lemma shifts_low k x : shifts (8 + k) (Z.shiftl x 8) = shifts k x.
Proof. rewrite shifts_add. f_equal. apply (shifts_shiftl 8 x). Qed.

Lemma shift1_range k c : 31 < k -> 0 <= c < 2 ^ k -> 0 <= shift1 c < 2 ^ k.
Proof.
  intros K [L H]. unfold shift1. rewrite Z.shiftr_div_pow2 by lia. change (2 ^ 1) with 2.
  assert (D : 0 <= c / 2 < 2 ^ k).
  { split; [apply Z.div_pos; lia|]. apply Z.div_lt_upper_bound; lia. }
  destruct (Z.odd c); [|exact D]. split; [apply Z.lxor_nonneg; split; [lia|intros; lia]|].
  assert (N : 0 <= Z.lxor (c / 2) 0x82F63B78) by (apply Z.lxor_nonneg; split; [lia|intros; lia]).
  destruct (Z.eq_dec (Z.lxor (c / 2) 0x82F63B78) 0) as [->|NZ]; [lia|].
  apply Z.log2_lt_pow2; [lia|]. eapply Z.le_lt_trans; [apply Z.log2_lxor; lia|].
  apply Z.max_lub_lt.
  - destruct (Z.eq_dec (c / 2) 0) as [->|N2]; [cbn; lia|]. apply Z.log2_lt_pow2; lia.
  - change (Z.log2 0x82F63B78) with 31. exact K.
Qed.

Lemma shifts_range j k c : 31 < k -> 0 <= c < 2 ^ k -> 0 <= shifts j c < 2 ^ k.
Proof. intros K. revert c; induction j as [|j IH]; intros c H; cbn [shifts]; [exact H|]. apply IH, shift1_range; assumption. Qed.

Lemma shifts_word k c : word c -> word (shifts k c).
Proof. apply shifts_range. lia. Qed.

Lemma lxor_range k a b : 0 <= k -> 0 <= a < 2 ^ k -> 0 <= b < 2 ^ k -> 0 <= Z.lxor a b < 2 ^ k.
Proof.
  intros K A B. assert (N : 0 <= Z.lxor a b) by (apply Z.lxor_nonneg; split; intros; lia). split; [exact N|].
  destruct (Z.eq_dec (Z.lxor a b) 0) as [->|NZ]; [lia|].
  apply Z.log2_lt_pow2; [lia|]. eapply Z.le_lt_trans; [apply Z.log2_lxor; lia|].
  destruct (Z.eq_dec a 0) as [->|NA], (Z.eq_dec b 0) as [->|NB].
  - rewrite Z.lxor_0_r in NZ. lia.
  - change (Z.log2 0) with 0. rewrite Z.max_r by apply Z.log2_nonneg. apply Z.log2_lt_pow2; lia.
  - change (Z.log2 0) with 0. rewrite Z.max_l by apply Z.log2_nonneg. apply Z.log2_lt_pow2; lia.
  - apply Z.max_lub_lt; apply Z.log2_lt_pow2; lia.
Qed.

Lemma byte_word b : byte b -> word b.
Proof. unfold byte, word. lia. Qed.

Lemma crc_byte_word c b : word c -> byte b -> word (crc_byte c b).
Proof. intros C B. apply shifts_word, lxor_range; [lia|exact C|apply byte_word; exact B]. Qed.

Lemma crc_word bs : Forall byte bs -> forall c, word c -> word (crc c bs).
Proof.
  induction 1 as [|b bs B _ IH]; intros c C; [exact C|]. apply IH, crc_byte_word; assumption.
Qed.

(** a nonzero word stays nonzero *)
Lemma shift1_nonzero c : word c -> shift1 c = 0 -> c = 0.
Proof.
  unfold word, shift1. intros C. rewrite Z.shiftr_div_pow2 by lia. change (2 ^ 1) with 2.
  destruct (Z.odd c) eqn:O; intros E.
  - apply Z.lxor_eq in E. assert (c < 2 * (c / 2) + 2) by (pose proof (Z.mul_succ_div_gt c 2); lia).
    pose proof (Z.mul_div_le c 2). lia.
  - pose proof (Z.div_mod c 2). rewrite Zmod_odd, O in H. lia.
Qed.

Lemma shifts_nonzero k : forall c, word c -> shifts k c = 0 -> c = 0.
Proof.
  induction k as [|k IH]; intros c C E; [exact E|]. cbn [shifts] in E.
  apply shift1_nonzero; [exact C|]. apply IH; [apply (shifts_word 1); exact C|exact E].
Qed.

(** ** The tables *)

Lemma forallb_seq f n i : forallb f (seq 0 n) = true -> (i < n)%nat -> f i = true.
Proof. intros H I. rewrite forallb_forall in H. apply H, in_seq. lia. Qed.

Definition table_ok (t : list Z) (k : nat) : bool :=
  forallb (fun i => nth i t 0 =? shifts k (Z.of_nat i)) (seq 0 256) && Nat.eqb (length t) 256.

Lemma tab_spec t k i : table_ok t k = true -> byte i -> tab t i = Ok (shifts k i).
Proof.
  unfold table_ok, byte, tab. rewrite andb_true_iff, Nat.eqb_eq. intros [F L] B. rewrite L.
  rewrite (proj2 (Z.leb_le 0 i)) by lia. rewrite (proj2 (Z.ltb_lt i (Z.of_nat 256))) by lia. cbn [andb].
  pose proof (forallb_seq _ _ (Z.to_nat i) F ltac:(lia)) as E. cbn beta in E. apply Z.eqb_eq in E.
  rewrite E, Z2Nat.id by lia. reflexivity.
Qed.

Lemma ok_single : table_ok crc32Table 8 = true. Proof. vm_compute. reflexivity. Qed.
Lemma ok_o32 : table_ok sctp_crc_tableil8_o32 8 = true. Proof. vm_compute. reflexivity. Qed.
Lemma ok_o40 : table_ok sctp_crc_tableil8_o40 16 = true. Proof. vm_compute. reflexivity. Qed.
Lemma ok_o48 : table_ok sctp_crc_tableil8_o48 24 = true. Proof. vm_compute. reflexivity. Qed.
Lemma ok_o56 : table_ok sctp_crc_tableil8_o56 32 = true. Proof. vm_compute. reflexivity. Qed.
Lemma ok_o64 : table_ok sctp_crc_tableil8_o64 40 = true. Proof. vm_compute. reflexivity. Qed.
Lemma ok_o72 : table_ok sctp_crc_tableil8_o72 48 = true. Proof. vm_compute. reflexivity. Qed.
Lemma ok_o80 : table_ok sctp_crc_tableil8_o80 56 = true. Proof. vm_compute. reflexivity. Qed.
Lemma ok_o88 : table_ok sctp_crc_tableil8_o88 64 = true. Proof. vm_compute. reflexivity. Qed.

Lemma land_byte c : byte (Z.land c 255).
Proof. unfold byte. change 255 with (Z.ones 8). rewrite Z.land_ones by lia. apply Z.mod_pos_bound. reflexivity. Qed.

Lemma split8 c : c = Z.lxor (Z.land c 255) (Z.shiftl (Z.shiftr c 8) 8).
Proof.
  apply Z.bits_inj'. intros i I. rewrite Z.lxor_spec. change 255 with (Z.ones 8).
  rewrite Z.land_spec, Z.shiftl_spec by lia.
  destruct (Z_lt_dec i 8).
  - rewrite Z.ones_spec_low by lia. rewrite (Z.testbit_neg_r _ (i - 8)) by lia. rewrite andb_true_r, xorb_false_r. reflexivity.
  - rewrite Z.ones_spec_high by lia. rewrite Z.shiftr_spec by lia. rewrite andb_false_r, xorb_false_l. f_equal. lia.
Qed.

Lemma shifts_split k c : shifts (8 + k) c = Z.lxor (shifts (8 + k) (Z.land c 255)) (shifts k (Z.shiftr c 8)).
Proof. rewrite (split8 c) at 1. rewrite shifts_lxor, shifts_low. reflexivity. Qed.

(** ** Reading *)

Lemma rd_in m p : 0 <= p < Z.of_nat (length (bytes m)) -> rd m p = Ok (nth (Z.to_nat p) (bytes m) 0).
Proof.
  intros H. unfold rd. rewrite (proj2 (Z.leb_le 0 p)), (proj2 (Z.ltb_lt _ _)) by lia. reflexivity.
Qed.

Lemma rd_out m p : ~ 0 <= p < Z.of_nat (length (bytes m)) -> rd m p = Err OutOfBounds.
Proof.
  intros H. unfold rd. destruct (0 <=? p) eqn:A; [|reflexivity]. destruct (p <? _) eqn:B; [|reflexivity].
  apply Z.leb_le in A. apply Z.ltb_lt in B. lia.
Qed.

Lemma nth_byte l i : Forall byte l -> byte (nth i l 0).
Proof.
  intros H. destruct (Nat.lt_ge_cases i (length l)) as [I|I].
  - rewrite Forall_forall in H. apply H, nth_In, I.
  - rewrite nth_overflow by exact I. unfold byte. lia.
Qed.

Lemma byte_step_spec t m c p : table_ok t 8 = true -> Forall byte (bytes m) -> 0 <= p < Z.of_nat (length (bytes m)) ->
  byte_step t m (c, p) = Ok (crc_byte c (nth (Z.to_nat p) (bytes m) 0), p + 1).
Proof.
  intros T F P. unfold byte_step. rewrite rd_in by exact P. cbn [bind]. rewrite (tab_spec _ _ _ T (land_byte _)). cbn [bind].
  unfold crc_byte. set (b := nth _ _ _). change (shifts 8 (Z.lxor c b)) with (shifts (8 + 0) (Z.lxor c b)).
  rewrite (shifts_split 0 (Z.lxor c b)). change (shifts 0 (Z.shiftr (Z.lxor c b) 8)) with (Z.shiftr (Z.lxor c b) 8). change (8 + 0)%nat with 8%nat.
  rewrite (Z.shiftr_lxor c b). replace (Z.shiftr b 8) with 0; [rewrite Z.lxor_0_r; reflexivity|].
  symmetry. apply Z.shiftr_eq_0_iff. pose proof (nth_byte (bytes m) (Z.to_nat p) F) as B. fold b in B. unfold byte in B.
  destruct (Z.eq_dec b 0); [lia|]. right. split; [lia|]. apply Z.log2_lt_pow2; lia.
Qed.

(** the first [n] bytes from [p] *)
Definition slice (l : list Z) (p : Z) (n : nat) : list Z := firstn n (skipn (Z.to_nat p) l).

Lemma nth_skipn {A} (d : A) : forall (p : nat) (l : list A) i, nth i (skipn p l) d = nth (p + i) l d.
Proof.
  induction p as [|p IH]; intros l i; [reflexivity|]. destruct l as [|a l]; [cbn; destruct i; reflexivity|]. cbn. apply IH.
Qed.

Lemma slice_S l p n : 0 <= p < Z.of_nat (length l) -> slice l p (S n) = nth (Z.to_nat p) l 0 :: slice l (p + 1) n.
Proof.
  intros P. unfold slice. rewrite Z2Nat.inj_add, Nat.add_1_r by lia. 
  assert (L : (Z.to_nat p < length l)%nat) by lia. revert L. generalize (Z.to_nat p) as q. clear P.
  intros q. revert l. induction q as [|q IH]; intros l L; destruct l as [|a l]; cbn in L; try lia; [reflexivity|].
  cbn [skipn nth]. rewrite IH by lia. reflexivity.
Qed.

Lemma bytes_spec t m n : table_ok t 8 = true -> Forall byte (bytes m) -> forall c p,
  0 <= p -> p + Z.of_nat n <= Z.of_nat (length (bytes m)) ->
  timesM n (byte_step t m) (c, p) = Ok (crc c (slice (bytes m) p n), p + Z.of_nat n).
Proof.
  intros T F. induction n as [|n IH]; intros c p P L; cbn [timesM].
  - rewrite Z.add_0_r. reflexivity.
  - rewrite (byte_step_spec t m c p T F) by lia. cbn [bind]. rewrite IH by lia.
    rewrite (slice_S (bytes m) p n) by lia. cbn [crc fold_left]. do 2 f_equal. lia.
Qed.

(** ** Closed form *)

Lemma add_lxor b x : byte b -> b + 256 * x = Z.lxor b (Z.shiftl x 8).
Proof.
  intros B. rewrite Z.shiftl_mul_pow2 by lia. change (2 ^ 8) with 256. rewrite (Z.mul_comm x).
  apply Z.add_nocarry_lxor. apply Z.bits_inj'. intros i I. rewrite Z.land_spec, Z.bits_0.
  destruct (Z_lt_dec i 8).
  - replace (256 * x) with (x * 2 ^ 8) by (change (2 ^ 8) with 256; ring). rewrite Z.mul_pow2_bits_low by lia. apply andb_false_r.
  - unfold byte in B. destruct (Z.eq_dec b 0) as [->|]; [rewrite Z.bits_0; reflexivity|].
    rewrite (Z.bits_above_log2 b i); [reflexivity|lia|]. assert (Z.log2 b < 8) by (apply Z.log2_lt_pow2; lia). lia.
Qed.

Lemma shifts_8 c b x : byte b -> shifts 8 (Z.lxor c (b + 256 * x)) = Z.lxor (crc_byte c b) x.
Proof.
  intros B. rewrite (add_lxor b x B), <- Z.lxor_assoc, shifts_lxor. f_equal. exact (shifts_shiftl 8 x).
Qed.

Lemma crc_closed bs : Forall byte bs -> forall c, crc c bs = shifts (8 * length bs) (Z.lxor c (little_endian bs)).
Proof.
  induction 1 as [|b bs B _ IH]; intros c.
  - cbn. rewrite Z.lxor_0_r. reflexivity.
  - cbn [crc fold_left length little_endian]. rewrite Nat.mul_succ_r, Nat.add_comm, shifts_add, (shifts_8 c b _ B). apply IH.
Qed.

Lemma crc_app c l l' : crc c (l ++ l') = crc (crc c l) l'.
Proof. apply fold_left_app. Qed.

Lemma shiftr_byte b k : byte b -> 8 <= k -> Z.shiftr b k = 0.
Proof.
  intros B K. apply Z.shiftr_eq_0_iff. unfold byte in B. destruct (Z.eq_dec b 0); [lia|]. right. split; [lia|].
  assert (Z.log2 b < 8) by (apply Z.log2_lt_pow2; lia). lia.
Qed.

Lemma lor_le b0 b1 b2 b3 : byte b0 -> byte b1 -> byte b2 -> byte b3 ->
  Z.lor b0 (Z.lor (Z.shiftl b1 8) (Z.lor (Z.shiftl b2 16) (Z.shiftl b3 24))) = little_endian [b0; b1; b2; b3].
Proof.
  intros B0 B1 B2 B3. cbn [little_endian]. rewrite Z.mul_0_r, Z.add_0_r.
  assert (A : forall b x, byte b -> Z.lor b (Z.shiftl x 8) = b + 256 * x).
  { intros b x B. rewrite (add_lxor b x B). apply Z.bits_inj'. intros i I. rewrite Z.lor_spec, Z.lxor_spec.
    destruct (Z_lt_dec i 8).
    - rewrite Z.shiftl_spec_low by lia. rewrite orb_false_r, xorb_false_r. reflexivity.
    - replace (Z.testbit b i) with false; [cbn; destruct (Z.testbit _ i); reflexivity|].
      symmetry. unfold byte in B. destruct (Z.eq_dec b 0) as [->|]; [apply Z.bits_0|]. apply Z.bits_above_log2; [lia|].
      assert (Z.log2 b < 8) by (apply Z.log2_lt_pow2; lia). lia. }
  change 24 with (8 + (8 + 8)). change 16 with (8 + 8). rewrite <- !Z.shiftl_shiftl, <- !Z.shiftl_lor by lia.
  rewrite (A b2 b3 B2), (A b1 _ B1), (A b0 _ B0). reflexivity.
Qed.

Lemma lxor_le c b0 b1 b2 b3 : byte b0 -> byte b1 -> byte b2 -> byte b3 ->
  Z.lxor (Z.lxor (Z.lxor (Z.lxor c b0) (Z.shiftl b1 8)) (Z.shiftl b2 16)) (Z.shiftl b3 24) =
  Z.lxor c (little_endian [b0; b1; b2; b3]).
Proof.
  intros B0 B1 B2 B3. cbn [little_endian]. rewrite Z.mul_0_r, Z.add_0_r.
  change 24 with (8 + (8 + 8)). change 16 with (8 + 8). rewrite <- !Z.shiftl_shiftl by lia.
  rewrite (add_lxor b2 b3 B2), (add_lxor b1 _ B1), (add_lxor b0 _ B0). rewrite !Z.shiftl_lxor, !Z.lxor_assoc. reflexivity.
Qed.

Lemma land_small b : byte b -> Z.land b 255 = b.
Proof. intros B. change 255 with (Z.ones 8). rewrite Z.land_ones by lia. apply Z.mod_small. exact B. Qed.

Lemma land_le b x : byte b -> Z.land (b + 256 * x) 255 = b.
Proof. intros B. change 255 with (Z.ones 8). rewrite Z.land_ones by lia. change (2 ^ 8) with 256.
  rewrite Z.mul_comm, Z.mod_add by lia. apply Z.mod_small. exact B. Qed.
Lemma shiftr_le b x : byte b -> Z.shiftr (b + 256 * x) 8 = x.
Proof. intros B. rewrite Z.shiftr_div_pow2 by lia. change (2 ^ 8) with 256. rewrite Z.mul_comm, Z.div_add by lia.
  rewrite Z.div_small by exact B. lia. Qed.

Lemma word_hi w : word w -> Z.land (Z.shiftr w 24) 255 = Z.shiftr w 24.
Proof.
  intros W. apply land_small. rewrite Z.shiftr_div_pow2 by lia. unfold word, byte in *. split; [apply Z.div_pos; lia|].
  apply Z.div_lt_upper_bound; lia.
Qed.

Opaque shifts.

(** the 64-bit step on the first word, and the second *)
Lemma step64 w : word w ->
  shifts 64 w = Z.lxor (Z.lxor (Z.lxor (shifts 64 (Z.land w 255)) (shifts 56 (Z.land (Z.shiftr w 8) 255)))
    (shifts 48 (Z.land (Z.shiftr w 16) 255))) (shifts 40 (Z.land (Z.shiftr (Z.shiftr w 16) 8) 255)).
Proof.
  intros W.
  assert (S64 : forall c, shifts 64 c = Z.lxor (shifts 64 (Z.land c 255)) (shifts 56 (Z.shiftr c 8))) by exact (shifts_split 56).
  assert (S56 : forall c, shifts 56 c = Z.lxor (shifts 56 (Z.land c 255)) (shifts 48 (Z.shiftr c 8))) by exact (shifts_split 48).
  assert (S48 : forall c, shifts 48 c = Z.lxor (shifts 48 (Z.land c 255)) (shifts 40 (Z.shiftr c 8))) by exact (shifts_split 40).
  rewrite (S64 w) at 1. rewrite (S56 (Z.shiftr w 8)), (S48 (Z.shiftr (Z.shiftr w 8) 8)).
  rewrite !Z.shiftr_shiftr by lia. change (8 + 8) with 16. change (16 + 8) with 24.
  rewrite (word_hi w W). rewrite !Z.lxor_assoc. reflexivity.
Qed.

Lemma step32 w : word w ->
  shifts 32 w = Z.lxor (Z.lxor (Z.lxor (shifts 32 (Z.land w 255)) (shifts 24 (Z.land (Z.shiftr w 8) 255)))
    (shifts 16 (Z.land (Z.shiftr w 16) 255))) (shifts 8 (Z.land (Z.shiftr (Z.shiftr w 16) 8) 255)).
Proof.
  intros W.
  assert (S64 : forall c, shifts 32 c = Z.lxor (shifts 32 (Z.land c 255)) (shifts 24 (Z.shiftr c 8))) by exact (shifts_split 24).
  assert (S56 : forall c, shifts 24 c = Z.lxor (shifts 24 (Z.land c 255)) (shifts 16 (Z.shiftr c 8))) by exact (shifts_split 16).
  assert (S48 : forall c, shifts 16 c = Z.lxor (shifts 16 (Z.land c 255)) (shifts 8 (Z.shiftr c 8))) by exact (shifts_split 8).
  rewrite (S64 w) at 1. rewrite (S56 (Z.shiftr w 8)), (S48 (Z.shiftr (Z.shiftr w 8) 8)).
  rewrite !Z.shiftr_shiftr by lia. change (8 + 8) with 16. change (16 + 8) with 24.
  rewrite (word_hi w W). rewrite !Z.lxor_assoc. reflexivity.
Qed.

Lemma le_word b0 b1 b2 b3 : byte b0 -> byte b1 -> byte b2 -> byte b3 -> word (little_endian [b0; b1; b2; b3]).
Proof. unfold byte, word. cbn [little_endian]. lia. Qed.

Lemma crc8 c b0 b1 b2 b3 b4 b5 b6 b7 : Forall byte [b0; b1; b2; b3; b4; b5; b6; b7] ->
  crc c [b0; b1; b2; b3; b4; b5; b6; b7] =
  Z.lxor (shifts 64 (Z.lxor c (little_endian [b0; b1; b2; b3]))) (shifts 32 (little_endian [b4; b5; b6; b7])).
Proof.
  intros F. change [b0; b1; b2; b3; b4; b5; b6; b7] with ([b0; b1; b2; b3] ++ [b4; b5; b6; b7]) in *.
  apply Forall_app in F. destruct F as [F1 F2].
  rewrite crc_app, (crc_closed _ F1), (crc_closed _ F2). cbn [length Nat.mul Nat.add].
  rewrite (shifts_lxor 32 (shifts 32 _)). rewrite <- (shifts_add 32 32).
  assert (E : (32 + 32 = 64)%nat) by reflexivity. rewrite E. reflexivity.
Qed.

Lemma sb8_spec be m c p : Forall byte (bytes m) -> word c -> 0 <= p -> p + 8 <= Z.of_nat (length (bytes m)) ->
  (be = false -> (base m + p) mod 4 = 0) ->
  sb8_step be m (c, p) = Ok (crc c (slice (bytes m) p 8), p + 8).
Proof.
  intros F C P L A.
  assert (S : slice (bytes m) p 8 = [nth (Z.to_nat p) (bytes m) 0; nth (Z.to_nat (p + 1)) (bytes m) 0;
    nth (Z.to_nat (p + 2)) (bytes m) 0; nth (Z.to_nat (p + 3)) (bytes m) 0; nth (Z.to_nat (p + 4)) (bytes m) 0;
    nth (Z.to_nat (p + 5)) (bytes m) 0; nth (Z.to_nat (p + 6)) (bytes m) 0; nth (Z.to_nat (p + 7)) (bytes m) 0]).
  { rewrite !slice_S by lia. rewrite <- !Z.add_assoc. reflexivity. }
  rewrite S.
  assert (R : forall i, 0 <= i < 8 -> rd m (p + i) = Ok (nth (Z.to_nat (p + i)) (bytes m) 0)) by (intros; apply rd_in; lia).
  pose proof (R 0 ltac:(lia)) as R0. rewrite Z.add_0_r in R0.
  pose proof (R 1 ltac:(lia)) as R1. pose proof (R 2 ltac:(lia)) as R2. pose proof (R 3 ltac:(lia)) as R3.
  pose proof (R 4 ltac:(lia)) as R4. pose proof (R 5 ltac:(lia)) as R5. pose proof (R 6 ltac:(lia)) as R6. pose proof (R 7 ltac:(lia)) as R7.
  revert R0 R1 R2 R3 R4 R5 R6 R7.
  pose proof (nth_byte (bytes m) (Z.to_nat p) F) as B0. pose proof (nth_byte (bytes m) (Z.to_nat (p + 1)) F) as B1.
  pose proof (nth_byte (bytes m) (Z.to_nat (p + 2)) F) as B2. pose proof (nth_byte (bytes m) (Z.to_nat (p + 3)) F) as B3.
  pose proof (nth_byte (bytes m) (Z.to_nat (p + 4)) F) as B4. pose proof (nth_byte (bytes m) (Z.to_nat (p + 5)) F) as B5.
  pose proof (nth_byte (bytes m) (Z.to_nat (p + 6)) F) as B6. pose proof (nth_byte (bytes m) (Z.to_nat (p + 7)) F) as B7.
  revert B0 B1 B2 B3 B4 B5 B6 B7.
  generalize (nth (Z.to_nat p) (bytes m) 0) as b0, (nth (Z.to_nat (p + 1)) (bytes m) 0) as b1,
    (nth (Z.to_nat (p + 2)) (bytes m) 0) as b2, (nth (Z.to_nat (p + 3)) (bytes m) 0) as b3,
    (nth (Z.to_nat (p + 4)) (bytes m) 0) as b4, (nth (Z.to_nat (p + 5)) (bytes m) 0) as b5,
    (nth (Z.to_nat (p + 6)) (bytes m) 0) as b6, (nth (Z.to_nat (p + 7)) (bytes m) 0) as b7.
  intros b0 b1 b2 b3 b4 b5 b6 b7 B0 B1 B2 B3 B4 B5 B6 B7 R0 R1 R2 R3 R4 R5 R6 R7. clear R S.
  rewrite crc8 by (repeat (constructor; [assumption|]); constructor).
  pose proof (le_word b0 b1 b2 b3 B0 B1 B2 B3) as W1. pose proof (le_word b4 b5 b6 b7 B4 B5 B6 B7) as W2.
  assert (W : word (Z.lxor c (little_endian [b0; b1; b2; b3]))) by (apply lxor_range; [lia|exact C|exact W1]).
  rewrite (step64 _ W).
  assert (E2 : shifts 32 (little_endian [b4; b5; b6; b7]) = Z.lxor (Z.lxor (Z.lxor (shifts 32 b4) (shifts 24 b5)) (shifts 16 b6)) (shifts 8 b7)).
  { rewrite (step32 _ W2). cbn [little_endian]. rewrite Z.mul_0_r, Z.add_0_r.
    change 16 with (8 + 8). rewrite <- !(Z.shiftr_shiftr _ 8) by lia.
    rewrite !(shiftr_le b4) by exact B4. rewrite !(shiftr_le b5) by exact B5. rewrite (shiftr_le b6) by exact B6.
    rewrite (land_le b4), (land_le b5), (land_le b6), (land_small b7) by assumption. reflexivity. }
  unfold sb8_step. destruct be.
  - rewrite R0, R1, R2, R3. cbn [bind]. rewrite (lxor_le c b0 b1 b2 b3 B0 B1 B2 B3).
    set (w := Z.lxor c _) in *.
    rewrite (tab_spec _ _ _ ok_o88 (land_byte _)). cbn [bind]. rewrite (tab_spec _ _ _ ok_o80 (land_byte _)). cbn [bind].
    rewrite (tab_spec _ _ _ ok_o72 (land_byte _)). cbn [bind]. rewrite (tab_spec _ _ _ ok_o64 (land_byte _)). cbn [bind].
    rewrite R4. cbn [bind]. rewrite (tab_spec _ _ _ ok_o56 B4). cbn [bind].
    rewrite R5. cbn [bind]. rewrite (tab_spec _ _ _ ok_o48 B5). cbn [bind].
    rewrite R6. cbn [bind]. rewrite (tab_spec _ _ _ ok_o40 B6). cbn [bind].
    rewrite R7. cbn [bind]. rewrite (tab_spec _ _ _ ok_o32 B7). cbn [bind].
    rewrite E2, !Z.lxor_assoc. reflexivity.
  - specialize (A eq_refl). unfold rd32.
    rewrite A. rewrite R0, R1, R2, R3. cbn [Z.eqb bind]. rewrite (lor_le b0 b1 b2 b3 B0 B1 B2 B3).
    set (w := Z.lxor c _) in *.
    rewrite (tab_spec _ _ _ ok_o88 (land_byte _)). cbn [bind]. rewrite (tab_spec _ _ _ ok_o80 (land_byte _)). cbn [bind].
    rewrite (tab_spec _ _ _ ok_o72 (land_byte _)). cbn [bind]. rewrite (tab_spec _ _ _ ok_o64 (land_byte _)). cbn [bind].
    rewrite !Z.add_assoc.
    replace ((base m + p + 4) mod 4) with 0 by (rewrite <- (Z.mul_1_l 4) at 1; rewrite Z.mod_add by lia; symmetry; exact A).
    rewrite <- !Z.add_assoc. cbn [Z.eqb Z.add Pos.add Pos.succ Pos.add_carry]. rewrite R4, R5, R6, R7. cbn [bind].
    rewrite (lor_le b4 b5 b6 b7 B4 B5 B6 B7).
    rewrite (tab_spec _ _ _ ok_o56 (land_byte _)). cbn [bind]. rewrite (tab_spec _ _ _ ok_o48 (land_byte _)). cbn [bind].
    rewrite (tab_spec _ _ _ ok_o40 (land_byte _)). cbn [bind]. rewrite (tab_spec _ _ _ ok_o32 (land_byte _)). cbn [bind].
    rewrite (step32 _ W2), !Z.lxor_assoc. reflexivity.
Qed.
