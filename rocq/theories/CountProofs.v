(** How many ciphertexts the check lets pass: proofs. *)
From Coq Require Import ZArith List Bool Lia.
From Verif Require Import Outcome CrcModel SpecCrc CrcProofs CrcProofs2 CrcProofs3 CrcProofs4 AesModel SpecAes AesProofs AesProofs2 SpecCount CountMath.
Import ListNotations.
Open Scope Z_scope.

(** ** The key stream as a number *)
Definition stream_number (e : env) (k v : list Z) (L : nat) : Z := big_endian (map (stream_byte (block e) k v) (seq 0 L)).

Lemma stream_bytes e k v L : block_cipher (block e) -> Forall byte (map (stream_byte (block e) k v) (seq 0 L)).
Proof. intros B. apply Forall_forall. intros x I. apply in_map_iff in I. destruct I as [i [<- _]]. apply stream_byte_byte, B. Qed.
Lemma stream_range e k v L : block_cipher (block e) -> 0 <= stream_number e k v L < 256 ^ Z.of_nat L.
Proof. intros B. pose proof (be_range _ (stream_bytes e k v L B)) as R. rewrite map_length, seq_length in R. exact R. Qed.
Lemma stream_top e k v L : block_cipher (block e) -> stream_number e k v (S L) / 256 ^ Z.of_nat L = stream_byte (block e) k v 0.
Proof.
  intros B. unfold stream_number. cbn [seq map big_endian]. rewrite map_length, seq_length.
  assert (F : Forall byte (map (stream_byte (block e) k v) (seq 1 L))).
  { apply Forall_forall. intros x I. apply in_map_iff in I. destruct I as [i [<- _]]. apply stream_byte_byte, B. }
  pose proof (be_range _ F) as R. rewrite map_length, seq_length in R.
  rewrite Z.div_add_l by lia. rewrite (Z.div_small (big_endian _)) by exact R. ring.
Qed.

Lemma crypt_xor e iv v key k L c : block_cipher (block e) -> iv_block e iv = Ok v -> leading16 (getRawMpz key) k -> 0 <= c ->
  nbytes c = Z.of_nat L -> (L <= 128)%nat -> crypt e iv c key = Ok (Z.lxor c (stream_number e k v L)).
Proof.
  intros B V K C N S. destruct (L_C46_ctr e iv v c key k B V K ltac:(lia)) as [o [F [[LO HO] [E _]]]].
  unfold encrypt in E. rewrite E. apply f_equal.
  pose proof (L_getRaw c) as [FC [VC _]]. rewrite Z.abs_eq in VC by lia.
  assert (LC : length (getRawMpz c) = L) by (apply Nat2Z.inj; rewrite getRaw_length; exact N).
  rewrite <- VC at 1. unfold stream_number. rewrite be_xor; [|rewrite map_length, seq_length; exact LC|exact FC|apply stream_bytes, B].
  apply f_equal, list_ext; [rewrite xor_length by (rewrite map_length, seq_length; lia); exact LO|].
  intros i I. rewrite LO in I. rewrite HO by exact I. rewrite xor_nth by (rewrite ?map_length, ?seq_length; lia). apply f_equal.
  rewrite (nth_indep _ 0 (stream_byte (block e) k v 0)) by (rewrite map_length, seq_length; lia).
  rewrite map_nth, seq_nth by lia. reflexivity.
Qed.

(** ** Lengths *)
Lemma nbytes_is n L : 0 < n -> 0 < L -> (nbytes n = L <-> 256 ^ (L - 1) <= n < 256 ^ L).
Proof.
  intros N P. unfold nbytes. rewrite (proj2 (Z.eqb_neq n 0)), Z.abs_eq by lia. rewrite !pow256 by lia. split.
  - intros E. pose proof (Z.log2_spec n N) as [A B]. pose proof (Z.div_mod (Z.log2 n) 8 ltac:(lia)). pose proof (Z.mod_pos_bound (Z.log2 n) 8 ltac:(lia)).
    split; [apply Z.le_trans with (2 ^ Z.log2 n); [apply Z.pow_le_mono_r; lia|exact A]|].
    apply Z.lt_le_trans with (2 ^ Z.succ (Z.log2 n)); [exact B|apply Z.pow_le_mono_r; lia].
  - intros [A B]. apply Z.log2_le_pow2 in A; [|exact N]. apply Z.log2_lt_pow2 in B; [|exact N].
    assert (Z.log2 n / 8 = L - 1); [|lia]. symmetry. apply (Z.div_unique _ _ _ (Z.log2 n - 8 * (L - 1))); lia.
Qed.
Lemma checked_split m : 0 < m -> nbytes m <= 124 -> exists t, 0 <= t < 2 ^ 32 /\ checked false m = m * 2 ^ 32 + t.
Proof.
  intros M N. exists (big_endian (obj32 false (crcl (getRawMpz m)))). split; [apply (obj_be_range false)|].
  unfold checked. rewrite be_app, obj32_length. pose proof (L_getRaw m) as [_ [V _]]. rewrite Z.abs_eq in V by lia. rewrite V. reflexivity.
Qed.
Lemma accept_iff e m p : big_endian_host e = false -> 0 < m -> nbytes m <= 124 -> p = checked false m ->
  validateCRC (big_endian_host e) (heap e) p = Ok true /\ removeCRC p = Ok m.
Proof.
  intros H M N ->. rewrite H. destruct (L_C42 (fun len => len + 4) 0 (heap e) m M ltac:(lia) ltac:(cbv beta; lia)) as [r [A [V R]]].
  rewrite checked_append in A; [|exact M|lia]. apply Ok_inj in A. subst r. split; assumption.
Qed.

Section Count.
  Variables (e : env) (iv v : list Z) (key : Z) (k : list Z) (n : nat).
  Hypothesis B : block_cipher (block e).
  Hypothesis V : iv_block e iv = Ok v.
  Hypothesis K : leading16 (getRawMpz key) k.
  Hypothesis LE : big_endian_host e = false.
  Notation L := (Z.of_nat n).
  Notation s := (stream_number e k v n).
  Notation s0 := (stream_byte (block e) k v 0).

  Lemma xx a b : Z.lxor (Z.lxor a b) b = a.
  Proof. rewrite Z.lxor_assoc, Z.lxor_nilpotent. apply Z.lxor_0_r. Qed.
  Lemma s_range : 0 <= s < 256 ^ L. Proof. apply stream_range, B. Qed.
  Lemma xor_bound p : 0 <= p < 256 ^ L -> 0 <= Z.lxor p s < 256 ^ L.
  Proof. intros P. pose proof s_range as R. rewrite pow256 in * by lia. apply lxor_range; [lia|exact P|exact R]. Qed.
  (** the length of a ciphertext in terms of its plaintext *)
  Lemma long p : (1 <= n)%nat -> 0 <= p < 256 ^ L ->
    ((0 < Z.lxor p s /\ nbytes (Z.lxor p s) = L) <-> p / 256 ^ (L - 1) <> s0).
  Proof.
    intros N P. pose proof (xor_bound p P) as R. pose proof s_range as S.
    assert (T : s / 256 ^ (L - 1) = s0).
    { replace (L - 1) with (Z.of_nat (n - 1)) by lia. replace s with (stream_number e k v (Datatypes.S (n - 1))) by (f_equal; lia). apply stream_top, B. }
    assert (X : Z.lxor p s / 256 ^ (L - 1) = Z.lxor (p / 256 ^ (L - 1)) (s / 256 ^ (L - 1))).
    { rewrite pow256 by lia. rewrite <- !Z.shiftr_div_pow2 by lia. apply Z.shiftr_lxor. }
    assert (Q : 0 < 256 ^ (L - 1)) by (apply Z.pow_pos_nonneg; lia). rewrite T in X. split.
    - intros [C E] F. rewrite F, Z.lxor_nilpotent in X. apply nbytes_is in E; [|exact C|lia]. apply Z.div_small_iff in X; [|lia]. lia.
    - intros F. assert (NZ : Z.lxor p s / 256 ^ (L - 1) <> 0) by (rewrite X; intros Z; apply F; apply Z.lxor_eq; exact Z).
      assert (256 ^ (L - 1) <= Z.lxor p s).
      { destruct (Z.lt_ge_cases (Z.lxor p s) (256 ^ (L - 1))) as [H|H]; [|exact H]. exfalso. apply NZ. apply Z.div_small. lia. }
      split; [lia|]. apply nbytes_is; lia.
  Qed.
  Lemma dec p : (n <= 128)%nat -> 0 < Z.lxor p s -> nbytes (Z.lxor p s) = L -> decrypt e iv (Z.lxor p s) key = Ok p.
  Proof. intros N P E. unfold decrypt. rewrite (crypt_xor e iv v key k n _ B V K (Z.lt_le_incl _ _ P) E N). rewrite xx. reflexivity. Qed.

  Lemma L_C104_accepted : (5 <= n <= 128)%nat ->
    how_many (fun c => 0 < c /\ nbytes c = L /\ exists m, m <> 0 /\ decryptCRC e iv key c = Ok m) (255 * 256 ^ (L - 5) - (if s0 =? 0 then 0 else 1)).
  Proof.
    intros N. set (Q := 256 ^ (L - 5)). assert (QP : 0 < Q) by (apply Z.pow_pos_nonneg; lia).
    assert (E4 : 256 ^ (L - 4) = 256 * Q) by (unfold Q; replace (L - 4) with (Z.succ (L - 5)) by lia; apply Z.pow_succ_r; lia).
    assert (E1 : 256 ^ (L - 1) = Q * 2 ^ 32) by (unfold Q; replace (L - 1) with ((L - 5) + 4) by lia; rewrite Z.pow_add_r by lia; reflexivity).
    assert (E0 : 256 ^ L = 256 * Q * 2 ^ 32) by (rewrite <- E4; replace L with ((L - 4) + 4) at 1 by lia; rewrite Z.pow_add_r by lia; reflexivity).
    pose proof (stream_byte_byte (block e) k v 0 B) as SB. unfold byte in SB.
    set (P := fun m => 1 <= m < Z.max 1 (s0 * Q) \/ (s0 + 1) * Q <= m < 256 * Q).
    assert (PR : forall m, P m -> 0 < m < 256 * Q /\ m / Q <> s0).
    { intros m [R|R].
      - assert (0 < m < 256 * Q) by nia. split; [lia|]. intros F. pose proof (Z.mul_div_le m Q QP). nia.
      - assert (0 < m < 256 * Q) by nia. split; [lia|]. intros F. pose proof (Z.mul_succ_div_gt m Q QP). nia. }
    assert (RP : forall m, 0 < m < 256 * Q -> m / Q <> s0 -> P m).
    { intros m R F. unfold P. destruct (Z.lt_ge_cases m (s0 * Q)) as [H|H]; [left; lia|]. right. split; [|lia].
      destruct (Z.lt_ge_cases m ((s0 + 1) * Q)) as [H'|H']; [|exact H']. exfalso. apply F. symmetry. apply (Z.div_unique m Q s0 (m - s0 * Q)); nia. }
    assert (SM : forall m, 0 < m < 256 * Q -> nbytes m <= 124).
    { intros m R. assert (nbytes m <= L - 4); [|lia]. rewrite <- E4 in R. rewrite pow256 in R by lia. unfold nbytes.
      rewrite (proj2 (Z.eqb_neq m 0)), Z.abs_eq by lia. assert (Z.log2 m < 8 * (L - 4)) by (apply Z.log2_lt_pow2; lia).
      pose proof (Z.div_lt_upper_bound (Z.log2 m) 8 (L - 4) ltac:(lia) ltac:(lia)). lia. }
    assert (CK : forall m, 0 < m < 256 * Q -> 0 <= checked false m < 256 ^ L /\ checked false m / 256 ^ (L - 1) = m / Q /\ checked false m / 2 ^ 32 = m).
    { intros m R. destruct (checked_split m ltac:(lia) (SM m R)) as [t [T ->]]. rewrite E0, E1. split; [nia|]. 
      assert (D : (m * 2 ^ 32 + t) / 2 ^ 32 = m) by (rewrite Z.div_add_l, (Z.div_small t) by lia; lia).
      split; [|exact D]. rewrite (Z.mul_comm Q), <- Z.div_div by lia. rewrite D. reflexivity. }
    apply (how_many_map (fun m => Z.lxor (checked false m) s) P).
    - replace (255 * Q - (if s0 =? 0 then 0 else 1)) with ((Z.max 1 (s0 * Q) - 1) + (256 * Q - (s0 + 1) * Q)).
      2: { destruct (Z.eqb_spec s0 0) as [->|Z]; [lia|]. rewrite Z.max_r by nia. lia. }
      apply how_many_or; [apply range_count; lia|apply range_count; nia|]. intros z R1 R2. nia.
    - intros x y X Y E. apply PR in X, Y. destruct X as [X _], Y as [Y _].
      assert (checked false x = checked false y) as F by (rewrite <- (xx (checked false x) s), <- (xx (checked false y) s), E; reflexivity).
      rewrite <- (proj2 (proj2 (CK x X))), <- (proj2 (proj2 (CK y Y))), F. reflexivity.
    - intros c. split.
      + intros [C [NC [m [NZ E]]]]. destruct (L_C49_sound e iv key c m LE E NZ) as [p [Dp [Vp Rp]]].
        unfold decrypt in Dp. rewrite (crypt_xor e iv v key k n c B V K ltac:(lia) NC ltac:(lia)) in Dp. apply Ok_inj in Dp.
        assert (CR : 0 <= c < 256 ^ L) by (apply nbytes_is in NC; lia).
        assert (PB : 0 <= p < 256 ^ L) by (rewrite <- Dp; apply xor_bound, CR).
        destruct (proj1 (L_C44_exact (fun len => len + 4) (heap e) 0 p ltac:(intros; cbv beta; lia)) Vp) as [m' [M' A]].
        rewrite Z.abs_eq in A by lia. apply append_checked in A; [|lia]. destruct A as [_ [A _]].
        assert (MB : 0 < m' < 256 * Q).
        { split; [exact M'|]. pose proof (nbytes_append false m' M') as NA. fold (checked false m') in NA. rewrite <- A in NA.
          assert (nbytes p <= L). { apply Z.lt_succ_r. destruct (Z.eq_dec p 0) as [->|]; [cbn; lia|].
            unfold nbytes. rewrite (proj2 (Z.eqb_neq p 0)), Z.abs_eq by lia. rewrite pow256 in PB by lia.
            assert (Z.log2 p < 8 * L) by (apply Z.log2_lt_pow2; lia). pose proof (Z.div_lt_upper_bound (Z.log2 p) 8 L ltac:(lia) ltac:(lia)). lia. }
          rewrite <- E4. pose proof (nbytes_nonneg m'). 
          assert (NM : nbytes m' <> 0) by (intros F; rewrite <- getRaw_length in F; assert (getRawMpz m' = []) as G by (destruct (getRawMpz m'); [reflexivity|discriminate F]); apply getRaw_nil in G; lia).
          pose proof (proj1 (nbytes_is m' (nbytes m') M' ltac:(lia)) eq_refl) as [_ U].
          apply Z.lt_le_trans with (256 ^ nbytes m'); [exact U|apply Z.pow_le_mono_r; lia]. }
        exists m'. assert (CE : Z.lxor (checked false m') s = c) by (rewrite <- A, <- Dp; apply xx). split; [|exact CE].
        apply (RP m' MB). rewrite <- (proj1 (proj2 (CK m' MB))). apply long; [lia|apply (CK m' MB)|]. rewrite CE. split; assumption.
      + intros [m [X <-]]. apply PR in X. destruct X as [MB F]. destruct (CK m MB) as [R [T _]]. rewrite <- T in F.
        apply long in F; [|lia|exact R]. destruct F as [C NC]. split; [exact C|]. split; [exact NC|]. exists m. split; [lia|].
        unfold decryptCRC. rewrite (dec (checked false m) ltac:(lia) C NC). cbn [bind].
        destruct (accept_iff e m _ LE ltac:(lia) (SM m MB) eq_refl) as [-> ->]. reflexivity.
  Qed.

  Lemma L_C104_faults : (4 <= n <= 128)%nat ->
    how_many (fun c => 0 < c /\ nbytes c = L /\ exists f, decryptCRC e iv key c = Err f) (if s0 =? 0 then 0 else 2 ^ 24).
  Proof.
    intros N. assert (Q : 2 ^ 24 <= 256 ^ (L - 1)) by (change (2 ^ 24) with (256 ^ 3); apply Z.pow_le_mono_r; lia).
    assert (Q' : 256 ^ (L - 1) <= 256 ^ L) by (apply Z.pow_le_mono_r; lia).
    assert (EQ : forall c, (0 < c /\ nbytes c = L /\ exists f, decryptCRC e iv key c = Err f) <-> exists p, (0 <= p < 2 ^ 24 /\ s0 <> 0) /\ Z.lxor p s = c).
    { intros c. split.
      - intros [C [NC [f E]]]. exists (Z.lxor c s). split; [|apply xx].
        assert (CR : 0 <= c < 256 ^ L) by (apply nbytes_is in NC; lia). pose proof (xor_bound c CR) as R.
        assert (D : decrypt e iv c key = Ok (Z.lxor c s)) by (apply (crypt_xor e iv v key k n c B V K ltac:(lia) NC ltac:(lia))).
        assert (SM : Z.lxor c s < 2 ^ 24).
        { destruct (Z.lt_ge_cases (Z.lxor c s) (2 ^ 24)) as [H|H]; [exact H|]. destruct (L_C49_total e iv key c _ B D H) as [r E']. rewrite E in E'. discriminate E'. }
        split; [lia|]. intros Z. pose proof (long (Z.lxor c s) ltac:(lia) R) as [X _]. rewrite xx in X. specialize (X (conj C NC)).
        apply X. rewrite Z. apply Z.div_small. lia.
      - intros [p [[P Z] <-]]. pose proof (long p ltac:(lia) ltac:(lia)) as [_ X].
        destruct X as [C NC]; [rewrite Z.div_small by lia; lia|]. split; [exact C|]. split; [exact NC|].
        apply (L_C49_fault e iv key _ p); [apply dec; [lia|exact C|exact NC]|rewrite Z.abs_eq; lia]. }
    destruct (Z.eqb_spec s0 0) as [Z|Z].
    - exists []. split; [constructor|]. split; [|reflexivity]. intros c. rewrite EQ. split; [intros []|]. intros [p [[_ F] _]]. exact (F Z).
    - apply (how_many_map (fun p => Z.lxor p s) (fun p => 0 <= p < 2 ^ 24)); [apply (range_count 0 (2 ^ 24)); lia| |].
      + intros x y _ _ E. rewrite <- (xx x s), <- (xx y s), E. reflexivity.
      + intros c. rewrite EQ. split; intros [p [P E]]; exists p; (split; [|exact E]); [exact (proj1 P)|split; [exact P|exact Z]].
  Qed.
End Count.

Lemma L_C104_short e iv v key k c : block_cipher (block e) -> iv_block e iv = Ok v -> leading16 (getRawMpz key) k -> 0 <= c < 2 ^ 24 ->
  exists f, decryptCRC e iv key c = Err f.
Proof.
  intros B V K C. pose proof (nbytes_nonneg c) as N0. assert (N : nbytes c < 4) by (apply nbytes_24; rewrite Z.abs_eq; lia).
  apply (L_C49_fault e iv key c (Z.lxor c (stream_number e k v (Z.to_nat (nbytes c))))).
  - apply (crypt_xor e iv v key k _ c B V K); lia.
  - pose proof (stream_range e k v (Z.to_nat (nbytes c)) B) as R.
    assert (H : 256 ^ Z.of_nat (Z.to_nat (nbytes c)) <= 2 ^ 24) by (change (2 ^ 24) with (256 ^ 3); apply Z.pow_le_mono_r; lia).
    pose proof (lxor_range 24 c (stream_number e k v (Z.to_nat (nbytes c))) ltac:(lia) C ltac:(lia)). rewrite Z.abs_eq; lia.
Qed.

Lemma L_C104_four e iv v key k c m : block_cipher (block e) -> iv_block e iv = Ok v -> leading16 (getRawMpz key) k ->
  big_endian_host e = false -> 0 <= c < 2 ^ 32 -> decryptCRC e iv key c = Ok m -> m = 0.
Proof.
  intros B V K LE C E. destruct (Z.eq_dec m 0) as [Z|NZ]; [exact Z|exfalso].
  assert (N : nbytes c <= 4).
  { unfold nbytes. destruct (Z.eqb_spec c 0) as [_|P]; [lia|]. rewrite Z.abs_eq by lia.
    assert (Z.log2 c < 32) by (apply Z.log2_lt_pow2; lia). pose proof (Z.div_lt_upper_bound (Z.log2 c) 8 4 ltac:(lia) ltac:(lia)). lia. }
  pose proof (nbytes_nonneg c) as N0.
  destruct (L_C49_sound e iv key c m LE E NZ) as [p [D [Vp Rp]]]. unfold decrypt in D.
  rewrite (crypt_xor e iv v key k (Z.to_nat (nbytes c)) c B V K) in D by lia. apply Ok_inj in D.
  pose proof (stream_range e k v (Z.to_nat (nbytes c)) B) as R.
  assert (H : 256 ^ Z.of_nat (Z.to_nat (nbytes c)) <= 2 ^ 32) by (change (2 ^ 32) with (256 ^ 4); apply Z.pow_le_mono_r; lia).
  pose proof (lxor_range 32 c (stream_number e k v (Z.to_nat (nbytes c))) ltac:(lia) C ltac:(lia)) as PR. rewrite D in PR.
  destruct (proj1 (L_C44_exact (fun len => len + 4) (heap e) 0 p ltac:(intros; cbv beta; lia)) Vp) as [m' [M' A]].
  rewrite Z.abs_eq in A by lia. apply append_checked in A; [|lia]. destruct A as [_ [A _]].
  assert (T : p = m' * 2 ^ 32 + big_endian (obj32 false (crcl (getRawMpz m')))).
  { rewrite A. unfold checked. rewrite be_app, obj32_length. pose proof (L_getRaw m') as [_ [W _]]. rewrite Z.abs_eq in W by lia. rewrite W. reflexivity. }
  pose proof (obj_be_range false (crcl (getRawMpz m'))). lia.
Qed.
