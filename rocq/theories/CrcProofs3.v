(** Proofs about appending, validating and removing a CRC, and about error detection. *)
From Coq Require Import ZArith Znumtheory List Bool Lia.
From Verif Require Import Pocklington Outcome CrcTables CrcModel SpecCrc CrcProofs CrcProofs2.
Import ListNotations.
Open Scope Z_scope.
Opaque shifts.

Lemma obj32_bytes be w : Forall byte (obj32 be w).
Proof.
  assert (F : Forall byte [Z.land w 255; Z.land (Z.shiftr w 8) 255; Z.land (Z.shiftr w 16) 255; Z.land (Z.shiftr w 24) 255])
    by (repeat (constructor; [apply land_byte|]); constructor).
  destruct be; [|exact F]. apply Forall_rev in F. exact F.
Qed.

Lemma obj32_length be w : length (obj32 be w) = 4%nat.
Proof. destruct be; reflexivity. Qed.

Lemma obj32_le w : word w -> little_endian (obj32 false w) = w.
Proof.
  intros W. unfold obj32. rewrite <- lor_le by apply land_byte. rewrite (word_hi w W).
  apply Z.bits_inj'. intros i I. rewrite !Z.lor_spec. change 255 with (Z.ones 8).
  destruct (Z_lt_dec i 8); [|destruct (Z_lt_dec i 16); [|destruct (Z_lt_dec i 24)]].
  - rewrite Z.land_spec, Z.ones_spec_low by lia. rewrite !Z.shiftl_spec_low by lia. rewrite andb_true_r, !orb_false_r. reflexivity.
  - rewrite Z.land_spec, Z.ones_spec_high, andb_false_r by lia. rewrite (Z.shiftl_spec _ 8) by lia. rewrite !Z.shiftl_spec_low by lia.
    rewrite Z.land_spec, Z.ones_spec_low, Z.shiftr_spec by lia. rewrite andb_true_r, !orb_false_r, orb_false_l. f_equal. lia.
  - rewrite Z.land_spec, Z.ones_spec_high, andb_false_r by lia. rewrite (Z.shiftl_spec _ 8), (Z.shiftl_spec _ 16) by lia. rewrite !Z.shiftl_spec_low by lia.
    rewrite !Z.land_spec, Z.ones_spec_high, Z.ones_spec_low, !Z.shiftr_spec by lia. rewrite andb_true_r, andb_false_r, !orb_false_r, !orb_false_l. f_equal. lia.
  - rewrite Z.land_spec, Z.ones_spec_high, andb_false_r by lia. rewrite !Z.shiftl_spec by lia.
    rewrite !Z.land_spec, !Z.ones_spec_high, !Z.shiftr_spec by lia. rewrite !andb_false_r, !orb_false_l. f_equal. lia.
Qed.

Lemma u32_u64 z : u32 (u64 z) = u32 z.
Proof. unfold u32, u64. change (2 ^ 64) with (2 ^ 32 * 2 ^ 32). rewrite Z.rem_mul_r by lia. rewrite Z.mul_comm, Z.mod_add by lia. apply Z.mod_mod. lia. Qed.

Lemma u32_le z : 0 <= z -> 0 <= u32 z <= z.
Proof. intros H. unfold u32. split; [apply Z.mod_pos_bound; lia|apply Z.mod_le; lia]. Qed.

Lemma raw_bytes n : Forall byte (getRawMpz n).
Proof. apply L_getRaw. Qed.

(** the register over the part of the bytes that the unsigned length covers *)
Definition crcl (l : list Z) : Z := crc 0 (firstn (Z.to_nat (u32 (Z.of_nat (length l)))) l).

Lemma crcl_word l : Forall byte l -> word (crcl l).
Proof.
  intros F. apply crc_word; [|unfold word; lia]. rewrite Forall_forall in *. intros x I. apply F.
  rewrite <- (firstn_skipn (Z.to_nat (u32 (Z.of_nat (length l)))) l). apply in_or_app. left. exact I.
Qed.

Lemma crcl_small l : Z.of_nat (length l) < 2 ^ 32 -> crcl l = crc 0 l.
Proof. intros H. unfold crcl. rewrite u32_small by lia. rewrite Nat2Z.id, firstn_all. reflexivity. Qed.

Lemma append_eq be room addr n : n <> 0 ->
  appendCRC be room addr n =
  if room (nbytes n) <? nbytes n + 4 then Err OutOfBounds else Ok (big_endian (getRawMpz n ++ obj32 be (crcl (getRawMpz n)))).
Proof.
  intros NZ. unfold appendCRC. rewrite getRaw_length.
  rewrite L_calculate; cbn [bytes base].
  - cbn [bind]. rewrite (proj2 (Z.eqb_neq (nbytes n) 0)).
    + rewrite setRaw_be. rewrite <- getRaw_length. reflexivity.
    + rewrite <- getRaw_length. intros E. apply NZ, getRaw_nil. destruct (getRawMpz n); [reflexivity|cbn in E; lia].
  - apply raw_bytes.
  - unfold word. lia.
  - rewrite getRaw_length. apply u32_le. rewrite <- getRaw_length. lia.
Qed.

Lemma append_0 be room addr : appendCRC be room addr 0 = Err NullDeref.
Proof. reflexivity. Qed.

Lemma append_shortest be n : 0 < n -> let l := getRawMpz n ++ obj32 be (crcl (getRawMpz n)) in shortest l (big_endian l).
Proof.
  intros N l. split; [apply Forall_app; split; [apply raw_bytes|apply obj32_bytes]|]. split; [reflexivity|].
  intros b r E. subst l. destruct (getRawMpz n) as [|b' r'] eqn:R; [apply getRaw_nil in R; lia|].
  injection E as <- _. pose proof (L_getRaw n) as [_ [_ L]]. rewrite R in L. apply (L b' r' eq_refl).
Qed.

Lemma validate_eq be addr n l t : getRawMpz n = l ++ t -> length t = 4%nat ->
  validateCRC be addr n = Ok (crcl l =? little_endian t).
Proof.
  intros E T. unfold validateCRC. rewrite E, app_length, T, Nat2Z.inj_add. change (Z.of_nat 4) with 4.
  assert (F : Forall byte (l ++ t)) by (rewrite <- E; apply raw_bytes).
  rewrite (proj2 (Z.eqb_neq (Z.of_nat (length l) + 4) 0)) by lia.
  destruct t as [|b0 [|b1 [|b2 [|b3 [|? ?]]]]]; try discriminate T. clear T.
  assert (R : forall i, (i < 4)%nat -> rd {| base := addr; bytes := l ++ [b0; b1; b2; b3] |} (Z.of_nat (length l) + Z.of_nat i) =
    Ok (nth i [b0; b1; b2; b3] 0)).
  { intros i I. rewrite rd_in; cbn [bytes].
    - replace (Z.to_nat (Z.of_nat (length l) + Z.of_nat i)) with (length l + i)%nat by lia. rewrite app_nth2_plus. reflexivity.
    - rewrite app_length. cbn [length]. lia. }
  replace (Z.of_nat (length l) + 4 - 4) with (Z.of_nat (length l) + Z.of_nat 0) by lia. rewrite R by lia.
  replace (Z.of_nat (length l) + 4 - 3) with (Z.of_nat (length l) + Z.of_nat 1) by lia. rewrite R by lia.
  replace (Z.of_nat (length l) + 4 - 2) with (Z.of_nat (length l) + Z.of_nat 2) by lia. rewrite R by lia.
  replace (Z.of_nat (length l) + 4 - 1) with (Z.of_nat (length l) + Z.of_nat 3) by lia. rewrite R by lia.
  cbn [bind nth]. rewrite Z.add_0_r.
  apply Forall_app in F. destruct F as [F1 F2]. inversion F2 as [|? ? B0 F3]; subst. inversion F3 as [|? ? B1 F4]; subst.
  inversion F4 as [|? ? B2 F5]; subst. inversion F5 as [|? ? B3 F6]; subst.
  pose proof (u32_le (Z.of_nat (length l)) ltac:(lia)) as U.
  rewrite L_calculate; cbn [bytes base].
  - cbn [bind]. rewrite u32_u64. rewrite firstn_app.
    replace (Z.to_nat (u32 (Z.of_nat (length l))) - length l)%nat with 0%nat by lia. cbn [firstn]. rewrite app_nil_r.
    fold (crcl l). rewrite <- !Z.lor_assoc. rewrite (lor_le b0 b1 b2 b3 B0 B1 B2 B3). reflexivity.
  - apply Forall_app. split; [exact F1|exact F2].
  - unfold word; lia.
  - rewrite u32_u64, app_length. cbn [length]. lia.
Qed.

Lemma split4 (l : list Z) : (4 <= length l)%nat -> exists h t, l = h ++ t /\ length t = 4%nat.
Proof.
  intros H. exists (firstn (length l - 4) l), (skipn (length l - 4) l). split; [symmetry; apply firstn_skipn|].
  rewrite skipn_length. lia.
Qed.

Lemma validate_short be addr n : nbytes n < 4 -> exists f, validateCRC be addr n = Err f.
Proof.
  intros H. unfold validateCRC. rewrite getRaw_length. destruct (nbytes n =? 0); [eexists; reflexivity|].
  rewrite rd_out; [eexists; reflexivity|]. lia.
Qed.

Lemma nbytes_nonneg n : 0 <= nbytes n.
Proof. rewrite <- getRaw_length. lia. Qed.

Lemma remove_eq n l t : getRawMpz n = l ++ t -> length t = 4%nat -> nbytes n < 2 ^ 64 -> removeCRC n = Ok (big_endian l).
Proof.
  intros E T B. unfold removeCRC. rewrite getRaw_length.
  assert (L : nbytes n = Z.of_nat (length l) + 4) by (rewrite <- getRaw_length, E, app_length, T; lia).
  unfold u64. rewrite Z.mod_small by lia. rewrite (proj2 (Z.ltb_ge _ _)) by lia.
  rewrite E, L. replace (Z.to_nat (Z.of_nat (length l) + 4 - 4)) with (length l + 0)%nat by lia.
  rewrite firstn_app_2. cbn [firstn]. rewrite app_nil_r, setRaw_be. reflexivity.
Qed.

(** C42 *)
Lemma L_C42 room addr addr' n : 0 < n -> nbytes n + 4 < 2 ^ 64 -> nbytes n + 4 <= room (nbytes n) ->
  exists r, appendCRC false room addr n = Ok r /\ validateCRC false addr' r = Ok true /\ removeCRC r = Ok n.
Proof.
  intros N B R. rewrite append_eq by lia. rewrite (proj2 (Z.ltb_ge _ _)) by lia. eexists. split; [reflexivity|].
  pose proof (append_shortest false n N) as S. cbv zeta in S. apply getRaw_unique in S.
  rewrite (validate_eq false addr' _ _ _ S (obj32_length _ _)).
  rewrite obj32_le by (apply crcl_word, raw_bytes). rewrite Z.eqb_refl. split; [reflexivity|].
  rewrite (remove_eq _ _ _ S (obj32_length _ _)).
  - f_equal. pose proof (L_getRaw n) as [_ [V _]]. lia.
  - rewrite <- getRaw_length, S, app_length, obj32_length, Nat2Z.inj_add, getRaw_length. exact B.
Qed.

Lemma L_C42_value room addr n : 0 < n -> nbytes n < 2 ^ 32 -> nbytes n + 4 <= room (nbytes n) ->
  exists c3 c2 c1 c0, Forall byte [c0; c1; c2; c3] /\ crc 0 (getRawMpz n) = little_endian [c0; c1; c2; c3] /\
    appendCRC false room addr n = Ok (n * 2 ^ 32 + big_endian [c0; c1; c2; c3]) /\
    appendCRC true room addr n = Ok (n * 2 ^ 32 + big_endian [c3; c2; c1; c0]).
Proof.
  intros N B R. set (w := crc 0 (getRawMpz n)).
  exists (Z.land (Z.shiftr w 24) 255), (Z.land (Z.shiftr w 16) 255), (Z.land (Z.shiftr w 8) 255), (Z.land w 255).
  assert (W : word w) by (apply crc_word; [apply raw_bytes|unfold word; lia]).
  split; [exact (obj32_bytes false w)|]. split; [symmetry; exact (obj32_le w W)|].
  rewrite !append_eq by lia. rewrite (proj2 (Z.ltb_ge _ _)) by lia.
  rewrite crcl_small by (rewrite getRaw_length; exact B). fold w.
  rewrite !be_app, !obj32_length. pose proof (L_getRaw n) as [_ [-> _]]. rewrite Z.abs_eq by lia.
  change (256 ^ Z.of_nat 4) with (2 ^ 32). split; reflexivity.
Qed.

Lemma L_C42_big room addr addr' n : 0 < n -> nbytes n < 2 ^ 32 -> nbytes n + 4 <= room (nbytes n) ->
  exists r, appendCRC true room addr n = Ok r /\
    forall c0 c1 c2 c3, Forall byte [c0; c1; c2; c3] -> crc 0 (getRawMpz n) = little_endian [c0; c1; c2; c3] ->
      (validateCRC true addr' r = Ok true <-> c0 = c3 /\ c1 = c2).
Proof.
  intros N B R. rewrite append_eq by lia. rewrite (proj2 (Z.ltb_ge _ _)) by lia. eexists. split; [reflexivity|].
  intros c0 c1 c2 c3 F E.
  pose proof (append_shortest true n N) as S. cbv zeta in S. apply getRaw_unique in S.
  rewrite (validate_eq true addr' _ _ _ S (obj32_length _ _)).
  rewrite crcl_small by (rewrite getRaw_length; exact B). rewrite E. clear S E.
  inversion F as [|? ? B0 F1]; subst. inversion F1 as [|? ? B1 F2]; subst. inversion F2 as [|? ? B2 F3]; subst. inversion F3 as [|? ? B3 F4]; subst.
  assert (O : obj32 true (little_endian [c0; c1; c2; c3]) = [c3; c2; c1; c0]).
  { cbn [obj32 rev app little_endian]. rewrite Z.mul_0_r, Z.add_0_r.
    change 24 with (8 + (8 + 8)). change 16 with (8 + 8). rewrite <- !(Z.shiftr_shiftr _ 8) by lia.
    rewrite !(shiftr_le c0) by exact B0. rewrite !(shiftr_le c1) by exact B1. rewrite !(shiftr_le c2) by exact B2.
    rewrite (land_le c0), (land_le c1), (land_le c2), (land_small c3) by assumption. reflexivity. }
  rewrite O. unfold byte in *. cbn [little_endian]. split.
  - intros H. apply Ok_inj, Z.eqb_eq in H. lia.
  - intros [-> ->]. f_equal. apply Z.eqb_eq. lia.
Qed.

Lemma L_C42_negative be room addr n : appendCRC be room addr (- n) = appendCRC be room addr n.
Proof. unfold appendCRC, getRawMpz. rewrite Z.abs_opp. reflexivity. Qed.

(** C43 *)
Lemma L_C43_append be addr n :
  appendCRC be (fun len => len) addr n = Err (if n =? 0 then NullDeref else OutOfBounds).
Proof.
  destruct (Z.eqb_spec n 0) as [->|NZ]; [reflexivity|]. rewrite append_eq by exact NZ.
  rewrite (proj2 (Z.ltb_lt _ _)) by lia. reflexivity.
Qed.

Lemma L_C43_append_any be room addr n : n <> 0 ->
  (appendCRC be room addr n = Err OutOfBounds <-> room (nbytes n) < nbytes n + 4).
Proof.
  intros NZ. rewrite append_eq by exact NZ. destruct (Z.ltb_spec (room (nbytes n)) (nbytes n + 4)).
  - split; [intros _; assumption|reflexivity].
  - split; [discriminate|lia].
Qed.

Lemma L_C43_glibc be addr n : n <> 0 ->
  (appendCRC be glibc addr n = Err OutOfBounds <-> 20 < nbytes n /\ 5 <= nbytes n mod 16 <= 8).
Proof.
  intros NZ. rewrite L_C43_append_any by exact NZ. generalize (nbytes_nonneg n). generalize (nbytes n) as k. intros k K.
  unfold glibc. pose proof (Z.div_mod (k + 8 + 15) 16 ltac:(lia)). pose proof (Z.mod_pos_bound (k + 8 + 15) 16 ltac:(lia)).
  pose proof (Z.div_mod k 16 ltac:(lia)). pose proof (Z.mod_pos_bound k 16 ltac:(lia)).
  set (q := (k + 8 + 15) / 16) in *. set (q' := k / 16) in *. set (r := k mod 16) in *. set (r' := (k + 8 + 15) mod 16) in *.
  clearbody q q' r r'. lia.
Qed.

Lemma nbytes_24 n : Z.abs n < 2 ^ 24 <-> nbytes n < 4.
Proof.
  unfold nbytes. destruct (Z.eqb_spec n 0) as [->|NZ]; [cbn; lia|].
  pose proof (Z.div_mod (Z.log2 (Z.abs n)) 8 ltac:(lia)). pose proof (Z.mod_pos_bound (Z.log2 (Z.abs n)) 8 ltac:(lia)).
  rewrite (Z.log2_lt_pow2 (Z.abs n) 24) by lia. lia.
Qed.

Lemma L_C43_validate be addr n :
  (exists b, validateCRC be addr n = Ok b) <-> 2 ^ 24 <= Z.abs n.
Proof.
  split.
  - intros [b E]. destruct (Z.lt_ge_cases (Z.abs n) (2 ^ 24)) as [H|H]; [|exact H].
    apply nbytes_24 in H. destruct (validate_short be addr n H) as [f Ef]. congruence.
  - intros H. destruct (split4 (getRawMpz n)) as [l [t [E T]]].
    + pose proof (nbytes_24 n). rewrite <- getRaw_length in *. lia.
    + rewrite (validate_eq be addr n l t E T). eexists. reflexivity.
Qed.

Lemma L_C43_validate_fault be addr n : Z.abs n < 2 ^ 24 ->
  validateCRC be addr n = Err (if n =? 0 then NullDeref else OutOfBounds).
Proof.
  intros H. apply nbytes_24 in H. unfold validateCRC. rewrite getRaw_length.
  destruct (Z.eqb_spec n 0) as [->|NZ]; [reflexivity|].
  rewrite (proj2 (Z.eqb_neq (nbytes n) 0)).
  - rewrite rd_out by lia. reflexivity.
  - rewrite <- getRaw_length. intros E. apply NZ, getRaw_nil. destruct (getRawMpz n); [reflexivity|cbn in E; lia].
Qed.

Lemma L_C43_remove n : nbytes n < 2 ^ 63 -> (removeCRC n = Err Exhausted <-> Z.abs n < 2 ^ 24).
Proof.
  intros B. rewrite nbytes_24. unfold removeCRC. rewrite getRaw_length. pose proof (nbytes_nonneg n) as P.
  unfold u64. destruct (Z.lt_ge_cases (nbytes n) 4) as [H|H].
  - replace (nbytes n - 4) with (nbytes n - 4 + 2 ^ 64 + (-1) * 2 ^ 64) by ring. rewrite Z.mod_add, Z.mod_small by lia.
    rewrite (proj2 (Z.ltb_lt _ _)) by lia. split; [intros _; exact H|reflexivity].
  - rewrite Z.mod_small by lia. rewrite (proj2 (Z.ltb_ge _ _)) by lia. split; [discriminate|lia].
Qed.

(** C44 *)
Lemma le_zero l : Forall byte l -> little_endian l = 0 -> Forall (fun b => b = 0) l.
Proof.
  induction 1 as [|b l B F IH]; cbn [little_endian]; intros E; [constructor|].
  assert (0 <= little_endian l) by (clear -F; induction F as [|b l B _ IH]; cbn [little_endian]; [lia|]; unfold byte in B; lia).
  unfold byte in B. constructor; [lia|]. apply IH. lia.
Qed.

Lemma obj32_of t : Forall byte t -> length t = 4%nat -> obj32 false (little_endian t) = t.
Proof.
  intros F T. destruct t as [|c0 [|c1 [|c2 [|c3 [|? ?]]]]]; try discriminate T.
  inversion F as [|? ? B0 F1]; subst. inversion F1 as [|? ? B1 F2]; subst. inversion F2 as [|? ? B2 F3]; subst. inversion F3 as [|? ? B3 F4]; subst.
  cbn [obj32 little_endian]. rewrite Z.mul_0_r, Z.add_0_r.
  change 24 with (8 + (8 + 8)). change 16 with (8 + 8). rewrite <- !(Z.shiftr_shiftr _ 8) by lia.
  rewrite !(shiftr_le c0) by exact B0. rewrite !(shiftr_le c1) by exact B1. rewrite !(shiftr_le c2) by exact B2.
  rewrite (land_le c0), (land_le c1), (land_le c2), (land_small c3) by assumption. reflexivity.
Qed.

Lemma validate_inv be addr n b : validateCRC be addr n = Ok b ->
  exists l t, getRawMpz n = l ++ t /\ length t = 4%nat /\ b = (crcl l =? little_endian t).
Proof.
  intros E. destruct (split4 (getRawMpz n)) as [l [t [E1 T]]].
  - destruct (Z.lt_ge_cases (nbytes n) 4) as [H|H]; [destruct (validate_short be addr n H) as [f Ef]; congruence|].
    rewrite <- getRaw_length in H. lia.
  - exists l, t. split; [exact E1|]. split; [exact T|]. rewrite (validate_eq be addr n l t E1 T) in E. apply Ok_inj in E. auto.
Qed.

Lemma L_C44_exact room addr addr' n : (forall len, len + 4 <= room len) ->
  (validateCRC false addr n = Ok true <-> exists m, 0 < m /\ appendCRC false room addr' m = Ok (Z.abs n)).
Proof.
  intros R. split.
  - intros E. apply validate_inv in E. destruct E as [l [t [E [T C]]]]. symmetry in C. apply Z.eqb_eq in C.
    pose proof (L_getRaw n) as [F [V L]]. rewrite E in F. apply Forall_app in F. destruct F as [F1 F2].
    destruct l as [|b l].
    + exfalso. cbn [app] in E. change (crcl []) with 0 in C. symmetry in C. apply (le_zero t F2) in C.
      destruct t as [|b t]; [discriminate T|]. inversion C; subst. apply (L 0 t E). reflexivity.
    + assert (S : shortest (b :: l) (big_endian (b :: l))).
      { split; [exact F1|]. split; [reflexivity|]. intros b' r E'. injection E' as <- <-. apply (L b (l ++ t) E). }
      pose proof (shortest_bound _ _ _ S) as [P _]. pose proof (Z.pow_pos_nonneg 256 (Z.of_nat (length l)) ltac:(lia) ltac:(lia)).
      exists (big_endian (b :: l)). split; [lia|]. rewrite append_eq by lia. rewrite (proj2 (Z.ltb_ge _ _)) by apply R.
      rewrite (getRaw_unique _ _ S). rewrite C, (obj32_of t F2 T). rewrite <- V, E. reflexivity.
  - intros [m [M E]]. rewrite append_eq in E by lia. rewrite (proj2 (Z.ltb_ge _ _)) in E by apply R. apply Ok_inj in E.
    pose proof (append_shortest false m M) as S. cbv zeta in S. rewrite E in S. apply getRaw_unique in S. rewrite getRaw_abs in S.
    rewrite (validate_eq false addr _ _ _ S (obj32_length _ _)). rewrite obj32_le by (apply crcl_word, raw_bytes).
    rewrite Z.eqb_refl. reflexivity.
Qed.

(** the register over everything, CRC included, ends at 0 *)
Lemma residue l t : Forall byte l -> Forall byte t -> length t = 4%nat -> (crc 0 (l ++ t) = 0 <-> crc 0 l = little_endian t).
Proof.
  intros F1 F2 T. rewrite crc_app, (crc_closed t F2), T.
  assert (W : word (Z.lxor (crc 0 l) (little_endian t))).
  { apply lxor_range; [lia|apply crc_word; [exact F1|unfold word; lia]|].
    destruct t as [|c0 [|c1 [|c2 [|c3 [|? ?]]]]]; try discriminate T. inversion F2 as [|? ? B0 G1]; subst. inversion G1 as [|? ? B1 G2]; subst. inversion G2 as [|? ? B2 G3]; subst. inversion G3; subst.
    apply le_word; assumption. }
  split.
  - intros E. apply shifts_nonzero in E; [|exact W]. apply Z.lxor_eq in E. exact E.
  - intros ->. rewrite Z.lxor_nilpotent. apply shifts_0.
Qed.

Lemma validate_residue be addr n : nbytes n < 2 ^ 32 ->
  (validateCRC be addr n = Ok true <-> 4 <= nbytes n /\ crc 0 (getRawMpz n) = 0).
Proof.
  intros B. pose proof (raw_bytes n) as F. split.
  - intros E. apply validate_inv in E. destruct E as [l [t [E [T C]]]]. symmetry in C. apply Z.eqb_eq in C.
    rewrite <- getRaw_length in *. rewrite E in *. rewrite app_length, T in *. split; [lia|].
    apply Forall_app in F. destruct F as [F1 F2]. rewrite crcl_small in C by lia. apply residue; assumption.
  - intros [H E]. rewrite <- getRaw_length in *. destruct (split4 (getRawMpz n)) as [l [t [E1 T]]]; [lia|].
    rewrite (validate_eq be addr n l t E1 T). rewrite E1 in *. rewrite app_length, T in *.
    apply Forall_app in F. destruct F as [F1 F2]. rewrite crcl_small by lia. f_equal. apply Z.eqb_eq. apply residue; assumption.
Qed.
