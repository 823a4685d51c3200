(** Short numbers: distance eight; where the distances are reached; two bits exactly. *)
From Coq Require Import ZArith List Bool Lia Permutation Sorted Znumtheory.
From Verif Require Import Outcome CrcModel SpecCrc CrcProofs CrcProofs2 CrcProofs3 CrcProofs4 AesModel SpecAes AesProofs AesProofs2 SpecHd HdMath HdMath2 HdProofs.
Import ListNotations.
Open Scope Z_scope.
#[local] Opaque shifts.

Definition xorl (l : list Z) : Z := fold_right (fun a s => Z.lxor (wd a) s) 0 l.
Lemma xorl_perm l l' : Permutation l l' -> xorl l = xorl l'.
Proof.
  induction 1 as [|x l l' _ IH|x y l|l l' l'' _ IH _ IH']; cbn [xorl fold_right] in *; [reflexivity| | |congruence].
  - unfold xorl in IH. rewrite IH. reflexivity.
  - rewrite <- !Z.lxor_assoc. f_equal. apply Z.lxor_comm.
Qed.
Lemma lxor_6 a b c d e f : Z.lxor a (Z.lxor b (Z.lxor c (Z.lxor d (Z.lxor e (Z.lxor f 0))))) = 0 ->
  Z.lxor (Z.lxor b c) (Z.lxor d e) = Z.lxor a f.
Proof.
  intros H. rewrite Z.lxor_0_r in H. apply Z.lxor_eq in H. rewrite H, !Z.lxor_assoc, Z.lxor_nilpotent, Z.lxor_0_r. reflexivity.
Qed.
Lemma six_places l : NoDup l -> length l = 6%nat -> (forall a, In a l -> 1 <= a < near + 1) -> xorl l <> 0.
Proof.
  intros D L R X. rewrite (xorl_perm l _ (isort_perm l)) in X.
  pose proof (isort_sorted l D) as S. pose proof (isort_perm l) as PM.
  assert (R' : forall a, In a (isort l) -> 1 <= a < near + 1) by (intros a I; apply R, (Permutation_in a (Permutation_sym PM)), I).
  rewrite (Permutation_length PM) in L. destruct (isort l) as [|a [|b [|c [|d [|e [|f [|? ?]]]]]]]; try discriminate L.
  clear -X S R'. pose proof (R' a ltac:(cbn; tauto)) as RA. pose proof (R' f ltac:(cbn; tauto)) as RF. clear R'.
  inversion S as [|? ? S1 F1]; subst. inversion S1 as [|? ? S2 F2]; subst. inversion S2 as [|? ? S3 F3]; subst.
  inversion S3 as [|? ? S4 F4]; subst. inversion S4 as [|? ? S5 F5]; subst.
  inversion F1 as [|? ? AB _]; subst. inversion F2 as [|? ? BC _]; subst. inversion F3 as [|? ? CD _]; subst.
  inversion F4 as [|? ? DE _]; subst. inversion F5 as [|? ? EF _]; subst. clear F1 F2 F3 F4 F5 S S1 S2 S3 S4 S5.
  cbn [xorl fold_right] in X. apply lxor_6 in X.
  replace b with (a + (b - a)) in X by lia. replace c with (a + (c - a)) in X by lia. replace d with (a + (d - a)) in X by lia.
  replace e with (a + (e - a)) in X by lia. replace f with (a + (f - a)) in X by lia.
  replace (wd a) with (wd (a + 0)) in X by (f_equal; lia). rewrite !wd_add, <- !shifts_lxor in X by lia.
  apply shifts_inj in X; try (repeat (apply lxor_range; [lia| |]); apply wd_word).
  revert X. change (wd 0) with 1. apply L_near; lia.
Qed.

(** the bits of a number as a list, lowest first *)
Lemma bit_list k : 0 <= k -> forall j n, 0 <= n < 2 ^ k -> ones n = Z.of_nat j -> exists l, length l = j /\ StronglySorted Z.lt l /\ (forall i, In i l -> 0 <= i < k) /\
  n = fold_right (fun i s => Z.lxor (2 ^ i) s) 0 l /\ forall i, In i l -> Z.testbit n i = true.
Proof.
  intros K. induction j as [|j IH]; intros n R O.
  - exists []. apply ones_zero in O. subst n. split; [reflexivity|]. split; [constructor|]. split; [intros i []|]. split; [reflexivity|intros i []].
  - destruct (Z.eq_dec n 0) as [->|NZ]; [cbn in O; lia|].
    destruct (take n k ltac:(lia) K) as (i & m & I & M & E & O' & T).
    destruct (IH m M ltac:(lia)) as (l & L & S & B & EM & TB).
    assert (G : forall x, In x l -> i < x).
    { intros x X. destruct (Z_lt_dec i x) as [|H]; [assumption|]. exfalso. pose proof (B x X).
      specialize (T x ltac:(lia)). rewrite (TB x X) in T. discriminate T. }
    exists (i :: l). split; [cbn [length]; lia|]. split; [constructor; [exact S|apply Forall_forall, G]|]. split; [|split].
    + intros x [<-|X]; [exact I|apply B, X].
    + cbn [fold_right]. rewrite <- EM. exact E.
    + intros x X. rewrite E, Z.lxor_spec. destruct X as [<-|X].
      * rewrite testbit_pow2, Z.eqb_refl, T by lia. reflexivity.
      * pose proof (G x X). rewrite testbit_pow2, (TB x X) by lia. destruct (Z.eqb_spec i x); [lia|reflexivity].
Qed.
Lemma place_inj i j : 0 <= i -> 0 <= j -> place i = place j -> i = j.
Proof.
  unfold place. intros I J E. pose proof (Z.div_mod i 8 ltac:(lia)). pose proof (Z.mod_pos_bound i 8 ltac:(lia)).
  pose proof (Z.div_mod j 8 ltac:(lia)). pose proof (Z.mod_pos_bound j 8 ltac:(lia)). lia.
Qed.
Lemma crc_list k l : (forall i, In i l -> 0 <= i < 8 * Z.of_nat k) -> crc 0 (pad k (fold_right (fun i s => Z.lxor (2 ^ i) s) 0 l)) = xorl (map place l).
Proof.
  induction l as [|i l IH]; intros R.
  - cbn [fold_right map xorl]. rewrite pad_raw by (split; [lia|apply Z.pow_pos_nonneg; lia]). reflexivity.
  - cbn [fold_right map xorl]. rewrite crc_pad_lxor, crc_bit by (apply R; left; reflexivity).
    rewrite IH by (intros x X; apply R; right; exact X). reflexivity.
Qed.

Lemma L_C112_short be be' addr addr' n n' : 0 <= n -> 0 <= n' -> nbytes n <= 26 -> nbytes n' <= 26 ->
  validateCRC be addr n = Ok true -> validateCRC be' addr' n' = Ok true -> n <> n' -> 8 <= ones (Z.lxor n n').
Proof.
  intros P P' B B' V V' NE. pose proof (L_C112_distance be be' addr addr' n n' P P' ltac:(lia) ltac:(lia) V V' NE) as D6.
  set (k := 26%nat).
  pose proof (difference be be' addr addr' n n' k P P' ltac:(lia) ltac:(lia) ltac:(lia) ltac:(lia) V V') as D.
  set (x := Z.lxor n n') in *.
  assert (X0 : 0 <= x) by (apply Z.lxor_nonneg; lia).
  assert (R : forall n, 0 <= n -> nbytes n <= 26 -> n < 2 ^ 208).
  { intros m M L. pose proof (width_bound m k M ltac:(lia)) as [_ H]. rewrite pow256 in H by lia. exact H. }
  assert (XB : x < 2 ^ 208).
  { destruct (Z.eq_dec n 0) as [Z0|]; [unfold x; rewrite Z0, Z.lxor_0_l; apply R; assumption|].
    destruct (Z.eq_dec n' 0) as [Z0|]; [unfold x; rewrite Z0, Z.lxor_0_r; apply R; assumption|].
    destruct (Z.eq_dec x 0) as [Z0|]; [rewrite Z0; reflexivity|].
    apply Z.log2_lt_pow2; [lia|]. eapply Z.le_lt_trans; [apply Z.log2_lxor; assumption|].
    apply Z.max_lub_lt; apply Z.log2_lt_pow2; try lia; apply R; assumption. }
  assert (ODD : Z.odd (ones x) = false).
  { rewrite <- ones_parity. destruct (parity x) eqn:Q; [|reflexivity]. exfalso.
    exact (L_C44_parity be addr addr' n n' P P' ltac:(lia) ltac:(lia) V Q
      (proj2 (validate_residue be addr' n' ltac:(lia)) (proj1 (validate_residue be' addr' n' ltac:(lia)) V'))). }
  clearbody x. clear V V' NE n n' P P' B B' R be be' addr addr'.
  destruct (Z.eq_dec (ones x) 7) as [Q|N7]; [rewrite Q in ODD; discriminate ODD|].
  destruct (Z.eq_dec (ones x) 6) as [Q|N6]; [exfalso|lia].
  destruct (bit_list 208 ltac:(lia) 6 x ltac:(lia) Q) as (l & L & S & RG & E & _).
  rewrite E, crc_list in D by (intros i I; pose proof (RG i I); change (8 * Z.of_nat k) with 208; lia).
  revert D. apply six_places.
  - assert (ND : NoDup l).
    { clear -S. induction S as [|a l S IH F]; constructor; [|exact IH]. intros I. rewrite Forall_forall in F. specialize (F a I). lia. }
    clear -ND RG. induction ND as [|a l NI ND IH]; [constructor|]. cbn [map]. constructor.
    + intros I. apply in_map_iff in I. destruct I as [b [E I]]. apply NI.
      assert (b = a); [|subst b; exact I]. apply place_inj; [apply RG; right; exact I|apply RG; left; reflexivity|exact E].
    + apply IH. intros i I. apply RG. right. exact I.
  - rewrite map_length. exact L.
  - intros a I. apply in_map_iff in I. destruct I as [b [<- I]]. pose proof (RG b I). unfold place, near.
    pose proof (Z.div_mod b 8 ltac:(lia)). pose proof (Z.mod_pos_bound b 8 ltac:(lia)). lia.
Qed.

(** ** Neighbours *)
Lemma L_neighbour be addr addr' n x : 0 <= n -> nbytes n < 2 ^ 32 -> 0 <= x -> nbytes x < nbytes n -> crc 0 (getRawMpz x) = 0 ->
  validateCRC be addr n = Ok true -> validateCRC be addr' (Z.lxor n x) = Ok true.
Proof.
  intros P B X L C V. apply validate_residue in V; [|exact B]. destruct V as [V4 V].
  assert (NP : 0 < n). { destruct (Z.eq_dec n 0) as [->|]; [cbn in V4; lia|lia]. }
  destruct (lxor_top n x NP X L) as [N _]. apply validate_residue; [lia|]. split; [lia|].
  set (k := Z.to_nat (nbytes n)).
  assert (0 <= Z.lxor n x) by (apply Z.lxor_nonneg; lia).
  rewrite <- (pad_raw k) by (apply width_bound; lia). pose proof (nbytes_nonneg x).
  rewrite crc_pad_lxor, !pad_raw by (apply width_bound; lia). rewrite V, C. reflexivity.
Qed.
(** four bits 5275 places apart, six bits 209 places apart *)
Definition at_place (t : Z) : Z := 8 * (t / 8) + (7 - t mod 8).
Definition bits4 : list Z := map at_place [0; 2751; 4508; 5275].
Definition bits6 : list Z := map at_place [0; 14; 39; 54; 144; 209].
Definition change (l : list Z) : Z := fold_right (fun i s => Z.lxor (2 ^ i) s) 0 l.
Definition change4 : Z := change bits4.
Definition change6 : Z := change bits6.
Lemma change_nonneg : 0 <= change4 /\ 0 <= change6.
Proof. split; vm_compute; discriminate. Qed.
Lemma change_crc l k : (forall i, In i l -> 0 <= i < 8 * Z.of_nat k) -> 0 <= change l -> nbytes (change l) <= Z.of_nat k ->
  xorl (map place l) = 0 -> crc 0 (getRawMpz (change l)) = 0.
Proof. intros R P N X. rewrite <- (pad_raw k) by (apply width_bound; assumption). unfold change. rewrite crc_list by exact R. exact X. Qed.
Lemma change4_facts : ones change4 = 4 /\ nbytes change4 = 660 /\ crc 0 (getRawMpz change4) = 0.
Proof.
  assert (H : ones change4 = 4 /\ nbytes change4 = 660 /\ xorl (map place bits4) = 0) by (vm_compute; repeat split; reflexivity).
  destruct H as [H [H' H'']]. split; [exact H|]. split; [exact H'|]. apply (change_crc bits4 660); [|apply change_nonneg| |exact H''].
  - intros i I. repeat (destruct I as [<-|I]; [split; vm_compute; [discriminate|reflexivity]|]). destruct I.
  - fold change4. rewrite H'. lia.
Qed.
Lemma change6_facts : ones change6 = 6 /\ nbytes change6 = 27 /\ crc 0 (getRawMpz change6) = 0.
Proof. vm_compute. repeat split; reflexivity. Qed.
#[local] Opaque change4 change6.
Lemma L_C112_four be addr addr' n : 0 <= n -> 660 < nbytes n < 2 ^ 32 -> validateCRC be addr n = Ok true ->
  exists n', 0 <= n' /\ nbytes n' = nbytes n /\ ones (Z.lxor n n') = 4 /\ validateCRC be addr' n' = Ok true.
Proof.
  intros P B V. destruct change4_facts as [O [L C]]. destruct change_nonneg as [N _]. exists (Z.lxor n change4).
  assert (NP : 0 < n). { destruct (Z.eq_dec n 0) as [->|]; [cbn in B; lia|lia]. }
  split; [apply Z.lxor_nonneg; lia|]. split; [apply lxor_top; lia|]. split.
  - rewrite <- Z.lxor_assoc, Z.lxor_nilpotent, Z.lxor_0_l. exact O.
  - apply (L_neighbour be addr addr'); try assumption; lia.
Qed.
Lemma L_C112_six be addr addr' n : 0 <= n -> 27 < nbytes n < 2 ^ 32 -> validateCRC be addr n = Ok true ->
  exists n', 0 <= n' /\ nbytes n' = nbytes n /\ ones (Z.lxor n n') = 6 /\ validateCRC be addr' n' = Ok true.
Proof.
  intros P B V. destruct change6_facts as [O [L C]]. destruct change_nonneg as [_ N]. exists (Z.lxor n change6).
  assert (NP : 0 < n). { destruct (Z.eq_dec n 0) as [->|]; [cbn in B; lia|lia]. }
  split; [apply Z.lxor_nonneg; lia|]. split; [apply lxor_top; lia|]. split.
  - rewrite <- Z.lxor_assoc, Z.lxor_nilpotent, Z.lxor_0_l. exact O.
  - apply (L_neighbour be addr addr'); try assumption; lia.
Qed.

(** ** Two bits *)
Lemma cycle_iff d : 0 <= d -> (shifts (Z.to_nat d) 1 = 1 <-> (fsize | d)).
Proof.
  intros D. assert (FP : 0 < fsize) by (unfold fsize; lia).
  pose proof (Z.div_mod d fsize ltac:(lia)) as E. pose proof (Z.mod_pos_bound d fsize FP) as M.
  pose proof (Z.div_pos d fsize D FP) as Q.
  assert (S : shifts (Z.to_nat d) 1 = shifts (Z.to_nat (d mod fsize)) 1).
  { replace (Z.to_nat d) with (Z.to_nat (d / fsize) * Z.to_nat fsize + Z.to_nat (d mod fsize))%nat.
    - rewrite shifts_add, (shifts_mult _ shifts_cycle). reflexivity.
    - apply Nat2Z.inj. rewrite Nat2Z.inj_add, Nat2Z.inj_mul, !Z2Nat.id by lia. lia. }
  rewrite S, <- Z.mod_divide by lia. split; intros H.
  - destruct (Z.eq_dec (d mod fsize) 0) as [|NZ]; [assumption|]. exfalso. revert H. apply no_short_cycle. lia.
  - rewrite H. reflexivity.
Qed.
Lemma wd_iff a b : 0 <= a -> 0 <= b -> (wd a = wd b <-> (fsize | a - b)).
Proof.
  assert (H : forall a b, 0 <= a <= b -> (wd a = wd b <-> (fsize | a - b))).
  { clear. intros a b R. rewrite <- (Z.divide_opp_r fsize (a - b)). replace (- (a - b)) with (b - a) by ring.
    rewrite <- cycle_iff by lia. replace b with (a + (b - a)) at 1 by lia. replace a with (a + 0) at 1 by lia.
    rewrite !wd_add by lia. change (wd 0) with 1. unfold wd. split; intros E.
    - apply shifts_inj in E; [symmetry; exact E|exact word_1|apply shifts_word, word_1].
    - rewrite E. reflexivity. }
  intros A B. destruct (Z_le_dec a b); [apply H; lia|]. split; intros E.
  - symmetry in E. apply (H b a ltac:(lia)) in E. apply Z.divide_opp_r in E. replace (a - b) with (- (b - a)) by ring. exact E.
  - symmetry. apply (H b a ltac:(lia)). replace (b - a) with (- (a - b)) by ring. apply Z.divide_opp_r. exact E.
Qed.
Lemma L_C112_two be be' addr addr' n n' i j : 0 <= n -> 0 <= n' -> nbytes n < 2 ^ 32 -> 4 <= nbytes n' < 2 ^ 32 ->
  validateCRC be addr n = Ok true -> 0 <= i < j -> Z.lxor n n' = 2 ^ i + 2 ^ j ->
  (validateCRC be' addr' n' = Ok true <-> (2 ^ 31 - 1 | turn i - turn j)).
Proof.
  intros P P' B B' V I X. apply validate_residue in V; [|exact B]. rewrite validate_residue by lia. destruct V as [_ V].
  pose proof (nbytes_nonneg n). set (k := Z.to_nat (nbytes n + nbytes n' + j + 1)).
  assert (S : 2 ^ i + 2 ^ j = Z.lxor (2 ^ i) (2 ^ j)).
  { apply Z.add_nocarry_lxor. apply Z.bits_inj'. intros b Hb. rewrite Z.land_spec, !testbit_pow2, Z.bits_0 by lia.
    destruct (Z.eqb_spec i b), (Z.eqb_spec j b); try reflexivity; lia. }
  assert (C : crc 0 (getRawMpz n') = Z.lxor (wd (place i)) (wd (place j))).
  { rewrite <- (pad_raw k) by (apply width_bound; lia).
    assert (E : n' = Z.lxor n (Z.lxor (2 ^ i) (2 ^ j))) by (rewrite <- S, <- X, <- Z.lxor_assoc, Z.lxor_nilpotent, Z.lxor_0_l; reflexivity).
    rewrite E, !crc_pad_lxor, !crc_bit by lia. rewrite pad_raw, V, Z.lxor_0_l by (apply width_bound; lia). reflexivity. }
  rewrite C. change (2 ^ 31 - 1) with fsize. replace (turn i - turn j) with (place i - place j) by (unfold turn, place; ring).
  assert (forall i, 0 <= i -> 0 <= place i).
  { intros x Hx. unfold place. pose proof (Z.div_pos x 8 ltac:(lia) ltac:(lia)). pose proof (Z.mod_pos_bound x 8 ltac:(lia)). lia. }
  rewrite <- wd_iff by (apply H0; lia). split.
  - intros [_ E]. apply Z.lxor_eq, E.
  - intros E. split; [lia|]. rewrite E. apply Z.lxor_nilpotent.
Qed.
