(** What a client learns when the block cipher may be any function: proofs. *)
From Coq Require Import ZArith Znumtheory Bool List Lia Field.
From Verif Require Import Outcome FieldModel ZpField SpecField FieldProofs ECGroup ECOrder CurveParams CurveFacts EccModel EccProofs SpecEcc EccThms Emb RF.
From Verif Require Import DmeModel SpecDme DmeProofs DmeProofs2 OtModel SpecOt OtProofs OtProofs2 CrcModel SpecCrc CrcProofs CrcProofs2 CrcProofs3 AesModel SpecAes AesProofs AesProofs2.
From Verif Require Import OpprfModel SpecOpprf SpecOpprf2 SpecOpprf4 SpecOpprf5 AesProofs3.
From Verif Require Import OpprfProofs OpprfProofs2 OpprfProofs3 OpprfProofs4 OpprfProofs5 OpprfProofs6 OpprfProofs7 OpprfProofs8 OpprfProofs11.
Import ListNotations.
Open Scope Z_scope.

Lemma key_16 k : 2 ^ 120 <= k < 2 ^ 128 -> nbytes k = 16.
Proof.
  intros H. unfold nbytes. destruct (Z.eqb_spec k 0) as [->|NZ]; [lia|]. rewrite Z.abs_eq by lia.
  assert (L : 120 <= Z.log2 k < 128) by (split; [apply Z.log2_le_pow2; lia|apply Z.log2_lt_pow2; lia]).
  assert (Q : Z.log2 k / 8 = 15) by (symmetry; apply (Z.div_unique _ _ _ (Z.log2 k - 120)); lia). lia.
Qed.
Lemma key_raw k : 2 ^ 120 <= k < 2 ^ 128 -> firstn 16 (getRawMpz k) = getRawMpz k.
Proof. intros H. apply firstn_all2. pose proof (getRaw_length k) as L. rewrite (key_16 k H) in L. lia. Qed.
Lemma raw_inj k k' : 0 <= k -> 0 <= k' -> getRawMpz k = getRawMpz k' -> k = k'.
Proof. intros K K' E. pose proof (L_roundtrip k) as A. pose proof (L_roundtrip k') as B. rewrite E in A. rewrite A in B. lia. Qed.
Lemma nbytes_le m k : 0 <= m < 2 ^ (8 * k) -> 0 <= k -> nbytes m <= k.
Proof.
  intros H K. unfold nbytes. destruct (Z.eqb_spec m 0) as [->|NZ]; [lia|]. rewrite Z.abs_eq by lia.
  assert (L : Z.log2 m < 8 * k) by (apply Z.log2_lt_pow2; lia). pose proof (Z.div_lt_upper_bound (Z.log2 m) 8 k ltac:(lia) L). lia.
Qed.

Fixpoint same_bytes (k l : list Z) : bool :=
  match k, l with [], [] => true | a :: k', b :: l' => (a =? b) && same_bytes k' l' | _, _ => false end.
Lemma same_bytes_eq k : forall l, same_bytes k l = true <-> k = l.
Proof.
  induction k as [|a k IH]; intros [|b l]; cbn [same_bytes]; try (split; [discriminate|discriminate]); [split; reflexivity|].
  rewrite andb_true_iff, Z.eqb_eq, IH. split; [intros [-> ->]; reflexivity|intros E; injection E as -> ->; split; reflexivity].
Qed.

(** ** The change of the block function *)
Section Delta.
  Variables (x th th' : Z) (p : prep_draws) (m m' : Z).
  Definition sw (j : nat) : comparison -> comparison := trans (prefix_cmp x th j) (prefix_cmp x th' j).
  Lemma sw_sw j s : sw j (sw j s) = s.
  Proof. apply trans_trans. Qed.
  Lemma sw_own j : sw j (prefix_cmp x th' j) = prefix_cmp x th j.
  Proof. apply trans_r. Qed.
  Lemma sw_own' j : sw j (prefix_cmp x th j) = prefix_cmp x th' j.
  Proof. apply trans_l. Qed.
  Lemma sw_same j s : same_letter (sw j s) (prefix_cmp x th j) = same_letter s (prefix_cmp x th' j).
  Proof. unfold sw. destruct (prefix_cmp x th j), (prefix_cmp x th' j), s; reflexivity. Qed.

  (** the keys of the second server *)
  Definition key' (s : comparison) (j : nat) : Z := level_key p (sw j s) j.

  Definition dl (s : comparison) (j : nat) : list Z :=
    if same_letter s (prefix_cmp x th j) then [] else
    match j with
    | O => if x <=? th then [] else match s with Gt => [] | _ => change m m' end
    | S i => change (level_key p (refine s (bit x i) (bit th i)) i) (key' (refine (sw (S i) s) (bit x i) (bit th' i)) i)
    end.
  Definition cand : list (comparison * nat) := list_prod [Lt; Eq; Gt] (seq 0 16).
  Definition delta (k : list Z) : list Z :=
    match find (fun z => same_bytes k (getRawMpz (level_key p (fst z) (snd z)))) cand with Some z => dl (fst z) (snd z) | None => [] end.

  Lemma dl_byte s j : Forall byte (dl s j).
  Proof.
    unfold dl. destruct (same_letter s (prefix_cmp x th j)); [constructor|]. destruct j as [|i]; [|apply change_byte].
    destruct (x <=? th); [constructor|]. destruct s; [apply change_byte|apply change_byte|constructor].
  Qed.
  Lemma delta_byte k : Forall byte (delta k).
  Proof. unfold delta. destruct (find _ cand) as [z|]; [apply dl_byte|constructor]. Qed.

  Hypothesis KR : forall s j, (j < 16)%nat -> 2 ^ 120 <= level_key p s j < 2 ^ 128.
  Hypothesis DK : distinct_keys p.

  Lemma cand_in s j : In (s, j) cand <-> (j < 16)%nat.
  Proof.
    unfold cand. rewrite in_prod_iff, in_seq. split; [intros [_ H]; lia|]. intros H. split; [destruct s; cbn; tauto|lia].
  Qed.
  Lemma delta_key s j : (j < 16)%nat -> delta (getRawMpz (level_key p s j)) = dl s j.
  Proof.
    intros J. unfold delta. destruct (find _ cand) as [[s1 j1]|] eqn:E.
    - apply find_some in E. destruct E as [I E]. cbn [fst snd] in *. apply same_bytes_eq in E. apply cand_in in I.
      pose proof (KR s j J). pose proof (KR s1 j1 I). apply raw_inj in E; [|lia|lia]. destruct (DK _ _ _ _ J I E) as [-> ->]. reflexivity.
    - pose proof (find_none _ _ E (s, j) (proj2 (cand_in s j) J)) as N. cbn [fst snd] in N. pose proof (proj2 (same_bytes_eq (getRawMpz (level_key p s j)) _) eq_refl) as T.
      rewrite T in N. discriminate N.
  Qed.
  Lemma delta_seen k : ~ unseen p th x k -> delta k = [].
  Proof.
    intros N. unfold delta. destruct (find _ cand) as [[s j]|] eqn:E; [|reflexivity].
    apply find_some in E. destruct E as [I E]. cbn [fst snd] in *. apply same_bytes_eq in E. apply cand_in in I. unfold dl.
    destruct (same_letter s (prefix_cmp x th j)) eqn:SL; [reflexivity|]. exfalso. apply N. exists s, j. split; [exact I|]. split; [|exact E].
    intros Q. rewrite (proj2 (same_letter_spec _ _) Q) in SL. discriminate SL.
  Qed.
  Lemma delta_own j : (j < 16)%nat -> delta (firstn 16 (getRawMpz (level_key p (prefix_cmp x th j) j))) = [].
  Proof.
    intros J. rewrite key_raw by (apply KR, J). rewrite delta_key by exact J. unfold dl. rewrite (proj2 (same_letter_spec _ _) eq_refl). reflexivity.
  Qed.

  (** the links of the two servers under the two block functions *)
  Variables (e : env) (iv v : list Z).
  Hypotheses (AR : aes_ready e iv) (IV : iv_block e iv = Ok v).
  Notation e' := (masked (pad_block v delta) e).

  Lemma key'_range s j : (j < 16)%nat -> 2 ^ 120 <= key' s j < 2 ^ 128.
  Proof. intros J. apply KR, J. Qed.

  Lemma link s j : (j < 15)%nat ->
    encryptCRC e' iv (key' s (S j)) (key' (refine s (bit x j) (bit th' j)) j) =
    encryptCRC e iv (level_key p (sw (S j) s) (S j)) (level_key p (refine (sw (S j) s) (bit x j) (bit th j)) j).
  Proof.
    intros J. unfold key' at 1. pose proof (sw_sw (S j) s) as SS. set (s1 := sw (S j) s) in *. rewrite <- SS. clearbody s1. clear SS s.
    destruct (same_letter s1 (prefix_cmp x th (S j))) eqn:SL.
    - apply same_letter_spec in SL. subst s1. rewrite (plain_encryptCRC v delta e iv delta_byte (ar_block _ _ AR) IV) by (apply delta_own; lia).
      rewrite sw_own', <- !prefix_cmp_step. unfold key'. rewrite sw_own. reflexivity.
    - apply (masked_encryptCRC v delta e iv delta_byte (ar_block _ _ AR) IV).
      + exact (ar_host _ _ AR).
      + apply KR; lia.
      + pose proof (KR (refine s1 (bit x j) (bit th j)) j ltac:(lia)). lia.
      + pose proof (key'_range (refine (sw (S j) s1) (bit x j) (bit th' j)) j ltac:(lia)). lia.
      + rewrite !key_16; [reflexivity|apply KR; lia|apply key'_range; lia].
      + rewrite key_16; [lia|apply KR; lia].
      + rewrite delta_key by lia. unfold dl. rewrite SL. reflexivity.
  Qed.
  Lemma own_decrypt j ct : (j < 16)%nat ->
    decryptCRC e' iv (key' (prefix_cmp x th' j) j) ct = decryptCRC e iv (level_key p (prefix_cmp x th j) j) ct.
  Proof. intros J. unfold key'. rewrite sw_own. apply (plain_decryptCRC v delta e iv delta_byte (ar_block _ _ AR) IV), delta_own, J. Qed.
  (** ... and the masks *)
  Lemma mask_low s y : x <= th -> encryptCRC e' iv (key' s 0) y = encryptCRC e iv (level_key p (sw 0 s) 0) y.
  Proof.
    intros L. unfold key'. apply (plain_encryptCRC v delta e iv delta_byte (ar_block _ _ AR) IV). rewrite key_raw by (apply KR; lia). rewrite delta_key by lia. unfold dl. 
    destruct (same_letter _ _); [reflexivity|]. rewrite (proj2 (Z.leb_le x th) L). reflexivity.
  Qed.
  Lemma mask_high s : th < x -> th' < x -> s <> Gt -> 0 < m -> 0 < m' -> nbytes m' = nbytes m -> nbytes m <= 124 ->
    encryptCRC e' iv (key' s 0) m' = encryptCRC e iv (level_key p s 0) m.
  Proof.
    intros L L' N M M' EN LE.
    assert (G : prefix_cmp x th 0 = Gt) by (rewrite prefix_cmp_0; apply Z.compare_gt_iff; lia).
    assert (G' : prefix_cmp x th' 0 = Gt) by (rewrite prefix_cmp_0; apply Z.compare_gt_iff; lia).
    assert (E : sw 0 s = s) by (unfold sw; rewrite G, G'; destruct s; reflexivity).
    unfold key'. rewrite E. apply (masked_encryptCRC v delta e iv delta_byte (ar_block _ _ AR) IV).
    - exact (ar_host _ _ AR).
    - apply KR; lia.
    - exact M.
    - exact M'.
    - exact EN.
    - exact LE.
    - rewrite delta_key by lia. unfold dl. rewrite G. destruct s; [| |destruct N; reflexivity]; cbn [same_letter].
      all: rewrite (proj2 (Z.leb_gt x th) L); reflexivity.
  Qed.
  Lemma mask_gt y : th < x -> th' < x -> encryptCRC e' iv (key' Gt 0) y = encryptCRC e iv (level_key p Gt 0) y.
  Proof.
    intros L L'.
    assert (G : prefix_cmp x th 0 = Gt) by (rewrite prefix_cmp_0; apply Z.compare_gt_iff; lia).
    assert (G' : prefix_cmp x th' 0 = Gt) by (rewrite prefix_cmp_0; apply Z.compare_gt_iff; lia).
    unfold key'. replace (sw 0 Gt) with Gt by (unfold sw; rewrite G, G'; reflexivity).
    apply (plain_encryptCRC v delta e iv delta_byte (ar_block _ _ AR) IV). rewrite <- G at 1. apply delta_own. lia.
  Qed.
  Lemma masked_ready : aes_ready e' iv.
  Proof.
    constructor; [apply masked_cipher; [apply delta_byte|exact (ar_block _ _ AR)]|exact (ar_host _ _ AR)|exact (ar_iv _ _ AR)|exact (ar_room _ _ AR)].
  Qed.
End Delta.

Lemma rounds_nodup : NoDup rounds.
Proof.
  unfold rounds. apply FinFun.Injective_map_NoDup; [intros i j; apply Nat2Z.inj|]. apply NoDup_rev, seq_NoDup.
Qed.

Section Opprf12.
  Variables (dbg : bool) (live : Z -> bool).
  Notation n := (fieldn CV).
  Let Hn : prime n := prime_n CV good_CV.
  Let HF := field_Fp n Hn.
  Add Field OpprfField12 : HF.
  Notation F := (Fp n).
  Notation rf := (rf live CV).
  Notation mk := (mk n).
  Notation drf := (drf live).
  Notation multiple := (multiple live).
  Local Infix "+'" := (fadd n) (at level 50, left associativity).
  Local Infix "-'" := (fsub n) (at level 50, left associativity).
  Local Infix "*'" := (fmul n) (at level 40, left associativity).
  Local Infix "/'" := (fdiv n) (at level 40, left associativity).

  (** ** The masks of a server *)
  Lemma masks_eq e iv S0 T p rd u v c : based live S0 T p -> scur S0 = Some c -> live c = true ->
    exists M R, multiple M (d_kopprf p - sum_to (d_ok p) 16 * d_r p) /\ multiple R rd /\
      sendEncryptedMasks dbg live e iv T rd u v =
      bind (getEncodedX dbg live CV M) (fun m0 => bind (encryptCRC e iv (level_key p Lt 0) m0) (fun c0 =>
      bind (encryptCRC e iv (level_key p Eq 0) m0) (fun c1 =>
      bind (getEncodedX dbg live CV R) (fun m2 => bind (encryptCRC e iv (level_key p Gt 0) m2) (fun c2 => Ok (shuffle3 [c0; c1; c2] u v)))))).
  Proof.
    intros B CU0 L. assert (CU : scur T = Some c) by (rewrite (ba_cur _ _ _ _ B); exact CU0).
    unfold sendEncryptedMasks. rewrite CU, (ba_ok _ _ _ _ B), (ba_lt _ _ _ _ B), (ba_eq _ _ _ _ B), (ba_gt _ _ _ _ B).
    change 0 with (Z.of_nat 0). rewrite !vat_map' by lia. change (Z.of_nat 0) with 0. cbn [bind].
    rewrite (mapM_In _ (fun j => em n (mk (d_ok p j)))).
    2: { intros j I. apply in_seq in I. apply (vat_map' (fun j => em n (mk (d_ok p j)))). unfold MSG_BITS in I. lia. }
    cbn [bind]. rewrite !sum_ok. cbn [bind]. rewrite !sum_16. rewrite !(em_neg n Hn). cbn [bind]. rewrite !mk_opp.
    destruct (pmul_m dbg live _ _ (- sum_to (d_ok p) 16) (ba_r _ _ _ _ B)) as [Q [ET MT]]. rewrite ET. cbn [bind].
    destruct (padd_m dbg live _ _ _ _ (ba_kopprf _ _ _ _ B) MT) as [M [EM1 MM]]. rewrite EM1. cbn [bind].
    destruct (randP_m dbg live c rd L) as [R [ER MR]]. rewrite ER. exists M, R.
    split. { apply (multiple_rf live). apply (multiple_rf live) in MM. apply (rf_cong live CV _ _ _ MM). apply (f_equal (mk)). generalize (sum_to (d_ok p) 16) (d_kopprf p) (d_r p). intros; lia. }
    split; [exact MR|]. cbn [bind]. generalize (getEncodedX dbg live CV M) as gm. generalize (getEncodedX dbg live CV R) as gr. cbn [level_key].
    intros gr [m0|]; [|reflexivity]. cbn [bind]. generalize (encryptCRC e iv (d_lt p 0) m0) (encryptCRC e iv (d_eq p 0) m0).
    intros [c0|] [c1|]; reflexivity.
  Qed.

  Lemma encX_total P z : multiple P z -> ~ (order | z) -> exists m, getEncodedX dbg live CV P = Ok m /\ 0 <= m < 2 * FIELD_p.
  Proof.
    intros M N. apply (multiple_rf live) in M. assert (NZ : mk z <> f0 n) by (intros E; apply N, mk_order_0, E).
    exact (L_C16_total dbg live CV good_CV P (rf_finite live CV good_CV _ _ M NZ)).
  Qed.
  Lemma encX_mult P Q z z' : multiple P z -> multiple Q z' -> mk z = mk z' -> getEncodedX dbg live CV P = getEncodedX dbg live CV Q.
  Proof.
    intros A B E. apply (multiple_rf live) in A, B. apply (encX_same dbg live _ _ _ A). apply (rf_cong live CV _ _ _ B). symmetry. exact E.
  Qed.
  Lemma nbytes_pos m : 0 <= m -> 0 < nbytes m -> 0 < m.
  Proof. intros H N. unfold nbytes in N. destruct (Z.eqb_spec m 0); lia. Qed.

  (** ** The draws of the second server *)
  Section Second.
    Variables (S S' : server) (C : client) (a a' a0 a1 b0 b1 x k' : Z) (d : session_draws) (iv v : list Z).
    Notation th := (theta S).
    Notation th' := (theta S').
    Notation p := (sd_prep d).
    Let dlt := (mk a -' mk a') /' mk (d_r p).
    Definition second_prep : prep_draws :=
      mkpd k' (d_r p) (key' x th th' p Lt) (key' x th th' p Eq) (key' x th th' p Gt)
        (fun j => val n (mk (d_ok p j) +' mk (bit x j * 2 ^ Z.of_nat j) *' dlt)).
    Notation p' := second_prep.
    Lemma second_key s j : level_key p' s j = key' x th th' p s j.
    Proof. destruct s; reflexivity. Qed.
    Definition mask' : Z := d_kopprf p' - sum_to (d_ok p') 16 * d_r p'.

    Hypotheses (SR : server_ready live S a) (SR' : server_ready live S' a') (ED : sdme (ots S') = sdme (ots S)).
    Hypotheses (OKC : dme_ok live (rdme (otr C))) (SC : same_crs (dcrs (rdme (otr C))) (dcrs (sdme (ots S)))).
    Hypotheses (CL : crs_logs live (dcrs (sdme (ots S))) a0 a1 b0 b1) (ND : ~ (order | a0 * b1 - a1 * b0)).
    Hypotheses (X : 0 <= x < 2 ^ 16) (RG : session_range d) (DK : distinct_keys p).
    Hypotheses (NR : ~ (order | d_r p)) (NK : forall r, 1 <= r <= 16 -> ~ (order | rd_key (sd_round d r))).
    Hypothesis (SIDE : x <= th <-> x <= th').
    Hypothesis (DK' : draw k').
    Hypothesis (LOW : x <= th -> (order | k' + x * a' - (d_kopprf p + x * a))).
    Hypothesis (HIGH : th < x -> same_size dbg live (mask_log d Eq) (k' + x * a' - x * a - sum_to (d_ok p) 16 * d_r p)).

    Lemma nr2 : mk (d_r p) <> f0 n.
    Proof. intros E. apply NR, mk_order_0, E. Qed.
    Lemma second_ok j : mk (d_ok p' j * d_r p') = mk (d_ok p j * d_r p) +' mk (bit x j * 2 ^ Z.of_nat j) *' (mk a -' mk a').
    Proof.
      cbn [second_prep d_ok d_r]. rewrite <- !mk_mul, mk_val. unfold dlt. pose proof nr2 as N. field. exact N.
    Qed.
    Lemma second_prf j : mk (bit x j * 2 ^ Z.of_nat j * a + d_ok p j * d_r p) = mk (bit x j * 2 ^ Z.of_nat j * a' + d_ok p' j * d_r p').
    Proof.
      rewrite <- !mk_add. rewrite second_ok. rewrite <- (mk_mul n _ a), <- (mk_mul n _ a'). ring.
    Qed.
    Lemma second_mask : mk mask' = mk (k' + x * a' - x * a - sum_to (d_ok p) 16 * d_r p).
    Proof.
      unfold mask'. rewrite <- !mk_sub, <- !mk_mul.
      rewrite (mk_sum (d_ok p') (d_ok p) (fun j => bit x j * 2 ^ Z.of_nat j) dlt 16).
      2: { intros j _. cbn [second_prep d_ok]. rewrite mk_val. reflexivity. }
      rewrite low_bits by lia. change (2 ^ Z.of_nat 16) with (2 ^ 16). rewrite (Z.mod_small x) by exact X. cbn [second_prep d_kopprf d_r].
      rewrite <- mk_add, <- mk_mul. unfold dlt. pose proof nr2 as N. generalize (mk (sum_to (d_ok p) 16)). intros w. field. exact N.
    Qed.
    Lemma second_mask_low : x <= th -> mk mask' = mk (mask_log d Eq).
    Proof.
      intros L. rewrite second_mask. apply mk_order_eq. destruct (LOW L) as [z E]. exists z. unfold mask_log. cbv zeta.
      revert E. generalize (sum_to (d_ok p) 16). intros w E. lia.
    Qed.
    Lemma keys_range s j : (j < 16)%nat -> 2 ^ 120 <= level_key p s j < 2 ^ 128.
    Proof. exact (sg_keys _ RG s j). Qed.
    Lemma th_range : 0 <= th < 2 ^ 16.
    Proof. exact (sr_theta _ _ _ SR). Qed.
    Lemma th'_range : 0 <= th' < 2 ^ 16.
    Proof. exact (sr_theta _ _ _ SR'). Qed.

    (** the mask encodings that have to be exchanged *)
    Lemma two_encodings : exists m m', forall P P', multiple P (mask_log d Eq) -> multiple P' mask' -> th < x ->
      getEncodedX dbg live CV P = Ok m /\ getEncodedX dbg live CV P' = Ok m' /\ 0 < m /\ 0 < m' /\ nbytes m' = nbytes m /\ nbytes m <= 124.
    Proof.
      destruct (Z_lt_le_dec th x) as [L|L]; [|exists 0, 0; intros; lia].
      destruct (HIGH L) as [N [N' EQ]]. pose proof (sr_ots _ _ _ SR) as [[c [Ec LC]] _].
      destruct (randP_m dbg live c (mask_log d Eq) LC) as [P [_ MP]]. destruct (randP_m dbg live c (k' + x * a' - x * a - sum_to (d_ok p) 16 * d_r p) LC) as [P' [_ MP']].
      destruct (encX_total P _ MP N) as [m [E M]]. destruct (encX_total P' _ MP' N') as [m' [E' M']].
      destruct (EQ P P' m m' MP MP' E E') as [B1 B2].
      exists m, m'. intros Q Q' MQ MQ' _.
      rewrite (encX_mult _ _ _ _ MQ MP eq_refl), (encX_mult _ _ _ _ MQ' MP' second_mask). split; [exact E|]. split; [exact E'|].
      split; [apply nbytes_pos; [lia|exact B1]|]. split; [apply nbytes_pos; [lia|rewrite <- B2; exact B1]|]. split; [symmetry; exact B2|].
      pose proof (nbytes_le m 34 ltac:(split; [exact (proj1 M)|]; refine (Z.lt_trans _ _ _ (proj2 M) _); reflexivity) ltac:(lia)). lia.
    Qed.

    Section Given.
      Variables (m m' : Z).
      Hypothesis TWO : forall P P', multiple P (mask_log d Eq) -> multiple P' mask' -> th < x ->
        getEncodedX dbg live CV P = Ok m /\ getEncodedX dbg live CV P' = Ok m' /\ 0 < m /\ 0 < m' /\ nbytes m' = nbytes m /\ nbytes m <= 124.
      Notation dt := (delta x th th' p m m').
      Notation ff := (pad_block v dt).
      Variable (e : env).
      Hypotheses (AR : aes_ready e iv) (IV : iv_block e iv = Ok v).
      Notation e' := (masked ff e).

      Lemma second_range f : (forall r, In r rounds -> follows S S' x r (sd_round d r) (f r)) -> forall u' w', 0 <= u' < 2 ^ 31 -> 0 <= w' < 2 ^ 31 ->
        session_range (mksd p' f (sd_random d) u' w' (sd_mask d)).
      Proof.
        intros FO u' w' RU RW. destruct RG as [[R1 R2] R3 R4 R5 [R6 [R7 [R8 R9]]]].
        constructor; cbn [sd_prep sd_round sd_random sd_u sd_v sd_mask].
        - split; [exact DK'|exact R2].
        - intros j J. cbn [second_prep d_ok]. apply val_draw.
        - intros s j J. rewrite second_key. apply R4, J.
        - intros r R. destruct (FO r (rounds_all r R)) as [F1 F2 F3 F4 F5]. destruct (R5 r R) as [Q1 [Q2 [Q3 [Q4 [Q5 _]]]]].
          assert (QL : forall s, quad_range (letter_quad s (sd_round d r))) by (intros s; destruct s; [exact Q3|exact Q2|exact Q4]).
          cbv zeta. rewrite F1. split; [exact Q1|].
          split; [exact (proj2 (proj2 (F2 Lt)) (QL _))|]. split; [exact (proj2 (proj2 (F2 Eq)) (QL _))|]. split; [exact (proj2 (proj2 (F2 Gt)) (QL _))|].
          split; [exact (proj2 (proj2 F3) Q5)|]. split; [exact F4|exact F5].
        - split; [exact R6|]. split; [exact R7|]. split; [exact RU|exact RW].
      Qed.

      Lemma second_talk t : talk dbg live e iv S (setMessage C x) d = Ok t ->
        exists f u' w' t', (forall r, In r rounds -> follows S S' x r (sd_round d r) (f r)) /\ 0 <= u' < 2 ^ 31 /\ 0 <= w' < 2 ^ 31 /\
          talk dbg live e' iv S' (setMessage C x) (mksd p' f (sd_random d) u' w' (sd_mask d)) = Ok t' /\ same_view t t'.
      Proof.
        intros T.
        destruct (mult_drf live _ _ _ _ _ (sr_ots _ _ _ SR) CL) as [c K].
        destruct (same_drf live _ _ _ _ _ _ _ K OKC SC) as [c' K'].
        assert (DET : mk a0 *' mk b1 -' mk a1 *' mk b0 <> f0 n).
        { intros E. apply ND, mk_order_0. rewrite <- mk_sub, <- !mk_mul. exact E. }
        pose proof (masked_ready x th th' p m m' e iv v AR) as AR'.
        assert (KR' : forall s j, (j < 16)%nat -> 2 ^ 120 <= level_key p' s j < 2 ^ 128) by (intros s j J; rewrite second_key; apply keys_range, J).
        destruct (prepare_ok dbg live e iv S p a AR SR keys_range) as [S1 [E1 [B1 [T0 [T1 [_ RW]]]]]].
        destruct (prepare_ok dbg live e' iv S' p' a' AR' SR' KR') as [S1' [E1' [B1' [T0' [T1' [_ RW']]]]]].
        assert (P1 : prepared live e iv S S1 p a) by (split; [exact B1|split; [exact T0|split; [exact T1|exact RW]]]).
        assert (P1' : prepared live e' iv S' S1' p' a') by (split; [exact B1'|split; [exact T0'|split; [exact T1'|exact RW']]]).
        assert (TOP : level_key p' (bit x 15 ?= bit th' 15) 15 = level_key p (bit x 15 ?= bit th 15) 15).
        { rewrite second_key. unfold key'. rewrite <- (prefix_cmp_15 x th' X th'_range), <- (prefix_cmp_15 x th X th_range), sw_own. reflexivity. }
        assert (LK : forall j s ct, (j < 15)%nat ->
          encryptCRC e iv (level_key p (swap S S' x (Datatypes.S j) s) (Datatypes.S j)) (level_key p (refine (swap S S' x (Datatypes.S j) s) (bit x j) (bit th j)) j) = Ok ct ->
          encryptCRC e' iv (level_key p' s (Datatypes.S j)) (level_key p' (refine s (bit x j) (bit th' j)) j) = Ok ct).
        { intros j s ct J E. rewrite !second_key. rewrite (link x th th' p m m' keys_range DK e iv v AR IV s j J). exact E. }
        destruct (exchanges_pair dbg live e e' iv S S' a a' x c (mk a0) (mk a1) (mk b0) (mk b1) p p' ED K TOP LK (fun j _ => second_prf j) X th_range th'_range
          (setMessage C x) d c' rounds K' DET NK rounds_range rounds_nodup S1 S1' (setMessage C x) P1 P1' eq_refl eq_refl)
          as [f [T2 [t2 [T2' [t2' [FO [E2 [E2' [Q [Q' SM]]]]]]]]]].
        unfold talk, schedule in T. rewrite E1, bind_ret, E2, bind_ret in T. cbn [fst snd] in T.
        apply bind_Ok in T. destruct T as [ms [EM T]]. apply Ok_inj in T. subst t.
        assert (CU : scur S = Some c) by (rewrite (sr_cur _ _ _ SR); exact (dr_cur _ _ _ _ _ _ _ K)).
        assert (CU' : scur S' = Some c) by (rewrite (sr_cur _ _ _ SR'), ED; exact (dr_cur _ _ _ _ _ _ _ K)).
        destruct (masks_eq e iv S T2 p (sd_random d) (sd_u d) (sd_v d) c (proj1 Q) CU (dr_live _ _ _ _ _ _ _ K)) as [M [R [MM [MR EQ]]]].
        rewrite EQ in EM. clear EQ.
        apply bind_Ok in EM. destruct EM as [m0 [X0 EM]]. apply bind_Ok in EM. destruct EM as [c0 [X1 EM]]. apply bind_Ok in EM. destruct EM as [c1 [X2 EM]].
        apply bind_Ok in EM. destruct EM as [m2 [X3 EM]]. apply bind_Ok in EM. destruct EM as [c2 [X4 EM]]. apply Ok_inj in EM. subst ms.
        assert (GOAL : exists u' w', 0 <= u' < 2 ^ 31 /\ 0 <= w' < 2 ^ 31 /\
          sendEncryptedMasks dbg live e' iv T2' (sd_random d) u' w' = Ok (shuffle3 [c0; c1; c2] (sd_u d) (sd_v d))).
        { destruct (shuffle_trans (prefix_cmp x th 0) (prefix_cmp x th' 0) (sd_u d) (sd_v d)) as [u' [w' [RU [RV SH]]]].
          exists u', w'. split; [exact RU|]. split; [exact RV|].
          destruct (masks_eq e' iv S' T2' p' (sd_random d) u' w' c (proj1 Q') CU' (dr_live _ _ _ _ _ _ _ K)) as [M' [R' [MM' [MR' EQ']]]].
          rewrite EQ'. clear EQ'. rewrite (encX_mult R' R _ _ MR' MR eq_refl), X3. rewrite !second_key.
          set (w := fun s => match s with Lt => c0 | Eq => c1 | Gt => c2 end).
          assert (FIN : forall mm, getEncodedX dbg live CV M' = Ok mm -> (forall s, encryptCRC e' iv (key' x th th' p s 0) (match s with Gt => m2 | _ => mm end) = Ok (w (sw x th th' 0 s))) ->
            bind (getEncodedX dbg live CV M') (fun m0 => bind (encryptCRC e' iv (key' x th th' p Lt 0) m0) (fun c0 =>
              bind (encryptCRC e' iv (key' x th th' p Eq 0) m0) (fun c1 => bind (Ok m2) (fun m2 =>
              bind (encryptCRC e' iv (key' x th th' p Gt 0) m2) (fun c2 => Ok (shuffle3 [c0; c1; c2] u' w')))))) = Ok (shuffle3 [c0; c1; c2] (sd_u d) (sd_v d))).
          { intros mm EE EC. rewrite EE, bind_ret. rewrite (EC Lt), bind_ret, (EC Eq), !bind_ret, (EC Gt), bind_ret.
            rewrite (shuffle3_letters _ (fun s => w (sw x th th' 0 s))). change [c0; c1; c2] with [w Lt; w Eq; w Gt].
            rewrite (shuffle3_letters _ w), <- SH, map_map. reflexivity. }
          destruct (Z_lt_le_dec th x) as [L|L].
          - assert (L' : th' < x) by (destruct (Z_lt_le_dec th' x) as [Y|Y]; [exact Y|apply SIDE in Y; lia]).
            destruct (TWO M M' MM MM' L) as [Y0 [Y1 [Y2 [Y3 [Y4 Y5]]]]]. rewrite Y0 in X0. apply Ok_inj in X0. subst m0.
            apply (FIN m' Y1). intros s.
            assert (ES : sw x th th' 0 s = s).
            { unfold sw. rewrite !prefix_cmp_0. rewrite (proj2 (Z.compare_gt_iff x th)), (proj2 (Z.compare_gt_iff x th')) by lia. destruct s; reflexivity. }
            rewrite ES. destruct s.
            + rewrite (mask_high x th th' p m m' keys_range DK e iv v AR IV Eq L L' ltac:(discriminate) Y2 Y3 Y4 Y5). exact X2.
            + rewrite (mask_high x th th' p m m' keys_range DK e iv v AR IV Lt L L' ltac:(discriminate) Y2 Y3 Y4 Y5). exact X1.
            + rewrite (mask_gt x th th' p m m' keys_range DK e iv v AR IV m2 L L'). exact X4.
          - assert (L' : x <= th') by (apply SIDE; exact L).
            assert (EX : getEncodedX dbg live CV M' = Ok m0) by (rewrite (encX_mult M' M _ _ MM' MM (second_mask_low L)); exact X0).
            apply (FIN m0 EX). intros s. rewrite (mask_low x th th' p m m' keys_range DK e iv v AR IV s _ L).
            assert (ES : sw x th th' 0 Gt = Gt /\ sw x th th' 0 Lt <> Gt /\ sw x th th' 0 Eq <> Gt).
            { unfold sw. rewrite !prefix_cmp_0. destruct (Z.compare_spec x th), (Z.compare_spec x th'); try lia; repeat split; discriminate. }
            destruct ES as [ES1 [ES2 ES3]]. destruct s.
            + destruct (sw x th th' 0 Eq); [exact X2|exact X1|destruct ES3; reflexivity].
            + destruct (sw x th th' 0 Lt); [exact X2|exact X1|destruct ES2; reflexivity].
            + rewrite ES1. exact X4. }
        destruct GOAL as [u' [w' [RU [RV EM']]]]. exists f, u', w', (mktr t2' (shuffle3 [c0; c1; c2] (sd_u d) (sd_v d))).
        split; [exact FO|]. split; [exact RU|]. split; [exact RV|]. split.
        - unfold talk, schedule. cbn [sd_prep sd_round sd_random sd_u sd_v sd_mask]. rewrite E1', bind_ret, E2', bind_ret. cbn [fst snd]. rewrite EM', bind_ret. reflexivity.
        - split; [exact SM|reflexivity].
      Qed.
      Lemma ot_keeps crs b r q y k z : keeps b q y -> mk z = mk k -> ot_ok live crs b r q k -> ot_ok live crs b r y z.
      Proof.
        intros [E1 [E2 _]] EZ O A H MA MH. destruct (O A H MA MH) as [O1 O2]. cbv zeta in O1, O2 |- *. rewrite E1, E2. split; [exact O1|].
        intros Z. apply O2. revert Z. rewrite <- !mk_order_0, <- !mk_add, EZ. intros Z; exact Z.
      Qed.
      Lemma otZ_keeps crs D b r q y z : keeps b q y -> ot_ok_int dbg live crs D b r q z -> ot_ok_int dbg live crs D b r y z.
      Proof. intros K O P k EP MP. exact (ot_keeps crs b r q y k k K eq_refl (O P k EP MP)). Qed.

      Lemma second_good f u' w' crs D : (forall r, In r rounds -> follows S S' x r (sd_round d r) (f r)) ->
        good_draws dbg live e iv crs D th a x d ->
        good_draws dbg live e' iv crs D th' a' x (mksd p' f (sd_random d) u' w' (sd_mask d)).
      Proof.
        intros FO GD. destruct GD as [G1 G2 G3 G4 G5 G6 G7 G8].
        assert (FB : forall j, (j < 16)%nat -> follows S S' x (Z.of_nat (Datatypes.S j)) (sd_round d (Z.of_nat (Datatypes.S j))) (f (Z.of_nat (Datatypes.S j)))).
        { intros j J. apply FO, rounds_all. lia. }
        assert (RB : forall j, round_bit x (Z.of_nat (Datatypes.S j)) = bit x j).
        { intros j. unfold round_bit. replace (Z.to_nat (Z.of_nat (Datatypes.S j) - 1)) with j by lia. reflexivity. }
        constructor; cbn [sd_prep sd_round sd_random sd_u sd_v sd_mask].
        - intros s j J. rewrite second_key. apply keys_range, J.
        - rewrite second_key. unfold key'. rewrite sw_own. exact G2.
        - intros j J s ct E. rewrite !second_key in E. rewrite (link x th th' p m m' keys_range DK e iv v AR IV s j J) in E.
          destruct (G3 j J _ ct E) as [Y1 Y2]. split; [exact Y1|]. rewrite second_key, (own_decrypt x th th' p m m' keys_range DK e iv v AR IV) by lia.
          rewrite Y2, sw_same, second_key. unfold key'. rewrite sw_own. reflexivity.
        - intros s. rewrite <- (prefix_cmp_0 x th') in *. rewrite <- (prefix_cmp_0 x th) in *.
          assert (ML : forall s, mask_log (mksd p' f (sd_random d) u' w' (sd_mask d)) s = match s with Gt => sd_random d | _ => mask' end) by (intros []; reflexivity).
          destruct (Z_lt_le_dec th x) as [L|L].
          + assert (L' : th' < x) by (destruct (Z_lt_le_dec th' x) as [Y|Y]; [exact Y|apply SIDE in Y; lia]).
            assert (GT : prefix_cmp x th 0 = Gt) by (rewrite prefix_cmp_0; apply Z.compare_gt_iff; lia).
            assert (GT' : prefix_cmp x th' 0 = Gt) by (rewrite prefix_cmp_0; apply Z.compare_gt_iff; lia).
            destruct (G4 s) as [N1 N2]. rewrite ML. destruct (same_letter s Gt) eqn:SL.
            * apply same_letter_spec in SL. subst s. split; [exact N1|]. intros P mm MP EX. destruct (N2 P mm MP EX) as [ct [Z1 Z2]]. exists ct.
              rewrite !second_key, (own_decrypt x th th' p m m' keys_range DK e iv v AR IV) by lia. rewrite (mask_gt x th th' p m m' keys_range DK e iv v AR IV mm L L').
              split; [exact Z1|]. rewrite Z2, GT, GT'. reflexivity.
            * assert (NG : s <> Gt) by (intros ->; discriminate SL).
              assert (E1 : mask_log d s = mask_log d Eq) by (destruct s; [reflexivity|reflexivity|destruct NG; reflexivity]).
              replace (match s with Gt => sd_random d | _ => mask' end) with mask' by (destruct s; [reflexivity|reflexivity|destruct NG; reflexivity]).
              destruct (HIGH L) as [_ [N' _]]. split; [intros Z; apply N', mk_order_0; rewrite <- second_mask; apply mk_order_0; exact Z|].
              intros P' mm MP' EX. pose proof (sr_ots _ _ _ SR) as [[c [Ec LC]] _]. destruct (randP_m dbg live c (mask_log d Eq) LC) as [P [_ MP]].
              destruct (TWO P P' MP MP' L) as [Y0 [Y1 [Y2 [Y3 [Y4 Y5]]]]]. rewrite Y1 in EX. apply Ok_inj in EX. subst mm.
              rewrite E1 in N2. destruct (N2 P m MP Y0) as [ct [Z1 Z2]]. exists ct.
              rewrite !second_key, (own_decrypt x th th' p m m' keys_range DK e iv v AR IV) by lia.
              rewrite (mask_high x th th' p m m' keys_range DK e iv v AR IV s L L' NG Y2 Y3 Y4 Y5). split; [exact Z1|].
              rewrite Z2, GT, GT', SL. reflexivity.
          + destruct (G4 (sw x th th' 0 s)) as [N1 N2]. rewrite ML.
            assert (EL : mk (match s with Gt => sd_random d | _ => mask' end) = mk (mask_log d (sw x th th' 0 s))).
            { assert (L' : x <= th') by (apply SIDE; exact L).
              assert (ES : sw x th th' 0 Gt = Gt /\ sw x th th' 0 Lt <> Gt /\ sw x th th' 0 Eq <> Gt).
              { unfold sw. rewrite !prefix_cmp_0. destruct (Z.compare_spec x th), (Z.compare_spec x th'); try lia; repeat split; discriminate. }
              destruct ES as [ES1 [ES2 ES3]]. destruct s.
              - rewrite (second_mask_low L). destruct (sw x th th' 0 Eq); [reflexivity|reflexivity|destruct ES3; reflexivity].
              - rewrite (second_mask_low L). destruct (sw x th th' 0 Lt); [reflexivity|reflexivity|destruct ES2; reflexivity].
              - rewrite ES1. reflexivity. }
            split; [intros Z; apply N1, mk_order_0; rewrite <- EL; apply mk_order_0; exact Z|].
            intros P mm MP EX. apply (multiple_rf live) in MP. rewrite EL in MP. apply (multiple_rf live) in MP.
            destruct (N2 P mm MP EX) as [ct [Z1 Z2]]. exists ct.
            rewrite !second_key, (own_decrypt x th th' p m m' keys_range DK e iv v AR IV) by lia. rewrite (mask_low x th th' p m m' keys_range DK e iv v AR IV s mm L).
            split; [exact Z1|]. rewrite Z2, sw_same. reflexivity.
        - exact G5.
        - cbv zeta. cbv zeta in G6. pose proof (FB 15%nat ltac:(lia)) as FO15. change (Z.of_nat 16) with 16 in FO15. destruct FO15 as [F1 F2 F3 _ _].
          rewrite F1, second_key. unfold key'. rewrite sw_own. apply (otZ_keeps _ _ _ _ _ _ _) with (2 := G6).
          pose proof (F2 Lt) as FL. change (Z.to_nat 16) with 16%nat in FL. rewrite (swap_16 S S' x X th_range th'_range) in FL. exact FL.
        - intros j J s ct. cbv zeta. intros E. rewrite !second_key in E. rewrite (link x th th' p m m' keys_range DK e iv v AR IV s j J) in E.
          destruct (FB j ltac:(lia)) as [F1 F2 F3 _ _]. rewrite F1. apply (otZ_keeps _ _ _ _ _ _ _) with (2 := G7 j J _ ct E).
          pose proof (F2 s) as FL. rewrite Nat2Z.id, RB in FL. exact FL.
        - intros j J. cbv zeta. destruct (FB j J) as [F1 F2 F3 _ _]. rewrite F1. rewrite RB in F3.
          apply (ot_keeps _ _ _ _ _ _ _ F3) with (2 := G8 j J). symmetry. apply second_prf.
      Qed.
    End Given.
  End Second.

  Lemma L_C91 iv v S S' C a a' a0 a1 b0 b1 x d k' : server_ready live S a -> server_ready live S' a' -> sdme (ots S') = sdme (ots S) ->
    dme_ok live (rdme (otr C)) -> same_crs (dcrs (rdme (otr C))) (dcrs (sdme (ots S))) ->
    crs_logs live (dcrs (sdme (ots S))) a0 a1 b0 b1 -> ~ (order | a0 * b1 - a1 * b0) ->
    0 <= x < 2 ^ 16 -> session_range d -> distinct_keys (sd_prep d) ->
    ~ (order | d_r (sd_prep d)) -> (forall r, 1 <= r <= 16 -> ~ (order | rd_key (sd_round d r))) ->
    (x <= theta S <-> x <= theta S') -> draw k' ->
    (x <= theta S -> (order | k' + x * a' - (d_kopprf (sd_prep d) + x * a))) ->
    (theta S < x -> same_size dbg live (mask_log d Eq) (k' + x * a' - x * a - sum_to (d_ok (sd_prep d)) 16 * d_r (sd_prep d))) ->
    exists f, (forall k b, length (f k b) = 16%nat /\ Forall byte (f k b)) /\
      (forall k b, ~ unseen (sd_prep d) (theta S) x k -> f k b = repeat 0 16) /\
      forall e t, aes_ready e iv -> iv_block e iv = Ok v -> talk dbg live e iv S (setMessage C x) d = Ok t ->
      exists d' t', d_kopprf (sd_prep d') = k' /\ same_client_draws d d' /\ session_range d' /\
        talk dbg live (masked f e) iv S' (setMessage C x) d' = Ok t' /\ same_view t t' /\
        (forall crs D, good_draws dbg live e iv crs D (theta S) a x d -> good_draws dbg live (masked f e) iv crs D (theta S') a' x d') /\
        (client_ready live (setMessage C x) x -> good_draws dbg live e iv (dcrs (rdme (otr C))) (sdme (ots S)) (theta S) a x d ->
         exists C1 C1', offline dbg live e iv (setMessage C x) d t = Ok C1 /\ offline dbg live (masked f e) iv (setMessage C x) d' t' = Ok C1' /\
           key C1' = key C1 /\ den CV (result C1') = den CV (result C1)).
  Proof.
    intros SR SR' ED OKC SC CL ND X RG DK NR NK SIDE DK' LOW HIGH.
    destruct (two_encodings S S' a a' x k' d SR X NR SIDE HIGH) as [m [m' TWO]].
    exists (pad_block v (delta x (theta S) (theta S') (sd_prep d) m m')).
    split; [intros k b; split; [apply pad_len|apply pad_byte, delta_byte]|].
    split; [intros k b N; apply pad_none, delta_seen, N|].
    intros e t AR IV T.
    destruct (second_talk S S' C a a' a0 a1 b0 b1 x k' d iv v SR SR' ED OKC SC CL ND X RG DK NR NK SIDE LOW m m' TWO e AR IV t T)
      as [f [u' [w' [t' [FO [RU [RW [T' SV]]]]]]]].
    exists (mksd (second_prep S S' a a' x k' d) f (sd_random d) u' w' (sd_mask d)), t'.
    split; [reflexivity|]. split. { split; [|reflexivity]. intros r R. exact (fo_key _ _ _ _ _ _ (FO r (rounds_all r R))). }
    split; [exact (second_range S S' a a' x k' d RG DK' f FO u' w' RU RW)|]. split; [exact T'|]. split; [exact SV|].
    set (d' := mksd (second_prep S S' a a' x k' d) f (sd_random d) u' w' (sd_mask d)) in *.
    assert (GG : forall crs D, good_draws dbg live e iv crs D (theta S) a x d ->
      good_draws dbg live (masked (pad_block v (delta x (theta S) (theta S') (sd_prep d) m m')) e) iv crs D (theta S') a' x d').
    { intros crs D GD. exact (second_good S S' a a' x k' d iv v SR SR' X RG DK NR SIDE LOW HIGH m m' TWO e AR IV f u' w' crs D FO GD). }
    split; [exact GG|]. intros CR GD.
    pose proof (masked_ready x (theta S) (theta S') (sd_prep d) m m' e iv v AR) as AR'.
    set (e' := masked (pad_block v (delta x (theta S) (theta S') (sd_prep d) m m')) e) in *.
    assert (GD' : good_draws dbg live e' iv (dcrs (rdme (otr C))) (sdme (ots S')) (theta S') a' x d') by (rewrite ED; exact (GG _ _ GD)).
    assert (SC1 : same_crs (dcrs (sdme (ots S))) (dcrs (rdme (otr (setMessage C x))))).
    { destruct SC as [A1 [A2 [A3 A4]]]. split; [symmetry; exact A1|]. split; [symmetry; exact A2|]. split; symmetry; assumption. }
    assert (SC1' : same_crs (dcrs (sdme (ots S'))) (dcrs (rdme (otr (setMessage C x))))) by (rewrite ED; exact SC1).
    destruct (val_rf live _ (cr_result _ _ _ CR)) as [zz MZ]. rewrite <- (mk_val n zz) in MZ. apply (multiple_rf live) in MZ.
    destruct (L_session dbg live e iv S (setMessage C x) d a x _ AR SR CR SC1 GD MZ) as [Sx [Cx [ES [_ [_ [_ [_ [KC MC]]]]]]]].
    destruct (L_session dbg live e' iv S' (setMessage C x) d' a' x _ AR' SR' CR SC1' GD' MZ) as [Sx' [Cx' [ES' [_ [_ [_ [_ [KC' MC']]]]]]]].
    destruct (L_session_talk dbg live e iv _ _ _ _ _ ES) as [t1 [TT OF]]. rewrite T in TT. apply Ok_inj in TT. subst t1.
    destruct (L_session_talk dbg live e' iv _ _ _ _ _ ES') as [t1' [TT' OF']]. rewrite T' in TT'. apply Ok_inj in TT'. subst t1'.
    exists Cx, Cx'. split; [exact OF|]. split; [exact OF'|]. split.
    - rewrite KC, KC'. change (sd_prep d') with (second_prep S S' a a' x k' d). rewrite second_key. unfold key'. rewrite <- !prefix_cmp_0, sw_own. reflexivity.
    - apply (multiple_rf live) in MC, MC'. apply (rf_den_eq live CV good_CV _ _ _ _ MC' MC). rewrite <- !mk_add. apply (f_equal (fadd n (mk (val n zz)))).
      unfold outcome_log. cbv zeta. change (sd_prep d') with (second_prep S S' a a' x k' d). change (sd_random d') with (sd_random d).
      pose proof (second_mask S S' a a' x k' d X NR SIDE) as SM. unfold mask' in SM.
      destruct (Z_lt_le_dec (theta S) x) as [L|L].
      + assert (L' : theta S' < x) by (destruct (Z_lt_le_dec (theta S') x) as [Y|Y]; [exact Y|apply SIDE in Y; lia]).
        assert (Y1 : (x ?= theta S') = Gt) by (apply Z.compare_gt_iff; lia). assert (Y2 : (x ?= theta S) = Gt) by (apply Z.compare_gt_iff; lia). rewrite Y1, Y2.
        change (d_kopprf (second_prep S S' a a' x k' d)) with k' in SM. change (d_r (second_prep S S' a a' x k' d)) with (d_r (sd_prep d)) in SM |- *. apply mk_order_eq in SM. apply mk_order_eq. destruct SM as [z E]. exists (- z).
        revert E. generalize (sum_to (d_ok (second_prep S S' a a' x k' d)) 16) (sum_to (d_ok (sd_prep d)) 16). intros w1 w2 E. lia.
      + assert (L' : x <= theta S') by (apply SIDE; exact L). destruct (LOW L) as [z E]. change (d_kopprf (second_prep S S' a a' x k' d)) with k'.
        assert (Y1 : forall u w : Z, match x ?= theta S' with Gt => u | _ => w end = w) by (intros u w; destruct (Z.compare_spec x (theta S')); [reflexivity|reflexivity|lia]).
        assert (Y2 : forall u w : Z, match x ?= theta S with Gt => u | _ => w end = w) by (intros u w; destruct (Z.compare_spec x (theta S)); [reflexivity|reflexivity|lia]).
        rewrite Y1, Y2. apply mk_order_eq. exists z. lia.
  Qed.
End Opprf12.
