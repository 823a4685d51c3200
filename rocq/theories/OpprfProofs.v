(** Proofs about the oblivious programmable PRF. *)
From Coq Require Import ZArith Znumtheory Bool List Permutation Lia Field.
From Verif Require Import Outcome FieldModel ZpField SpecField FieldProofs ECGroup ECOrder CurveParams CurveFacts EccModel EccProofs SpecEcc EccThms Emb RF DmeModel SpecDme DmeProofs OtModel SpecOt OtProofs.
From Verif Require Import CrcModel SpecCrc CrcProofs2 CrcProofs3 AesModel SpecAes AesProofs OpprfModel SpecOpprf.
Import ListNotations.
Open Scope Z_scope.

(** ** Bits and prefixes *)

Lemma bit_testbit z j : bit z j = Z.b2z (Z.testbit z (Z.of_nat j)).
Proof. unfold bit. rewrite Z.testbit_spec' by lia. reflexivity. Qed.

Lemma bit_range z j : bit z j = 0 \/ bit z j = 1.
Proof. rewrite bit_testbit. destruct (Z.testbit _ _); auto. Qed.

Lemma land_pow2 z j : 0 <= j -> negb (Z.land z (2 ^ j) =? 0) = Z.testbit z j.
Proof.
  intros J. destruct (Z.testbit z j) eqn:B.
  - destruct (Z.eqb_spec (Z.land z (2 ^ j)) 0) as [E|]; [|reflexivity]. exfalso.
    assert (T : Z.testbit (Z.land z (2 ^ j)) j = false) by (rewrite E; apply Z.bits_0).
    rewrite Z.land_spec, B, Z.pow2_bits_true in T by lia. discriminate T.
  - destruct (Z.eqb_spec (Z.land z (2 ^ j)) 0) as [|N]; [reflexivity|]. exfalso. apply N.
    apply Z.bits_inj'. intros i I. rewrite Z.land_spec, Z.pow2_bits_eqb, Z.bits_0 by lia.
    destruct (Z.eqb_spec j i) as [->|]; [rewrite B; reflexivity|apply andb_false_r].
Qed.

Lemma prefix_div z j : z / 2 ^ Z.of_nat j = 2 * (z / 2 ^ Z.of_nat (S j)) + bit z j.
Proof.
  unfold bit. replace (2 ^ Z.of_nat (S j)) with (2 ^ Z.of_nat j * 2) by (rewrite Nat2Z.inj_succ, Z.pow_succ_r by lia; ring).
  rewrite <- Z.div_div by lia. apply Z.div_mod. lia.
Qed.

Lemma prefix_cmp_step x th j : prefix_cmp x th j = refine (prefix_cmp x th (S j)) (bit x j) (bit th j).
Proof.
  unfold prefix_cmp. rewrite (prefix_div x j), (prefix_div th j).
  pose proof (bit_range x j). pose proof (bit_range th j). unfold refine.
  destruct (Z.compare_spec (x / 2 ^ Z.of_nat (S j)) (th / 2 ^ Z.of_nat (S j))) as [E|L|G].
  - rewrite E. destruct (Z.compare_spec (bit x j) (bit th j)); [apply Z.compare_eq_iff|apply Z.compare_lt_iff|apply Z.compare_gt_iff]; lia.
  - apply Z.compare_lt_iff. lia.
  - apply Z.compare_gt_iff. lia.
Qed.

Lemma prefix_cmp_0 x th : prefix_cmp x th 0 = (x ?= th).
Proof. unfold prefix_cmp. rewrite !Z.div_1_r. reflexivity. Qed.

Lemma prefix_15 z : 0 <= z < 2 ^ 16 -> z / 2 ^ Z.of_nat 15 = bit z 15.
Proof.
  intros H. rewrite (prefix_div z 15). change (2 ^ Z.of_nat 16) with (2 ^ 16). rewrite Z.div_small by lia. lia.
Qed.

Lemma prefix_cmp_15 x th : 0 <= x < 2 ^ 16 -> 0 <= th < 2 ^ 16 -> prefix_cmp x th 15 = (bit x 15 ?= bit th 15).
Proof. intros X T. unfold prefix_cmp. rewrite !prefix_15 by assumption. reflexivity. Qed.

Lemma same_letter_spec s s' : same_letter s s' = true <-> s = s'.
Proof. destruct s, s'; cbn; split; congruence. Qed.

Lemma bit_branch z j : branch (bit z j).
Proof. exact (bit_range z j). Qed.

(** ** Vectors *)
Lemma vset_ok {A} (l : list A) i a : (i < length l)%nat ->
  exists l', vset l i a = Ok l' /\ length l' = length l /\ nth_error l' i = Some a /\
    forall j, j <> i -> nth_error l' j = nth_error l j.
Proof.
  intros I. unfold vset. rewrite (proj2 (Nat.ltb_lt i (length l)) I). eexists. split; [reflexivity|].
  assert (F : length (firstn i l) = i) by (rewrite firstn_length; lia).
  split; [rewrite app_length; cbn [length]; rewrite F, skipn_length; lia|]. split.
  - rewrite nth_error_app2 by lia. rewrite F, Nat.sub_diag. reflexivity.
  - intros j N. destruct (Nat.lt_ge_cases j i) as [H|H].
    + rewrite nth_error_app1 by lia. rewrite <- (firstn_skipn i l) at 2. rewrite nth_error_app1 by lia. reflexivity.
    + rewrite nth_error_app2 by lia. rewrite F. destruct (j - i)%nat as [|m] eqn:E; [lia|]. cbn [nth_error].
      rewrite <- (firstn_skipn (S i) l) at 2. rewrite nth_error_app2 by (rewrite firstn_length; lia).
      f_equal. rewrite firstn_length. lia.
Qed.

Lemma vat_nth {A} (l : list A) (j : nat) a : nth_error l j = Some a -> vat l (Z.of_nat j) = Ok a.
Proof. intros H. unfold vat. rewrite (proj2 (Z.ltb_ge _ _)) by lia. rewrite Nat2Z.id, H. reflexivity. Qed.

Lemma vat_map (f : nat -> Z) j : (j < 16)%nat -> vat (map f (seq 0 MSG_BITS)) (Z.of_nat j) = Ok (f j).
Proof.
  intros H. apply vat_nth. rewrite nth_error_map. change j with (0 + j)%nat at 2.
  rewrite (nth_error_nth' _ 0%nat) by (rewrite seq_length; exact H). rewrite seq_nth by exact H. reflexivity.
Qed.

(** ** The shuffle *)
Lemma perms3 {A} (a b c : A) :
  Permutation [a; b; c] [a; b; c] /\ Permutation [a; b; c] [b; a; c] /\ Permutation [a; b; c] [a; c; b] /\
  Permutation [a; b; c] [c; b; a] /\ Permutation [a; b; c] [b; c; a] /\ Permutation [a; b; c] [c; a; b].
Proof.
  assert (P1 : forall x y z : A, Permutation [x; y; z] [y; x; z]) by (intros; apply perm_swap).
  assert (P2 : forall x y z : A, Permutation [x; y; z] [x; z; y]) by (intros; apply perm_skip, perm_swap).
  split; [reflexivity|]. split; [apply P1|]. split; [apply P2|].
  split; [rewrite P1, P2, P1; reflexivity|]. split; [rewrite P1, P2; reflexivity|]. rewrite P2, P1; reflexivity.
Qed.

Lemma shuffle3_cases {A} (a b c : A) u v : let l := shuffle3 [a; b; c] u v in
  l = [a; b; c] \/ l = [b; a; c] \/ l = [a; c; b] \/ l = [c; b; a] \/ l = [b; c; a] \/ l = [c; a; b].
Proof.
  cbv zeta. unfold shuffle3.
  assert (U : Z.to_nat (u mod 2) = 0%nat \/ Z.to_nat (u mod 2) = 1%nat) by (pose proof (Z.mod_pos_bound u 2); lia).
  assert (V : Z.to_nat (v mod 3) = 0%nat \/ Z.to_nat (v mod 3) = 1%nat \/ Z.to_nat (v mod 3) = 2%nat) by (pose proof (Z.mod_pos_bound v 3); lia).
  destruct U as [-> | ->], V as [-> | [-> | ->]]; cbn; tauto.
Qed.

Lemma shuffle3_perm {A} (a b c : A) u v : Permutation [a; b; c] (shuffle3 [a; b; c] u v).
Proof.
  destruct (perms3 a b c) as [P1 [P2 [P3 [P4 [P5 P6]]]]].
  destruct (shuffle3_cases a b c u v) as [-> | [-> | [-> | [-> | [-> | ->]]]]]; assumption.
Qed.

Section Opprf.
  Variables (dbg : bool) (live : Z -> bool) (e : env) (iv : list Z).
  Notation n := (fieldn CV).
  Let Hn : prime n := prime_n CV good_CV.
  Let HF := field_Fp n Hn.
  Add Field OpprfField : HF.
  Notation F := (Fp n).
  Notation rf := (rf live CV).
  Notation em := (em n).
  Notation mk := (mk n).
  Notation multiple := (multiple live).
  Notation encryptCRC := (encryptCRC e iv).
  Notation decryptCRC := (decryptCRC e iv).

  Lemma valid_multiple P : is_valid live P -> exists k, multiple P k.
  Proof.
    intros V. destruct (val_rf live P V) as [z K]. exists (val n z). apply (multiple_rf live). rewrite mk_val. exact K.
  Qed.
  Lemma multiple_valid P k : multiple P k -> is_valid live P.
  Proof. intros [V _]. exact V. Qed.
  Lemma crs_g_valid b k : crs_valid live k -> is_valid live (crs_g b k) /\ is_valid live (crs_h b k).
  Proof. intros [A [B [A' B']]]. unfold crs_g, crs_h. destruct (b =? 0); split; assumption. Qed.

  (** ** One oblivious transfer *)
  Definition selected (D : dme) (b rk : Z) (R : otrecv) (pk : pkey) : Prop :=
    recv_run dbg live (otrecv_new D, None) [Select b rk] = Ok (R, Some pk).

  Lemma select_ok R0 b rk : dme_ok live (rdme R0) -> branch b ->
    exists R pk, selectMsg dbg live R0 b rk = Ok (R, pk) /\ rdme R = rdme R0 /\ selected (rdme R0) b rk R pk.
  Proof.
    intros OK B. destruct (ok_drf live _ OK) as [c [a0 [a1 [b0 [b1 K]]]]].
    destruct (KeyGen_rf dbg live _ c _ _ _ _ b rk K B) as [kp [E _]].
    exists (mkrecv (rdme R0) (ksk kp) (Some b)), (kpk kp). unfold selected, selectMsg, recv_run. rewrite E. cbn [bind fst snd].
    split; [reflexivity|]. split; [reflexivity|]. unfold selectMsg. cbn [rdme otrecv_new fst]. rewrite E. reflexivity.
  Qed.

  Lemma encMsgs_sdme S pk m0 m1 s0 t0 s1 t1 S' c : encMsgs dbg live S pk m0 m1 s0 t0 s1 t1 = Ok (S', c) -> sdme S' = sdme S.
  Proof.
    unfold encMsgs. intros E. apply bind_Ok in E. destruct E as [c0 [_ E]]. apply bind_Ok in E. destruct E as [c1 [_ E]].
    apply Ok_inj in E. injection E as <- _. reflexivity.
  Qed.

  Lemma ot_ok_fin D b rk q P k us cm : dme_ok live D -> multiple P k -> ot_ok live (dcrs D) b rk q k ->
    (forall a h k, multiple (crs_g b (dcrs D)) a -> multiple (crs_h b (dcrs D)) h -> multiple P k ->
       let w := rk * (q_s b q * a + q_t b q * h) in
       (pinf us = true <-> (order | w)) /\ (pinf cm = true <-> (order | w + k))) ->
    pinf us = false /\ pinf cm = false.
  Proof.
    intros [_ V] M H I. destruct (crs_g_valid b _ V) as [G G']. apply valid_multiple in G, G'. destruct G as [a A], G' as [h A'].
    destruct (H a h A A') as [N1 N2]. destruct (I a h k A A' M) as [I1 I2].
    split; [destruct (pinf us)|destruct (pinf cm)]; try reflexivity; exfalso; [apply N1, I1|apply N2, I2]; reflexivity.
  Qed.

  Lemma encP_ok S pk R D b rk q m0 m1 : dme_ok live D -> selected D b rk R pk -> branch b ->
    dme_ok live (sdme (ots S)) -> same_crs (dcrs (sdme (ots S))) (dcrs D) -> is_valid live m0 -> is_valid live m1 ->
    exists o v, encP dbg live S pk m0 m1 q = Ok (set_ots S o, v) /\ sdme o = sdme (ots S) /\
      forall k, multiple (if b =? 0 then m0 else m1) k -> ot_ok live (dcrs D) b rk q k ->
        exists P, decryptMsg dbg live R v = Ok P /\ multiple P k.
  Proof.
    intros OK SEL B OS SC V0 V1.
    destruct (L_C35 dbg live D [Select b rk] R pk b rk (ots S) m0 m1 (q_s0 q) (q_t0 q) (q_s1 q) (q_t1 q) OK SEL eq_refl B OS SC V0 V1)
      as [o [c0 [c1 [us [E H]]]]].
    exists o, [c0; c1]. unfold encP. rewrite E. cbn [bind fst snd]. split; [reflexivity|].
    split; [apply (encMsgs_sdme _ _ _ _ _ _ _ _ _ _ E)|]. cbv zeta in H. destruct H as [_ [Y I]]. intros k M OT.
    destruct (ot_ok_fin D b rk q _ k us _ OK M OT I) as [I1 I2].
    destruct (Y I1 I2) as [P [EP [VP DP]]]. exists P. split; [exact EP|]. split; [exact VP|]. rewrite DP. apply M.
  Qed.

  Lemma encZ_ok S pk R D b rk q m0 m1 : dme_ok live D -> selected D b rk R pk -> branch b ->
    dme_ok live (sdme (ots S)) -> same_crs (dcrs (sdme (ots S))) (dcrs D) ->
    exists o v, encZ dbg live S pk m0 m1 q = Ok (set_ots S o, v) /\ sdme o = sdme (ots S) /\
      let m := if b =? 0 then m0 else m1 in
      (encodable m -> ot_ok_int dbg live (dcrs D) (sdme (ots S)) b rk q m -> decryptMsgDecode dbg live R v = Ok m).
  Proof.
    intros OK SEL B OS SC. pose proof OS as [[c [Ec L]] _].
    destruct (L_C32_encode dbg live c _ m0 Ec L) as [i0 [P0 [_ [EP0 [F0 _]]]]].
    destruct (L_C32_encode dbg live c _ m1 Ec L) as [i1 [P1 [_ [EP1 [F1 _]]]]].
    destruct (encP_ok S pk R D b rk q P0 P1 OK SEL B OS SC (or_intror F0) (or_intror F1)) as [o [v [E [SD H]]]].
    exists o, v. split.
    { revert E. unfold encZ, encP, encMsgsZ, encMsgs, EncZ. rewrite EP0, EP1. cbn [bind]. intros E; exact E. }
    split; [exact SD|]. cbv zeta. intros EN OT.
    set (m := if b =? 0 then m0 else m1) in *. set (P := if b =? 0 then P0 else P1) in *.
    assert (EP : encode dbg live (sdme (ots S)) m = Ok P) by (subst m P; destruct (b =? 0); assumption).
    assert (V : is_valid live P) by (subst P; destruct (b =? 0); right; assumption).
    assert (FP : finite live P) by (subst P; destruct (b =? 0); assumption).
    destruct (valid_multiple P V) as [k M]. destruct (H k M (OT P k EP M)) as [Q [EQ MQ]].
    unfold decryptMsg, decryptMsgDecode in *. destruct (chosen R v) as [ct|f]; [|discriminate EQ]. cbn [bind] in *.
    unfold DecDecode. rewrite EQ. cbn [bind]. f_equal.
    transitivity (decode P).
    - apply (decode_den live); [exact FP|apply MQ|]. destruct MQ as [_ ->]. symmetry. apply M.
    - apply (proj2 (L_C32_roundtrip dbg live c _ m P Ec L EP)). exact EN.
  Qed.

  (** ** Arithmetic on multiples of the generator *)
  Lemma mult_cong P i j : multiple P i -> i = j -> multiple P j.
  Proof. intros H <-. exact H. Qed.
  Lemma padd_m P Q i j : multiple P i -> multiple Q j -> exists R, padd dbg live CV P Q = Ok R /\ multiple R (i + j).
  Proof.
    intros A B. apply (multiple_rf live) in A, B. destruct (padd_rf dbg live CV good_CV _ _ _ _ A B) as [R [E K]].
    exists R. split; [exact E|]. apply (multiple_rf live). rewrite <- mk_add. exact K.
  Qed.
  Lemma pmul_m P i d : multiple P i -> exists R, pmul dbg live CV P (em (mk d)) = Ok R /\ multiple R (d * i).
  Proof.
    intros A. apply (multiple_rf live) in A. destruct (pmul_rf dbg live CV good_CV _ _ (mk d) A) as [R [E K]].
    exists R. split; [exact E|]. apply (multiple_rf live). rewrite <- mk_mul. exact K.
  Qed.
  Lemma pmulz_m P i d : multiple P i -> exists R, pmulz dbg live CV P d = Ok R /\ multiple R (d * i).
  Proof. intros A. unfold pmulz. rewrite em_new. apply pmul_m. exact A. Qed.
  Lemma randP_m c d : live c = true -> exists R, getRandomPoint dbg live CV (Some c) d = Ok R /\ multiple R d.
  Proof.
    intros L. destruct (getRandomPoint_rf dbg live CV good_CV c d L) as [R [E K]]. exists R. split; [exact E|].
    apply (multiple_rf live). exact K.
  Qed.
  Lemma randS_m c d : live c = true -> getRandomScalar live CV (Some c) d = Ok (em (mk d)).
  Proof. intros L. apply (getRandomScalar_em live CV c d L). Qed.

  (** ** Encrypting sixteen-byte numbers *)
  Lemma nbytes_16 k : 2 ^ 120 <= k < 2 ^ 128 -> nbytes k = 16.
  Proof.
    intros H. unfold nbytes. rewrite (proj2 (Z.eqb_neq k 0)), Z.abs_eq by lia.
    assert (120 <= Z.log2 k) by (apply Z.log2_le_pow2; lia). assert (Z.log2 k < 128) by (apply Z.log2_lt_pow2; lia).
    assert (Z.log2 k / 8 = 15) by (symmetry; apply (Z.div_unique _ 8 15 (Z.log2 k - 120)); lia). lia.
  Qed.

  Lemma enc_ok k m : aes_ready e iv -> 2 ^ 120 <= k -> 0 < m -> nbytes m <= 124 -> nbytes m + 4 <= room e (nbytes m) ->
    exists c, encryptCRC k m = Ok c.
  Proof.
    intros [B H [v V] R] K M N RM. unfold AesModel.encryptCRC. rewrite append_eq by lia.
    rewrite (proj2 (Z.ltb_ge _ _)) by lia. cbn [bind].
    pose proof (nbytes_append (big_endian_host e) m M) as NA.
    eexists. apply (crypt_ok e iv v _ k V); [|lia]. pose proof (nbytes_120 k). lia.
  Qed.

  Lemma enc_key k m : aes_ready e iv -> 2 ^ 120 <= k < 2 ^ 128 -> 2 ^ 120 <= m < 2 ^ 128 -> exists c, encryptCRC k m = Ok c.
  Proof.
    intros A K M. pose proof (nbytes_16 m M) as N. apply (enc_ok k m A); rewrite ?N; try lia. apply A.
  Qed.

  (** ** Preparation *)
  Definition letter_ct (s : comparison) (r : inputi) : Z := match s with Lt => ilt r | Eq => ieq r | Gt => igt r end.
  Definition row_ok (d : prep_draws) (th a : Z) (j : nat) (b : Z) (r : inputi) : Prop :=
    (forall s, encryptCRC (level_key d s (S j)) (level_key d (refine s b (bit th j)) j) = Ok (letter_ct s r)) /\
    multiple (iprf r) (b * 2 ^ Z.of_nat j * a + d_ok d j * d_r d).
  Definition top_ok (d : prep_draws) (th a : Z) (b : Z) (r : inputl) : Prop :=
    lk r = level_key d (b ?= bit th 15) 15 /\ multiple (lprf r) (b * 2 ^ 15 * a + d_ok d 15 * d_r d).

  (** the members the rounds read *)
  Record based (S0 S : server) (d : prep_draws) : Prop := {
    ba_ots : sdme (ots S) = sdme (ots S0);
    ba_cur : scur S = scur S0;
    ba_theta : theta S = theta S0;
    ba_ga : ga S = ga S0;
    ba_kopprf : multiple (kopprf S) (d_kopprf d);
    ba_r : multiple (sr S) (d_r d);
    ba_lt : k_lt S = map (d_lt d) (seq 0 MSG_BITS);
    ba_eq : k_eq S = map (d_eq d) (seq 0 MSG_BITS);
    ba_gt : k_gt S = map (d_gt d) (seq 0 MSG_BITS);
    ba_ok : ok S = map (fun j => em (mk (d_ok d j))) (seq 0 MSG_BITS) }.
  Definition rows_at (S : server) (d : prep_draws) (a : Z) (j : nat) : Prop :=
    exists r0 r1, nth_error (Si0 S) (Datatypes.S j) = Some r0 /\ nth_error (Si1 S) (Datatypes.S j) = Some r1 /\
      row_ok d (theta S) a j 0 r0 /\ row_ok d (theta S) a j 1 r1.

  Lemma tbit_bit S j : tbit S j = (bit (theta S) j =? 1).
  Proof.
    unfold tbit. rewrite land_pow2 by lia. rewrite bit_testbit. destruct (Z.testbit _ _); reflexivity.
  Qed.

  Lemma vat_map' {A} (f : nat -> A) j : (j < 16)%nat -> vat (map f (seq 0 MSG_BITS)) (Z.of_nat j) = Ok (f j).
  Proof.
    intros H. apply vat_nth. rewrite nth_error_map. rewrite (nth_error_nth' _ 0%nat) by (rewrite seq_length; exact H).
    rewrite seq_nth by exact H. reflexivity.
  Qed.

  Lemma prep_row_ok S0 S d a j : aes_ready e iv -> based S0 S d -> multiple (ga S0) a ->
    (forall s j, (j < 16)%nat -> 2 ^ 120 <= level_key d s j < 2 ^ 128) -> (j < 15)%nat ->
    exists r0 r1, prep_row dbg live e iv S j = Ok (r0, r1) /\ row_ok d (theta S) a j 0 r0 /\ row_ok d (theta S) a j 1 r1.
  Proof.
    intros A B G K J. unfold prep_row. replace (Z.of_nat (Datatypes.S j) - 1) with (Z.of_nat j) by lia.
    rewrite (ba_lt _ _ _ B), (ba_eq _ _ _ B), (ba_gt _ _ _ B), (ba_ok _ _ _ B).
    rewrite !vat_map' by lia. cbn [bind].
    assert (E : forall s s', exists c, encryptCRC (level_key d s (Datatypes.S j)) (level_key d s' j) = Ok c).
    { intros s s'. apply enc_key; [exact A|apply K; lia|apply K; lia]. }
    destruct (E Lt Lt) as [c1 E1], (E Eq Lt) as [c2 E2], (E Eq Eq) as [c3 E3], (E Eq Gt) as [c4 E4], (E Gt Gt) as [c5 E5].
    cbn [level_key] in *.
    destruct (pmul_m (sr S) _ (d_ok d j) (ba_r _ _ _ B)) as [q [Eq0 Mq]].
    rewrite <- (ba_ga _ _ _ B) in G.
    destruct (pmulz_m (ga S) a (2 ^ Z.of_nat j) G) as [g [Eg Mg]].
    destruct (padd_m g q _ _ Mg Mq) as [p1 [Ep Mp]].
    rewrite tbit_bit. destruct (bit_range (theta S) j) as [T|T]; rewrite T; cbn [Z.eqb Pos.eqb negb];
      repeat (first [rewrite E1 | rewrite E2 | rewrite E3 | rewrite E4 | rewrite E5 | rewrite Eq0 | rewrite Eg | rewrite Ep]; cbn [bind]);
      do 2 eexists; (split; [reflexivity|]); split; split; rewrite ?T.
    all: try (intros [| |]; cbn [level_key refine letter_ct ilt ieq igt Z.compare Pos.compare Pos.compare_cont]; assumption).
    all: cbn [iprf]; (apply (mult_cong _ _ _ Mq); ring) || (apply (mult_cong _ _ _ Mp); ring).
  Qed.

  Lemma prep_rows_ok S0 d a l : aes_ready e iv -> multiple (ga S0) a ->
    (forall s j, (j < 16)%nat -> 2 ^ 120 <= level_key d s j < 2 ^ 128) -> Forall (fun j => (j < 15)%nat) l ->
    forall S, based S0 S d -> length (Si0 S) = 16%nat -> length (Si1 S) = 16%nat ->
    exists r0 r1, foldM (prep_step dbg live e iv) l S = Ok (set_rows S r0 r1) /\
      length r0 = 16%nat /\ length r1 = 16%nat /\
      forall j, (j < 15)%nat -> (In j l \/ rows_at S d a j) -> rows_at (set_rows S r0 r1) d a j.
  Proof.
    intros A G K F. induction F as [|j l J F IH]; intros S B L0 L1.
    - exists (Si0 S), (Si1 S). destruct S; cbn. split; [reflexivity|]. split; [exact L0|]. split; [exact L1|].
      intros j J [[]|H]. exact H.
    - cbn [foldM]. unfold prep_step at 1. destruct (prep_row_ok S0 S d a j A B G K J) as [r0 [r1 [E [O0 O1]]]]. rewrite E. cbn [bind fst snd].
      destruct (vset_ok (Si0 S) (Datatypes.S j) r0) as [s0 [E0 [M0 [N0 P0]]]]; [lia|].
      destruct (vset_ok (Si1 S) (Datatypes.S j) r1) as [s1 [E1 [M1 [N1 P1]]]]; [lia|].
      rewrite E0; cbn [bind]; rewrite E1; cbn [bind].
      destruct (IH (set_rows S s0 s1)) as [t0 [t1 [ET [LT0 [LT1 H]]]]].
      { destruct B. constructor; assumption. } { cbn; lia. } { cbn; lia. }
      exists t0, t1. rewrite ET. split; [reflexivity|]. split; [exact LT0|]. split; [exact LT1|].
      intros j' J' Q.
      assert (R : In j' l \/ rows_at (set_rows S s0 s1) d a j').
      { destruct (Nat.eq_dec j' j) as [->|N].
        - right. exists r0, r1. cbn [set_rows Si0 Si1 theta]. split; [exact N0|]. split; [exact N1|]. split; assumption.
        - destruct Q as [[->|Q]|[x0 [x1 [Q0 [Q1 [Q2 Q3]]]]]]; [congruence|left; exact Q|right].
          exists x0, x1. cbn [set_rows Si0 Si1 theta]. rewrite P0, P1 by congruence. split; [exact Q0|]. split; [exact Q1|]. split; assumption. }
      exact (H j' J' R).
  Qed.

  Lemma mapM_map {A B} (f : A -> res B) (g : A -> B) l : (forall a, f a = Ok (g a)) -> mapM f l = Ok (map g l).
  Proof. intros H. induction l as [|x l IH]; [reflexivity|]. cbn. rewrite H, IH. reflexivity. Qed.

  Lemma prepare_ok S0 d a : aes_ready e iv -> server_ready live S0 a ->
    (forall s j, (j < 16)%nat -> 2 ^ 120 <= level_key d s j < 2 ^ 128) ->
    exists S, prepareKeysAndInputs dbg live e iv S0 d = Ok S /\ based S0 S d /\
      top_ok d (theta S0) a 0 (Sl0 S) /\ top_ok d (theta S0) a 1 (Sl1 S) /\
      (length (Si0 S) = 16%nat /\ length (Si1 S) = 16%nat) /\
      (forall j, (j < 15)%nat -> rows_at S d a j).
  Proof.
    intros A R K. destruct R as [O CU TH G [K1 [K2 [K3 K4]]] [L0 L1]]. pose proof O as [[c [Ec L]] _]. rewrite Ec in CU.
    unfold prepareKeysAndInputs. rewrite CU.
    destruct (randP_m c (d_kopprf d) L) as [kp [Ek Mk]]. destruct (randP_m c (d_r d) L) as [r [Er Mr]].
    rewrite Ek; cbn [bind]; rewrite Er; cbn [bind].
    rewrite (mapM_map _ (fun j => em (mk (d_ok d j)))) by (intros; apply randS_m, L). cbn [bind].
    rewrite K1, K2, K3, K4. cbn [app].
    unfold prep_top. cbn [ok sr ga k_lt k_eq k_gt ots scur theta kopprf gk Sl0 Sl1 Si0 Si1].
    change (BITS - 1) with (Z.of_nat 15). rewrite vat_map' by lia. cbn [bind].
    destruct (pmul_m r _ (d_ok d 15%nat) Mr) as [p0 [E0 M0]]. rewrite E0; cbn [bind].
    change (MSG_BITS - 1)%nat with 15%nat. change (2 ^ Z.of_nat 15) with (2 ^ 15).
    destruct (pmulz_m (ga S0) a (2 ^ 15) G) as [g [Eg Mg]]. rewrite Eg; cbn [bind].
    destruct (padd_m g p0 _ _ Mg M0) as [p1 [E1 M1]]. rewrite E1; cbn [bind].
    rewrite tbit_bit. cbn [theta].
    set (k0 := level_key d (0 ?= bit (theta S0) 15) 15). set (k1 := level_key d (1 ?= bit (theta S0) 15) 15).
    assert (EK0 : vat (if bit (theta S0) 15 =? 1 then map (d_lt d) (seq 0 MSG_BITS) else map (d_eq d) (seq 0 MSG_BITS)) (Z.of_nat 15) = Ok k0).
    { subst k0. destruct (bit_range (theta S0) 15) as [-> | ->]; cbn [Z.eqb Pos.eqb]; rewrite vat_map' by lia; reflexivity. }
    assert (EK1 : vat (if bit (theta S0) 15 =? 1 then map (d_eq d) (seq 0 MSG_BITS) else map (d_gt d) (seq 0 MSG_BITS)) (Z.of_nat 15) = Ok k1).
    { subst k1. destruct (bit_range (theta S0) 15) as [-> | ->]; cbn [Z.eqb Pos.eqb]; rewrite vat_map' by lia; reflexivity. }
    rewrite EK0; cbn [bind]; rewrite EK1; cbn [bind].
    match goal with |- exists S, foldM _ _ ?X = Ok S /\ _ => set (S1 := X) end.
    assert (B1 : based S0 S1 d) by (constructor; cbn; try reflexivity; try (symmetry; exact CU); assumption).
    destruct (prep_rows_ok S0 d a (rev (seq 0 15)) A G K) with (S := S1) as [r0 [r1 [EF [LR0 [LR1 H]]]]]; try assumption.
    { apply Forall_forall. intros j I. apply in_rev in I. apply in_seq in I. lia. }
    exists (set_rows S1 r0 r1). split; [exact EF|]. split; [destruct B1; constructor; assumption|].
    split; [split; [reflexivity|apply (mult_cong p0 _ _ M0); ring]|].
    split; [split; [reflexivity|apply (mult_cong p1 _ _ M1); ring]|].
    split; [split; assumption|]. intros j J. apply (H j J). left. apply -> in_rev. apply in_seq. lia.
  Qed.

  (** ** Rounds *)
  Lemma shl1_small j : (j < 16)%nat -> shl1 (Z.of_nat (S j) - 1) = Ok (2 ^ Z.of_nat j).
  Proof.
    intros J. unfold shl1. replace (Z.of_nat (S j) - 1) with (Z.of_nat j) by lia.
    rewrite (proj2 (Z.ltb_ge (Z.of_nat j) 0)), (proj2 (Z.ltb_ge 31 _)), (proj2 (Z.eqb_neq _ 31)) by lia. reflexivity.
  Qed.

  Lemma start_ok C x j rk : dme_ok live (rdme (otr C)) -> cx C = Some x -> (j < 16)%nat ->
    exists R pk, runOTRound_start dbg live C (Z.of_nat (S j)) rk = Ok (mkcli R (ccur C) (cx C) (result C) (key C), pk) /\
      rdme R = rdme (otr C) /\ selected (rdme (otr C)) (bit x j) rk R pk.
  Proof.
    intros O X J.
    destruct (select_ok (otr C) (bit x j) rk O (bit_branch x j)) as [R [pk [E [D SEL]]]]. exists R, pk.
    unfold runOTRound_start. rewrite X, shl1_small by exact J. cbn [bind]. cbv zeta. rewrite land_pow2 by lia.
    assert (B : bit x j = if Z.testbit x (Z.of_nat j) then 1 else 0) by (rewrite bit_testbit; destruct (Z.testbit _ _); reflexivity).
    rewrite B in E. destruct (Z.testbit x (Z.of_nat j)); rewrite E; cbn [bind fst snd];
      (split; [reflexivity|]; split; assumption).
  Qed.

  Definition opens (R : otrecv) (k : Z) (v : list ctxt) (t' : Z) : Prop :=
    exists t, decryptMsgDecode dbg live R v = Ok t /\ decryptCRC k t = Ok t'.

  Lemma open_key_spec R k K l : K <> 0 -> (forall v, In v l -> opens R k v 0 \/ opens R k v K) -> (exists v, In v l /\ opens R k v K) ->
    open_key dbg live e iv R k l = Ok (Some K).
  Proof.
    intros N. induction l as [|v l IH]; intros A [w [I O]]; [destruct I|]. cbn [open_key].
    destruct (A v (or_introl eq_refl)) as [[t [E1 E2]]|[t [E1 E2]]]; rewrite E1; cbn [bind]; rewrite E2; cbn [bind].
    - rewrite Z.eqb_refl. apply IH; [intros u U; apply A; right; exact U|]. exists w. split; [|exact O].
      destruct I as [->|I]; [|exact I]. exfalso. destruct O as [t' [F1 F2]]. rewrite E1 in F1. apply Ok_inj in F1. subst t'.
      rewrite E2 in F2. apply Ok_inj in F2. congruence.
    - rewrite (proj2 (Z.eqb_neq _ _) N). reflexivity.
  Qed.

  Definition prepared (S0 S : server) (d : prep_draws) (a : Z) : Prop :=
    based S0 S d /\ top_ok d (theta S0) a 0 (Sl0 S) /\ top_ok d (theta S0) a 1 (Sl1 S) /\ (forall j, (j < 15)%nat -> rows_at S d a j).

  Lemma based_ots S0 S d o : based S0 S d -> sdme o = sdme (ots S) -> based S0 (set_ots S o) d.
  Proof. intros B E. destruct B. constructor; cbn [set_ots ots scur theta ga kopprf sr k_lt k_eq k_gt ok]; try assumption. congruence. Qed.
  Lemma prepared_ots S0 S d a o : prepared S0 S d a -> sdme o = sdme (ots S) -> prepared S0 (set_ots S o) d a.
  Proof. intros [B [T0 [T1 R]]] E. split; [apply based_ots; assumption|]. split; [exact T0|]. split; [exact T1|exact R]. Qed.

  (** the state between two rounds, [j] bits still to come *)
  Record at_level (C0 : client) (d : session_draws) (th a x z : Z) (j : nat) (C : client) : Prop := {
    al_dme : rdme (otr C) = rdme (otr C0);
    al_cur : ccur C = ccur C0;
    al_x : cx C = Some x;
    al_key : key C = level_key (sd_prep d) (prefix_cmp x th j) j;
    al_res : multiple (result C) (z + 2 ^ Z.of_nat j * (x / 2 ^ Z.of_nat j) * a +
               (sum_to (d_ok (sd_prep d)) 16 - sum_to (d_ok (sd_prep d)) j) * d_r (sd_prep d)) }.

  Lemma level_step x j : 2 ^ Z.of_nat j * (x / 2 ^ Z.of_nat j) = 2 ^ Z.of_nat (S j) * (x / 2 ^ Z.of_nat (S j)) + bit x j * 2 ^ Z.of_nat j.
  Proof. rewrite (prefix_div x j). rewrite Nat2Z.inj_succ at 2. rewrite Z.pow_succ_r by lia. ring. Qed.

  Lemma if_eqb0 {A} (b : Z) (u v : A) : branch b -> (if b =? 0 then u else v) = match b with Z0 => u | _ => v end.
  Proof. intros [-> | ->]; reflexivity. Qed.

  Lemma round_ok S0 C0 S C d a x z j : server_ready live S0 a -> client_ready live C0 x ->
    same_crs (dcrs (sdme (ots S0))) (dcrs (rdme (otr C0))) ->
    good_draws dbg live e iv (dcrs (rdme (otr C0))) (sdme (ots S0)) (theta S0) a x d ->
    prepared S0 S (sd_prep d) a -> (j < 15)%nat -> at_level C0 d (theta S0) a x z (Datatypes.S j) C ->
    exists S' C', one_round dbg live e iv (S, C) (Z.of_nat (Datatypes.S j), sd_round d (Z.of_nat (Datatypes.S j))) = Ok (S', C') /\
      prepared S0 S' (sd_prep d) a /\ at_level C0 d (theta S0) a x z j C'.
  Proof.
    intros SR CR SC GD P J AL. set (r := sd_round d (Z.of_nat (Datatypes.S j))) in *. set (D := rdme (otr C0)) in *.
    pose proof (sr_ots _ _ _ SR) as OS. pose proof (cr_otr _ _ _ CR) as OC. fold D in OC.
    assert (OC' : dme_ok live (rdme (otr C))) by (rewrite (al_dme _ _ _ _ _ _ _ _ AL); exact OC).
    unfold one_round. cbn [fst snd].
    destruct (start_ok C x j (rd_key r) OC' (al_x _ _ _ _ _ _ _ _ AL) ltac:(lia)) as [R [pk [E1 [ER SEL]]]].
    rewrite E1. cbn [bind fst snd]. rewrite (al_dme _ _ _ _ _ _ _ _ AL) in SEL, ER. fold D in SEL, ER.
    set (b := bit x j) in *. pose proof (bit_branch x j) as Hb. fold b in Hb.
    (* the server's side *)
    unfold runOTRound. rewrite (proj2 (Z.eqb_neq (Z.of_nat (Datatypes.S j)) BITS)) by (unfold BITS; cbn; lia).
    destruct P as [BA [T0 [T1 RW]]]. destruct (RW j J) as [r0 [r1 [N0 [N1 [Q0 Q1]]]]].
    rewrite (vat_nth _ _ _ N0), (vat_nth _ _ _ N1). cbn [bind].
    set (row := if b =? 0 then r0 else r1).
    assert (Q : row_ok (sd_prep d) (theta S0) a j b row).
    { rewrite (ba_theta _ _ _ BA) in Q0, Q1. unfold row. destruct Hb as [-> | ->]; assumption. }
    assert (OTS : forall S', based S0 S' (sd_prep d) -> dme_ok live (sdme (ots S')) /\ same_crs (dcrs (sdme (ots S'))) (dcrs D)).
    { intros S' B'. rewrite (ba_ots _ _ _ B'). split; assumption. }
    destruct (OTS S BA) as [O1 C1].
    destruct (encZ_ok S pk R D b (rd_key r) (rd_a r) (ilt r0) (ilt r1) OC SEL Hb O1 C1) as [o1 [v1 [EZ1 [D1 H1]]]].
    rewrite EZ1. cbn [bind fst snd]. pose proof (based_ots _ _ _ _ BA D1) as BA1. destruct (OTS _ BA1) as [O2 C2].
    destruct (encZ_ok (set_ots S o1) pk R D b (rd_key r) (rd_b r) (ieq r0) (ieq r1) OC SEL Hb O2 C2) as [o2 [v2 [EZ2 [D2 H2]]]].
    rewrite EZ2. cbn [bind fst snd]. pose proof (based_ots _ _ _ _ BA1 D2) as BA2. destruct (OTS _ BA2) as [O3 C3].
    destruct (encZ_ok (set_ots (set_ots S o1) o2) pk R D b (rd_key r) (rd_c r) (igt r0) (igt r1) OC SEL Hb O3 C3) as [o3 [v3 [EZ3 [D3 H3]]]].
    rewrite EZ3. cbn [bind fst snd]. pose proof (based_ots _ _ _ _ BA2 D3) as BA3. destruct (OTS _ BA3) as [O4 C4].
    destruct (encP_ok (set_ots (set_ots (set_ots S o1) o2) o3) pk R D b (rd_key r) (rd_p r) (iprf r0) (iprf r1) OC SEL Hb O4 C4
                (multiple_valid _ _ (proj2 Q0)) (multiple_valid _ _ (proj2 Q1))) as [o4 [v4 [EP [D4 H4]]]].
    rewrite EP. cbn [bind fst snd]. pose proof (based_ots _ _ _ _ BA3 D4) as BA4.
    (* the client's side *)
    unfold runOTRound_end. rewrite (proj2 (Z.eqb_neq (Z.of_nat (Datatypes.S j)) BITS)) by (unfold BITS; cbn; lia).
    cbn [otr key oc ocprf result ccur cx].
    rewrite (ba_ots _ _ _ BA) in H1. rewrite (ba_ots _ _ _ BA1) in H2. rewrite (ba_ots _ _ _ BA2) in H3.
    assert (OPN : forall s, opens R (key C) (match s with Lt => v1 | Eq => v2 | Gt => v3 end)
        (if same_letter s (prefix_cmp x (theta S0) (Datatypes.S j)) then level_key (sd_prep d) (prefix_cmp x (theta S0) j) j else 0)).
    { intros s. pose proof (proj1 Q s) as ES. rewrite (al_key _ _ _ _ _ _ _ _ AL).
      destruct (gd_link _ _ _ _ _ _ _ _ _ _ GD j J s _ ES) as [EN DE].
      pose proof (gd_ot_link _ _ _ _ _ _ _ _ _ _ GD j J s _ ES) as OT. cbv zeta in OT. fold r b in OT.
      exists (letter_ct s row). split; [|exact DE].
      assert (W : forall (u v : Z), (if b =? 0 then u else v) = (if b =? 0 then u else v)) by reflexivity.
      destruct s; cbv zeta in H1, H2, H3; cbn [letter_quad] in OT.
      - replace (letter_ct Eq row) with (if b =? 0 then ieq r0 else ieq r1) in * by (unfold row; destruct (b =? 0); reflexivity). apply H2; assumption.
      - replace (letter_ct Lt row) with (if b =? 0 then ilt r0 else ilt r1) in * by (unfold row; destruct (b =? 0); reflexivity). apply H1; assumption.
      - replace (letter_ct Gt row) with (if b =? 0 then igt r0 else igt r1) in * by (unfold row; destruct (b =? 0); reflexivity). apply H3; assumption. }
    assert (KN : level_key (sd_prep d) (prefix_cmp x (theta S0) j) j <> 0).
    { pose proof (gd_keys _ _ _ _ _ _ _ _ _ _ GD (prefix_cmp x (theta S0) j) j ltac:(lia)). lia. }
    assert (INV : forall v, In v (shuffle3 [v1; v2; v3] (rd_u r) (rd_v r)) <-> In v [v1; v2; v3]).
    { intros v. split; apply Permutation_in; [symmetry|]; apply shuffle3_perm. }
    rewrite (open_key_spec R (key C) (level_key (sd_prep d) (prefix_cmp x (theta S0) j) j)).
    2: exact KN.
    2: { intros v I. apply INV in I.
         assert (exists s, v = match s with Lt => v1 | Eq => v2 | Gt => v3 end) as [s ->].
         { destruct I as [<-|[<-|[<-|[]]]]; [exists Lt|exists Eq|exists Gt]; reflexivity. }
         pose proof (OPN s) as O. destruct (same_letter s _); [right|left]; exact O. }
    2: { exists (match prefix_cmp x (theta S0) (Datatypes.S j) with Lt => v1 | Eq => v2 | Gt => v3 end).
         split; [apply INV; destruct (prefix_cmp _ _ _); cbn; tauto|].
         pose proof (OPN (prefix_cmp x (theta S0) (Datatypes.S j))) as O.
         rewrite (proj2 (same_letter_spec _ _) eq_refl) in O. exact O. }
    cbn [bind].
    destruct (H4 (b * 2 ^ Z.of_nat j * a + d_ok (sd_prep d) j * d_r (sd_prep d))) as [PP [EPP MP]].
    { pose proof (proj2 Q) as M. unfold row in M. destruct Hb as [Eb|Eb]; rewrite Eb in *; exact M. }
    { apply (gd_ot_prf _ _ _ _ _ _ _ _ _ _ GD j ltac:(lia)). }
    rewrite EPP. cbn [bind].
    destruct (padd_m _ _ _ _ (al_res _ _ _ _ _ _ _ _ AL) MP) as [RR [ERR MR]]. rewrite ERR. cbn [bind].
    do 2 eexists. split; [reflexivity|]. split.
    - repeat (apply prepared_ots; [|assumption]). split; [exact BA|]. split; [exact T0|]. split; [exact T1|exact RW].
    - constructor; cbn [otr ccur cx key result]; [exact ER|exact (al_cur _ _ _ _ _ _ _ _ AL)|exact (al_x _ _ _ _ _ _ _ _ AL)|reflexivity|].
      apply (mult_cong _ _ _ MR). rewrite (level_step x j). fold b. cbn [sum_to]. ring.
  Qed.

  Lemma top_round_ok S0 C0 S d a x z : server_ready live S0 a -> client_ready live C0 x ->
    same_crs (dcrs (sdme (ots S0))) (dcrs (rdme (otr C0))) ->
    good_draws dbg live e iv (dcrs (rdme (otr C0))) (sdme (ots S0)) (theta S0) a x d ->
    prepared S0 S (sd_prep d) a -> multiple (result C0) z ->
    exists S' C', one_round dbg live e iv (S, C0) (16, sd_round d 16) = Ok (S', C') /\
      prepared S0 S' (sd_prep d) a /\ at_level C0 d (theta S0) a x z 15 C'.
  Proof.
    intros SR CR SC GD P MZ. set (r := sd_round d 16) in *. set (D := rdme (otr C0)) in *.
    pose proof (sr_ots _ _ _ SR) as OS. pose proof (cr_otr _ _ _ CR) as OC. destruct (cr_x _ _ _ CR) as [CX XR].
    pose proof (sr_theta _ _ _ SR) as TR.
    unfold one_round. cbn [fst snd].
    destruct (start_ok C0 x 15 (rd_key r) OC CX ltac:(lia)) as [R [pk [E1 [ER SEL]]]].
    change (Z.of_nat 16) with 16 in E1. rewrite E1. cbn [bind fst snd]. fold D in SEL, ER, OC.
    set (b := bit x 15) in *. pose proof (bit_branch x 15) as Hb. fold b in Hb.
    unfold runOTRound. change (16 =? BITS) with true. cbv iota.
    destruct P as [BA [T0 [T1 RW]]].
    set (row := if b =? 0 then Sl0 S else Sl1 S).
    assert (Q : top_ok (sd_prep d) (theta S0) a b row).
    { unfold row. destruct Hb as [-> | ->]; assumption. }
    assert (OTS : forall S', based S0 S' (sd_prep d) -> dme_ok live (sdme (ots S')) /\ same_crs (dcrs (sdme (ots S'))) (dcrs D)).
    { intros S' B'. rewrite (ba_ots _ _ _ B'). split; assumption. }
    destruct (OTS S BA) as [O1 C1].
    destruct (encZ_ok S pk R D b (rd_key r) (rd_a r) (lk (Sl0 S)) (lk (Sl1 S)) OC SEL Hb O1 C1) as [o1 [v1 [EZ1 [D1 H1]]]].
    rewrite EZ1. cbn [bind fst snd]. pose proof (based_ots _ _ _ _ BA D1) as BA1. destruct (OTS _ BA1) as [O4 C4].
    destruct (encP_ok (set_ots S o1) pk R D b (rd_key r) (rd_p r) (lprf (Sl0 S)) (lprf (Sl1 S)) OC SEL Hb O4 C4
                (multiple_valid _ _ (proj2 T0)) (multiple_valid _ _ (proj2 T1))) as [o4 [v4 [EP [D4 H4]]]].
    rewrite EP. cbn [bind fst snd].
    unfold runOTRound_end. change (16 =? BITS) with true. cbv iota.
    cbn [otr key oc ocprf result ccur cx]. change (vat [v1; []; []] 0) with (Ok v1). cbn [bind].
    rewrite (ba_ots _ _ _ BA) in H1. cbv zeta in H1.
    replace (if b =? 0 then lk (Sl0 S) else lk (Sl1 S)) with (level_key (sd_prep d) (prefix_cmp x (theta S0) 15) 15) in H1.
    2: { rewrite prefix_cmp_15 by assumption. fold b. rewrite <- (proj1 Q). unfold row. destruct (b =? 0); reflexivity. }
    rewrite (H1 (gd_top _ _ _ _ _ _ _ _ _ _ GD) (gd_ot_top _ _ _ _ _ _ _ _ _ _ GD)). cbn [bind].
    destruct (H4 (b * 2 ^ Z.of_nat 15 * a + d_ok (sd_prep d) 15 * d_r (sd_prep d))) as [PP [EPP MP]].
    { pose proof (proj2 Q) as M. unfold row in M. destruct Hb as [Eb|Eb]; rewrite Eb in *; exact M. }
    { apply (gd_ot_prf _ _ _ _ _ _ _ _ _ _ GD 15%nat ltac:(lia)). }
    rewrite EPP. cbn [bind].
    destruct (padd_m _ _ _ _ MZ MP) as [RR [ERR MR]]. rewrite ERR. cbn [bind].
    do 2 eexists. split; [reflexivity|]. split.
    - repeat (apply prepared_ots; [|assumption]). split; [exact BA|]. split; [exact T0|]. split; [exact T1|exact RW].
    - constructor; cbn [otr ccur cx key result]; [exact ER|reflexivity|exact CX|reflexivity|].
      apply (mult_cong _ _ _ MR). rewrite prefix_15 by assumption. fold b. change 16%nat with (Datatypes.S 15). cbn [sum_to]. ring.
  Qed.

  Lemma rounds_ok S0 C0 d a x z : server_ready live S0 a -> client_ready live C0 x ->
    same_crs (dcrs (sdme (ots S0))) (dcrs (rdme (otr C0))) ->
    good_draws dbg live e iv (dcrs (rdme (otr C0))) (sdme (ots S0)) (theta S0) a x d ->
    forall k, (k <= 15)%nat -> forall S C, prepared S0 S (sd_prep d) a -> at_level C0 d (theta S0) a x z k C ->
    exists S' C', foldM (one_round dbg live e iv) (map (fun r => (r, sd_round d r)) (map Z.of_nat (rev (seq 1 k)))) (S, C) = Ok (S', C') /\
      prepared S0 S' (sd_prep d) a /\ at_level C0 d (theta S0) a x z 0 C'.
  Proof.
    intros SR CR SC GD. induction k as [|k IH]; intros K S C P AL.
    - exists S, C. split; [reflexivity|]. split; assumption.
    - destruct (round_ok S0 C0 S C d a x z k SR CR SC GD P ltac:(lia) AL) as [S1 [C1 [E [P1 A1]]]].
      destruct (IH ltac:(lia) S1 C1 P1 A1) as [S2 [C2 [E2 R2]]]. exists S2, C2. split; [|exact R2].
      rewrite seq_S, rev_app_distr. cbn [rev app map foldM]. replace (1 + k)%nat with (Datatypes.S k) by lia.
      rewrite E. cbn [bind]. exact E2.
  Qed.

  (** ** Masks *)
  Lemma finite_m P k : multiple P k -> ~ (order | k) -> finite_valid live CV P.
  Proof.
    intros M N. apply (multiple_rf live) in M. apply (rf_finite live CV good_CV P _ M).
    intros E. apply N, mk_order_0, E.
  Qed.

  Definition lsum (f : nat -> Z) (l : list nat) : Z := fold_right (fun j z => f j + z) 0 l.
  Lemma sum_ok f l : forall z, foldM (fe_add_eq dbg) (map (fun j => em (mk (f j))) l) (em (mk z)) = Ok (em (mk (z + lsum f l))).
  Proof.
    induction l as [|j l IH]; intros z; cbn [map foldM lsum fold_right].
    - rewrite Z.add_0_r. reflexivity.
    - rewrite (em_add_eq dbg n Hn). cbn [bind]. rewrite mk_add. fold (lsum f l). rewrite IH. do 3 f_equal. symmetry. apply Z.add_assoc.
  Qed.
  Lemma mapM_In {A B} (f : A -> res B) (g : A -> B) l : (forall a, In a l -> f a = Ok (g a)) -> mapM f l = Ok (map g l).
  Proof.
    intros H. induction l as [|x l IH]; [reflexivity|]. cbn. rewrite H by (left; reflexivity). cbn [bind].
    rewrite IH by (intros a I; apply H; right; exact I). reflexivity.
  Qed.
  Lemma sum_16 f : f 0%nat + lsum f (seq 1 (MSG_BITS - 1)) = sum_to f 16.
  Proof. change (seq 1 (MSG_BITS - 1)) with (seq 1 15). cbn [seq lsum fold_right sum_to]. ring. Qed.

  (** the mask a letter stands for *)
  Definition mask_of (d : session_draws) (s : comparison) (P : point) (m c : Z) : Prop :=
    multiple P (mask_log d s) /\ finite_valid live CV P /\ getEncodedX dbg live CV P = Ok m /\
    encryptCRC (level_key (sd_prep d) s 0) m = Ok c.

  Lemma enc_nonzero k m c : encryptCRC k m = Ok c -> m <> 0.
  Proof. intros E ->. unfold AesModel.encryptCRC in E. rewrite append_0 in E. discriminate E. Qed.

  Lemma masks_ok S0 S d a x : server_ready live S0 a ->
    (forall s, ~ (order | mask_log d s) /\ forall P m, multiple P (mask_log d s) -> getEncodedX dbg live CV P = Ok m ->
      exists c, encryptCRC (level_key (sd_prep d) s 0) m = Ok c /\
        decryptCRC (level_key (sd_prep d) x 0) c = Ok (if same_letter s x then m else 0)) ->
    based S0 S (sd_prep d) -> forall u v,
    exists f, sendEncryptedMasks dbg live e iv S (sd_random d) u v = Ok (shuffle3 [f Lt; f Eq; f Gt] u v) /\
      forall s, exists P m, mask_of d s P m (f s).
  Proof.
    intros SR GM B u v. pose proof (sr_ots _ _ _ SR) as [[c [Ec L]] _].
    assert (CU : scur S = Some c) by (rewrite (ba_cur _ _ _ B), (sr_cur _ _ _ SR); exact Ec).
    unfold sendEncryptedMasks. rewrite CU, (ba_ok _ _ _ B), (ba_lt _ _ _ B), (ba_eq _ _ _ B), (ba_gt _ _ _ B).
    change 0 with (Z.of_nat 0). rewrite !vat_map' by lia. change (Z.of_nat 0) with 0. cbn [bind].
    rewrite (mapM_In _ (fun j => em (mk (d_ok (sd_prep d) j)))).
    2: { intros j I. apply in_seq in I. apply (vat_map' (fun j => em (mk (d_ok (sd_prep d) j)))). unfold MSG_BITS in I. lia. }
    cbn [bind]. rewrite sum_ok. cbn [bind]. rewrite sum_16. rewrite (em_neg n Hn). cbn [bind]. rewrite mk_opp.
    destruct (pmul_m _ _ (- sum_to (d_ok (sd_prep d)) 16) (ba_r _ _ _ B)) as [T [ET MT]]. rewrite ET. cbn [bind].
    destruct (padd_m _ _ _ _ (ba_kopprf _ _ _ B) MT) as [M [EM MM]]. rewrite EM. cbn [bind].
    assert (ML : multiple M (d_kopprf (sd_prep d) - sum_to (d_ok (sd_prep d)) 16 * d_r (sd_prep d))) by (apply (mult_cong _ _ _ MM); lia).
    clear MM.
    destruct (GM Lt) as [N0 G0]. destruct (GM Eq) as [_ G1]. destruct (GM Gt) as [N2 G2].
    cbn [mask_log] in N0, G0, G1, N2, G2.
    pose proof (finite_m _ _ ML N0) as FM.
    destruct (L_C16_total dbg live CV good_CV M FM) as [m [Em _]]. rewrite Em. cbn [bind].
    destruct (G0 M m ML Em) as [c0 [E0 _]]. destruct (G1 M m ML Em) as [c1 [E1 _]]. cbn [level_key] in E0, E1.
    rewrite E0. cbn [bind]. rewrite E1. cbn [bind].
    destruct (randP_m c (sd_random d) L) as [R [ER MR]]. rewrite ER. cbn [bind].
    pose proof (finite_m _ _ MR N2) as FR.
    destruct (L_C16_total dbg live CV good_CV R FR) as [m2 [Em2 _]]. rewrite Em2. cbn [bind].
    destruct (G2 R m2 MR Em2) as [c2 [E2 _]]. cbn [level_key] in E2. rewrite E2. cbn [bind].
    exists (fun s => match s with Lt => c0 | Eq => c1 | Gt => c2 end). split; [reflexivity|].
    intros s. destruct s; [exists M, m|exists M, m|exists R, m2].
    - split; [exact ML|split; [exact FM|split; [exact Em|exact E1]]].
    - split; [exact ML|split; [exact FM|split; [exact Em|exact E0]]].
    - split; [exact MR|split; [exact FR|split; [exact Em2|exact E2]]].
  Qed.

  Lemma open_mask_spec k K l : K <> 0 -> (forall m, In m l -> decryptCRC k m = Ok 0 \/ decryptCRC k m = Ok K) ->
    (exists m, In m l /\ decryptCRC k m = Ok K) -> open_mask e iv k l = Ok (Some K).
  Proof.
    intros N. induction l as [|v l IH]; intros A [w [I O]]; [destruct I|]. cbn [open_mask].
    destruct (A v (or_introl eq_refl)) as [E|E]; rewrite E; cbn [bind].
    - rewrite Z.eqb_refl. apply IH; [intros u U; apply A; right; exact U|]. exists w. split; [|exact O].
      destruct I as [->|I]; [|exact I]. exfalso. rewrite E in O. apply Ok_inj in O. congruence.
    - rewrite (proj2 (Z.eqb_neq _ _) N). reflexivity.
  Qed.

  Lemma unmask_ok C0 d th a x z C f u v : client_ready live C0 x -> at_level C0 d th a x z 0 C ->
    ~ (order | sd_mask d) ->
    (forall s, ~ (order | mask_log d s) /\ forall P m, multiple P (mask_log d s) -> getEncodedX dbg live CV P = Ok m ->
      exists c, encryptCRC (level_key (sd_prep d) s 0) m = Ok c /\
        decryptCRC (level_key (sd_prep d) (x ?= th) 0) c = Ok (if same_letter s (x ?= th) then m else 0)) ->
    (forall s, exists P m, mask_of d s P m (f s)) ->
    exists C', unmaskResult dbg live e iv C (shuffle3 [f Lt; f Eq; f Gt] u v) (sd_mask d) = Ok C' /\
      otr C' = otr C /\ ccur C' = ccur C /\ cx C' = cx C /\
      key C' = level_key (sd_prep d) (x ?= th) 0 /\ multiple (result C') (z + outcome_log d th a x).
  Proof.
    intros CR AL ND GM MO. pose proof (cr_otr _ _ _ CR) as [[c [Ec L]] _].
    assert (CU : ccur C = Some c) by (rewrite (al_cur _ _ _ _ _ _ _ _ AL), (cr_cur _ _ _ CR); exact Ec).
    assert (PC : prefix_cmp x th 0 = (x ?= th)) by apply prefix_cmp_0.
    pose proof (al_key _ _ _ _ _ _ _ _ AL) as KE. rewrite PC in KE.
    assert (DE : forall s P m, mask_of d s P m (f s) -> decryptCRC (key C) (f s) = Ok (if same_letter s (x ?= th) then m else 0)).
    { intros s P m [M [_ [E1 E2]]]. destruct (GM s) as [_ G]. destruct (G P m M E1) as [c' [F1 F2]].
      rewrite E2 in F1. apply Ok_inj in F1. subst c'. rewrite KE. exact F2. }
    destruct (MO (x ?= th)) as [P [m H]]. pose proof (DE _ _ _ H) as DT. rewrite (proj2 (same_letter_spec _ _) eq_refl) in DT.
    destruct H as [MP [FP [EP EE]]]. pose proof (enc_nonzero _ _ _ EE) as MN.
    assert (INV : forall w, In w (shuffle3 [f Lt; f Eq; f Gt] u v) <-> In w [f Lt; f Eq; f Gt]).
    { intros w. split; apply Permutation_in; [symmetry|]; apply shuffle3_perm. }
    unfold unmaskResult. rewrite (open_mask_spec (key C) m).
    2: exact MN.
    2: { intros w I. apply INV in I.
         assert (exists s, w = f s) as [s ->].
         { destruct I as [<-|[<-|[<-|[]]]]; [exists Lt|exists Eq|exists Gt]; reflexivity. }
         destruct (same_letter s (x ?= th)) eqn:SL.
         - right. apply same_letter_spec in SL. rewrite SL. exact DT.
         - left. destruct (MO s) as [P' [m' H']]. pose proof (DE _ _ _ H') as D'. rewrite SL in D'. exact D'. }
    2: { exists (f (x ?= th)). split; [|exact DT]. apply INV. destruct (x ?= th); cbn; tauto. }
    cbn [bind]. rewrite CU. destruct (randP_m c (sd_mask d) L) as [T [ET MT]]. rewrite ET. cbn [bind].
    pose proof (finite_m _ _ MT ND) as FT. pose proof FT as [_ [_ [_ [[ct [CT LT]] _]]]].
    destruct (L_C16_roundtrip dbg live CV good_CV P T m ct FP CT LT EP) as [Q [EQ [FQ [DQ _]]]]. rewrite EQ. cbn [bind].
    assert (MQ : multiple Q (mask_log d (x ?= th))).
    { split; [right; exact FQ|]. rewrite DQ. apply MP. }
    destruct (padd_m _ _ _ _ (al_res _ _ _ _ _ _ _ _ AL) MQ) as [R [ERR MR]]. rewrite ERR. cbn [bind].
    eexists. split; [reflexivity|]. cbn [otr ccur cx key result]. split; [reflexivity|]. split; [reflexivity|]. split; [reflexivity|]. split; [exact KE|].
    apply (mult_cong _ _ _ MR). unfold outcome_log, mask_log. change (2 ^ Z.of_nat 0) with 1. rewrite Z.div_1_r.
    change (sum_to (d_ok (sd_prep d)) 0) with 0. generalize (sum_to (d_ok (sd_prep d)) 16). intros w. destruct (x ?= th); ring.
  Qed.

  (** ** A whole evaluation *)
  Lemma L_session S0 C0 d a x z : aes_ready e iv -> server_ready live S0 a -> client_ready live C0 x ->
    same_crs (dcrs (sdme (ots S0))) (dcrs (rdme (otr C0))) ->
    good_draws dbg live e iv (dcrs (rdme (otr C0))) (sdme (ots S0)) (theta S0) a x d ->
    multiple (result C0) z ->
    exists S C, session dbg live e iv S0 C0 d = Ok (S, C) /\ based S0 S (sd_prep d) /\
      rdme (otr C) = rdme (otr C0) /\ ccur C = ccur C0 /\ cx C = cx C0 /\
      key C = level_key (sd_prep d) (x ?= theta S0) 0 /\ multiple (result C) (z + outcome_log d (theta S0) a x).
  Proof.
    intros A SR CR SC GD MZ. unfold session.
    destruct (prepare_ok S0 (sd_prep d) a A SR (gd_keys _ _ _ _ _ _ _ _ _ _ GD)) as [S1 [E1 [B1 [T0 [T1 [_ RW]]]]]].
    rewrite E1. cbn [bind]. assert (P1 : prepared S0 S1 (sd_prep d) a) by (split; [exact B1|split; [exact T0|split; [exact T1|exact RW]]]).
    destruct (top_round_ok S0 C0 S1 d a x z SR CR SC GD P1 MZ) as [S2 [C2 [E2 [P2 A2]]]].
    destruct (rounds_ok S0 C0 d a x z SR CR SC GD 15 ltac:(lia) S2 C2 P2 A2) as [S3 [C3 [E3 [P3 A3]]]].
    assert (E : foldM (one_round dbg live e iv) (map (fun r => (r, sd_round d r)) rounds) (S1, C0) = Ok (S3, C3)).
    { unfold rounds, MSG_BITS. rewrite (seq_S 15), rev_app_distr. cbn [rev app map foldM]. change (Z.of_nat (1 + 15)) with 16.
      rewrite E2. cbn [bind]. exact E3. }
    rewrite E. cbn [bind fst snd].
    destruct (masks_ok S0 S3 d a (x ?= theta S0) SR (gd_mask _ _ _ _ _ _ _ _ _ _ GD) (proj1 P3) (sd_u d) (sd_v d)) as [f [E4 MO]].
    rewrite E4. cbn [bind].
    destruct (unmask_ok C0 d (theta S0) a x z C3 f (sd_u d) (sd_v d) CR A3 (gd_unmask _ _ _ _ _ _ _ _ _ _ GD) (gd_mask _ _ _ _ _ _ _ _ _ _ GD) MO)
      as [C4 [E5 [O4 [U4 [X4 [K4 M4]]]]]].
    rewrite E5. cbn [bind]. exists S3, C4. split; [reflexivity|]. split; [apply P3|].
    split; [rewrite O4; apply (al_dme _ _ _ _ _ _ _ _ A3)|]. split; [rewrite U4; apply (al_cur _ _ _ _ _ _ _ _ A3)|].
    split; [rewrite X4, (al_x _ _ _ _ _ _ _ _ A3); symmetry; apply (cr_x _ _ _ CR)|]. split; [exact K4|exact M4].
  Qed.
End Opprf.
