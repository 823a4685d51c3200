(** Proofs about sequences of point operations. *)
From Coq Require Import ZArith Znumtheory Bool List Lia.
From Verif Require Import Outcome FieldModel ZpField SpecField FieldProofs ECGroup ECOrder CurveParams CurveFacts EccModel SpecEcc EccProofs EccThms.
From Verif Require Import DmeModel SpecDme DmeProofs TraceModel SpecTrace.
Import ListNotations.
Open Scope Z_scope.

(** ** Events change no outcome *)
Lemma tbind_snd {A B} (r : traced A) (k : A -> traced B) : snd (tbind r k) = bind (snd r) (fun a => snd (k a)).
Proof. unfold tbind. destruct (snd r); reflexivity. Qed.
Lemma tbind_ok {A B} (r : traced A) (k : A -> traced B) a : snd r = Ok a -> tbind r k = (fst r ++ fst (k a), snd (k a)).
Proof. intros E. unfold tbind. rewrite E. reflexivity. Qed.
Lemma bind_ext {A B} (r : res A) (f g : A -> res B) : (forall a, f a = g a) -> bind r f = bind r g.
Proof. intros E. destruct r; cbn [bind]; [apply E|reflexivity]. Qed.

Section Erase.
  Variables (dbg : bool) (live : Z -> bool) (C : cparams).

  Lemma padd_snd P Q : snd (padd_t dbg live C P Q) = padd dbg live C P Q.
  Proof.
    unfold padd_t. destruct (pinf P) eqn:I; [unfold padd; rewrite I; reflexivity|].
    destruct (pinf Q) eqn:J; [unfold padd; rewrite I, J; reflexivity|].
    rewrite tbind_snd. cbn [lift snd].
    destruct (fe_eq (px P) (px Q)) eqn:X.
    - unfold padd. rewrite I, J, X. destruct (fe_eq (py P) (py Q)); reflexivity.
    - cbn [snd]. destruct (assert_same_curve dbg live C P Q) as [u|f] eqn:A; cbn [bind]; [reflexivity|].
      unfold padd. rewrite I, J, A. reflexivity.
  Qed.

  Lemma psub_snd P Q : snd (psub_t dbg live C P Q) = psub dbg live C P Q.
  Proof.
    unfold psub_t, psub. rewrite tbind_snd. apply bind_ext; intros _. rewrite tbind_snd. apply bind_ext; intros ny. apply padd_snd.
  Qed.

  Lemma mulloop_snd bits : forall R P, snd (mulloop_t dbg live C bits R P) = mulloop dbg live C bits R P.
  Proof.
    induction bits as [|b rest IH]; intros R P; cbn [mulloop_t mulloop]; [reflexivity|].
    rewrite tbind_snd.
    transitivity (bind (if b then padd dbg live C R P else Ok R) (fun R' => snd (match rest with [] => lift (Ok R')
      | _ => tdo P' <- pdouble_t dbg live C P; mulloop_t dbg live C rest R' P' end))).
    { destruct b; [rewrite padd_snd|]; reflexivity. }
    apply bind_ext; intros R'. destruct rest as [|b' rest']; [reflexivity|].
    rewrite tbind_snd. apply bind_ext; intros P'. apply IH.
  Qed.

  Lemma pmul_snd P s : snd (pmul_t dbg live C P s) = pmul dbg live C P s.
  Proof.
    unfold pmul_t, pmul. rewrite tbind_snd. cbn [snd bind]. rewrite tbind_snd.
    destruct (pinf P); [reflexivity|]. rewrite mulloop_snd. destruct (mulloop dbg live C (zbits (fval s)) (pt_inf C) P); reflexivity.
  Qed.

  Lemma random_snd c r : snd (getRandomPoint_t dbg live C c r) = getRandomPoint dbg live C c r.
  Proof. unfold getRandomPoint_t, getRandomPoint. rewrite tbind_snd. apply bind_ext; intros g. apply pmul_snd. Qed.
End Erase.

Section EraseDme.
  Variables (dbg : bool) (live : Z -> bool).

  Lemma KeyGen_snd D b r : snd (KeyGen_t dbg live D b r) = KeyGen dbg live D b r.
  Proof.
    unfold KeyGen_t, KeyGen. rewrite tbind_snd. apply bind_ext; intros sk. rewrite tbind_snd.
    destruct (b =? 0); [|destruct (b =? 1)]; rewrite ?tbind_snd, ?pmul_snd; [..|reflexivity];
      (match goal with |- bind (bind ?x _) _ = _ => destruct x as [a|f]; cbn [bind]; [|reflexivity] end);
      rewrite tbind_snd, pmul_snd; reflexivity.
  Qed.

  Lemma Enc_snd D pk b m r1 r2 : snd (Enc_t dbg live D pk b m r1 r2) = Enc dbg live D pk b m r1 r2.
  Proof.
    unfold Enc_t, Enc. rewrite tbind_snd. apply bind_ext; intros s. rewrite tbind_snd. apply bind_ext; intros t.
    rewrite tbind_snd, pmul_snd. apply bind_ext; intros gs. rewrite tbind_snd, pmul_snd. apply bind_ext; intros ht.
    rewrite tbind_snd, padd_snd. apply bind_ext; intros v.
    destruct (b =? 0); [|destruct (b =? 1); [|reflexivity]];
      (rewrite tbind_snd, pmul_snd; apply bind_ext; intros us; rewrite tbind_snd, pmul_snd; apply bind_ext; intros ut;
       rewrite tbind_snd, padd_snd; apply bind_ext; intros u; rewrite tbind_snd, padd_snd; reflexivity).
  Qed.

  Lemma Dec_snd sk c : snd (Dec_t dbg live sk c) = Dec dbg live sk c.
  Proof. unfold Dec_t, Dec. rewrite tbind_snd, pmul_snd. apply bind_ext; intros us. apply psub_snd. Qed.
End EraseDme.

(** ** What a multiplication does *)
Fixpoint steps (first : bool) (bits : list bool) : list event :=
  match bits with
  | [] => []
  | b :: rest => (if b then [if first then Copy else Chord] else []) ++
      match rest with [] => [] | _ => Double :: steps (first && negb b) rest end
  end.

Section Trace.
  Variables (dbg : bool) (live : Z -> bool) (C : cparams).
  Hypothesis HC : good C.
  Notation p := (c_prime C).
  Notation n := (c_order C).
  Notation eon := (eon p (c_a C) (c_b C)).
  Notation eadd := (eadd p (c_a C)).
  Notation eneg := (eneg p).
  Notation ezmul := (ezmul p (c_a C)).
  Let N := isnice C HC.

  Lemma padd_chord c E E' : live c = true -> eon E -> eon E' -> E <> None -> E' <> None -> E <> E' -> E <> eneg E' ->
    fst (padd_t dbg live C (inj C c E) (inj C c E')) = [Chord].
  Proof.
    intros L H H' Z Z' D D'. destruct E as [[x y]|]; [|contradiction]. destruct E' as [[x' y']|]; [|contradiction].
    unfold padd_t. cbn [inj pinf]. unfold lift, tbind. cbn [fst snd].
    rewrite (assert_same_curve_inj dbg live C), L, orb_true_r. cbn [fst snd px py app].
    rewrite (emb_eq C HC). destruct (eqFp p x x') as [<-|Nx]; [exfalso|reflexivity].
    destruct (same_x _ _ _ _ _ _ _ _ _ (field_Fp p (g_prime C HC)) (eqFp p) _ _ _ _ _ H H') as [->| ->]; [apply D|apply D']; reflexivity.
  Qed.

  Lemma ezmul_same E i j : eon E -> E <> None -> ezmul i E = ezmul j E -> (n | i - j).
  Proof.
    intros H NE Q. apply (order_exact' C HC E _ H NE). unfold Z.sub. rewrite (ezmul_add p (c_a C) (c_b C) N), (ezmul_opp p (c_a C) (c_b C) N) by assumption.
    rewrite Q. apply (eadd_neg_r p (c_a C) (c_b C) N). apply (eon_zmul p _ _ N), H.
  Qed.

  Lemma mulloop_steps E0 c bits : live c = true -> eon E0 -> E0 <> None ->
    forall r w, 0 <= r < w -> r + w * bval bits < n -> ezmul w E0 <> None ->
    fst (mulloop_t dbg live C bits (inj C c (ezmul r E0)) (inj C c (ezmul w E0))) = steps (r =? 0) bits.
  Proof.
    intros L H0 N0. induction bits as [|b rest IH]; intros r w R V NW; [reflexivity|].
    assert (Hr : eon (ezmul r E0)) by (apply (eon_zmul p _ _ N), H0).
    assert (Hw : eon (ezmul w E0)) by (apply (eon_zmul p _ _ N), H0).
    assert (NB : forall l, 0 <= bval l) by (induction l as [|[] l IHl]; cbn [bval Z.b2z]; lia).
    pose proof (NB rest) as NBr. cbn [bval] in V.
    assert (E1 : fst (if b then padd_t dbg live C (inj C c (ezmul r E0)) (inj C c (ezmul w E0)) else lift (Ok (inj C c (ezmul r E0)))) =
      (if b then [if r =? 0 then Copy else Chord] else [])).
    { destruct b; [|reflexivity]. cbn [Z.b2z] in V. destruct (Z.eqb_spec r 0) as [->|Nr].
      - change (ezmul 0 E0) with (@None (Fp p * Fp p)). reflexivity.
      - apply padd_chord; try assumption.
        + intros Q. apply (order_exact' C HC E0 r H0 N0) in Q. apply Z.divide_pos_le in Q; nia.
        + intros Q. apply ezmul_same in Q; [|assumption..]. apply Z.divide_opp_r in Q. apply Z.divide_pos_le in Q; nia.
        + rewrite <- (ezmul_opp p (c_a C) (c_b C) N). intros Q. apply ezmul_same in Q; [|assumption..].
          apply Z.divide_pos_le in Q; nia. }
    assert (E2 : snd (if b then padd_t dbg live C (inj C c (ezmul r E0)) (inj C c (ezmul w E0)) else lift (Ok (inj C c (ezmul r E0)))) =
      Ok (inj C c (ezmul (r + w * Z.b2z b) E0))).
    { destruct b; cbn [Z.b2z].
      - rewrite padd_snd, (padd_inj dbg live C HC), pick_same by auto using lv_live.
        rewrite Z.mul_1_r, (ezmul_add p (c_a C) (c_b C) N) by assumption. reflexivity.
      - rewrite Z.mul_0_r, Z.add_0_r. reflexivity. }
    cbn [mulloop_t steps]. rewrite (tbind_ok _ _ _ E2). cbn [fst]. rewrite E1.
    f_equal. destruct rest as [|b' rest']; [reflexivity|].
    assert (E3 : snd (pdouble_t dbg live C (inj C c (ezmul w E0))) = Ok (inj C c (ezmul (2 * w) E0))).
    { unfold pdouble_t. cbn [snd]. rewrite (pdouble_inj dbg live C HC), L by assumption.
      rewrite (eadd2 C), <- (ezmul_mul p (c_a C) (c_b C) N) by assumption. reflexivity. }
    rewrite (tbind_ok _ _ _ E3). cbn [fst pdouble_t app]. f_equal.
    assert (B1 : bval (b' :: rest') = bval (b' :: rest')) by reflexivity.
    rewrite IH.
    - f_equal. destruct b; cbn [Z.b2z negb].
      + rewrite andb_false_r. apply Z.eqb_neq. lia.
      + rewrite Z.mul_0_r, Z.add_0_r, andb_true_r. reflexivity.
    - destruct b; cbn [Z.b2z]; lia.
    - set (v := bval (b' :: rest')) in *. nia.
    - rewrite (ezmul_mul p (c_a C) (c_b C) N), <- (eadd2 C) by assumption. apply (edouble_ne p (c_a C) (c_b C) N); assumption.
  Qed.

  Lemma pmul_steps P s : finite_valid live C P -> 0 <= fval s < n ->
    pmul_t dbg live C P s = (Multiply :: steps true (zbits (fval s)) ++ [Done], pmul dbg live C P s).
  Proof.
    intros HP S. destruct (finite_inj live C HC P HP) as [c [x [y [On [L ->]]]]].
    rewrite (surjective_pairing (pmul_t _ _ _ _ _)), pmul_snd. f_equal.
    pose proof (mulloop_steps (Some (x, y)) c (zbits (fval s)) L On ltac:(discriminate) 0 1 ltac:(lia)) as M.
    rewrite (bval_zbits) in M by lia. specialize (M ltac:(lia)). rewrite (ezmul_1 p) in M. specialize (M ltac:(discriminate)).
    change (ezmul 0 (Some (x, y))) with (@None (Fp p * Fp p)) in M.
    pose proof (pmul_snd dbg live C (inj C c (Some (x, y))) s) as Q.
    rewrite (pmul_inj dbg live C HC) in Q; [|exact On|intros _; exact L|lia].
    unfold pmul_t in *. rewrite (tbind_ok _ _ tt) by reflexivity. cbn [fst app].
    rewrite (tbind_ok _ _ tt) in Q by reflexivity. cbn [snd] in Q.
    change (pinf (inj C c (Some (x, y)))) with false in *. cbv iota in *.
    unfold tbind in *. destruct (snd (mulloop_t _ _ _ _ _ _)) eqn:T; [|discriminate Q].
    cbn [fst]. f_equal. f_equal. exact M.
  Qed.
End Trace.

(** ** What an onlooker reads *)
Definition seen (l : list event) (s : Z * Z * list Z) : list Z := snd (fold_left look l s).

Lemma steps_look bits : forall f w a l, exists w', fold_left look (steps f bits) (w, a, l) = (w', a + w * bval bits, l).
Proof.
  induction bits as [|b rest IH]; intros f w a l; [exists w; cbn [steps fold_left bval]; f_equal; f_equal; lia|].
  cbn [steps bval]. rewrite fold_left_app.
  assert (E : fold_left look (if b then [if f then Copy else Chord] else []) (w, a, l) = (w, a + w * Z.b2z b, l)).
  { destruct b; [destruct f|]; cbn [fold_left look Z.b2z]; f_equal; f_equal; lia. }
  rewrite E. destruct rest as [|b' rest'].
  - exists w. cbn [fold_left bval]. f_equal. f_equal. lia.
  - cbn [fold_left look]. destruct (IH (f && negb b)%bool (2 * w) (a + w * Z.b2z b) l) as [w' ->]. exists w'. f_equal. f_equal. lia.
Qed.

Lemma seen_app l1 l2 s : seen (l1 ++ l2) s = seen l2 (fold_left look l1 s).
Proof. unfold seen. rewrite fold_left_app. reflexivity. Qed.

Lemma look_mul v s : 0 <= v -> snd (fold_left look (Multiply :: steps true (zbits v) ++ [Done]) s) = snd s ++ [v].
Proof.
  intros V. destruct s as [[w a] l]. cbn [fold_left look]. rewrite fold_left_app.
  destruct (steps_look (zbits v) true 1 0 l) as [w' ->]. rewrite bval_zbits by assumption. cbn [fold_left look snd]. do 2 f_equal. lia.
Qed.

Lemma look_add dbg live C P Q s : snd (fold_left look (fst (padd_t dbg live C P Q)) s) = snd s.
Proof.
  destruct s as [[w a] l]. unfold padd_t. destruct (pinf P); [reflexivity|]. destruct (pinf Q); [reflexivity|].
  unfold tbind, lift. cbn [fst snd]. destruct (assert_same_curve dbg live C P Q); [|reflexivity]. cbn [fst app].
  destruct (fe_eq (px P) (px Q)); [destruct (fe_eq (py P) (py Q))|]; reflexivity.
Qed.

Lemma look_sub dbg live C P Q s : snd (fold_left look (fst (psub_t dbg live C P Q)) s) = snd s.
Proof.
  unfold psub_t, tbind at 1, lift at 1. cbn [fst snd]. destruct (assert_same_curve dbg live C P Q); [|reflexivity]. cbn [fst app].
  unfold tbind, lift. cbn [fst snd]. destruct (fe_sub _ _ _ _); [|reflexivity]. cbn [fst app]. apply look_add.
Qed.

(** the steps that follow the sequence read so far *)
Lemma seen_bind {A B} (r : traced A) (k : A -> traced B) a s : snd r = Ok a ->
  seen (fst (tbind r k)) s = seen (fst (k a)) (fold_left look (fst r) s).
Proof. intros E. rewrite (tbind_ok _ _ _ E). cbn [fst]. apply seen_app. Qed.

Section Reading.
  Variables (dbg : bool) (live : Z -> bool) (C : cparams).
  Hypothesis HC : good C.

  Lemma look_pmul P s st : finite_valid live C P -> 0 <= fval s < c_order C ->
    snd (fold_left look (fst (pmul_t dbg live C P s)) st) = snd st ++ [fval s].
  Proof. intros HP S. rewrite (pmul_steps dbg live C HC P s HP S). cbn [fst]. apply look_mul. lia. Qed.
End Reading.

Fixpoint count_true (l : list bool) : Z := match l with [] => 0 | b :: l' => Z.b2z b + count_true l' end.

Lemma occ_cons x e l : occurrences x (e :: l) = (if same_event x e then 1 else 0) + occurrences x l.
Proof. unfold occurrences. cbn [filter]. destruct (same_event x e); cbn [length]; lia. Qed.
Lemma occ_app x l l' : occurrences x (l ++ l') = occurrences x l + occurrences x l'.
Proof. unfold occurrences. rewrite filter_app, app_length. lia. Qed.

Lemma steps_counts bits : forall f, bits <> [] -> occurrences Double (steps f bits) = Z.of_nat (length bits) - 1 /\
  occurrences Copy (steps f bits) + occurrences Chord (steps f bits) = count_true bits /\
  occurrences Copy (steps f bits) = (if f then Z.min 1 (count_true bits) else 0) /\
  occurrences Opposite (steps f bits) = 0 /\ occurrences Multiply (steps f bits) = 0 /\ occurrences Done (steps f bits) = 0.
Proof.
  assert (P : forall l, 0 <= count_true l) by (induction l as [|[] l IHl]; cbn [count_true Z.b2z]; lia).
  induction bits as [|b rest IH]; intros f NE; [contradiction|]. clear NE.
  cbn [steps count_true]. rewrite !occ_app.
  assert (E : forall x, occurrences x (if b then [if f then Copy else Chord] else []) = if b then (if same_event x (if f then Copy else Chord) then 1 else 0) else 0).
  { intros x. destruct b; [|reflexivity]. rewrite occ_cons. unfold occurrences. cbn [filter length]. lia. }
  rewrite !E. destruct rest as [|b' rest'].
  - cbn [occurrences filter length]. destruct b, f; cbn; repeat split; lia.
  - destruct (IH (f && negb b)%bool ltac:(discriminate)) as [I1 [I2 [I3 [I4 [I5 I6]]]]]. rewrite !occ_cons, I1, I4, I5, I6.
    set (R := b' :: rest') in *. pose proof (P R). change (length (b :: R)) with (S (length R)).
    repeat split; destruct b, f; cbn [same_event Z.b2z andb negb] in *; lia.
Qed.

Lemma ones_shift b v : forall k, 0 <= v -> ones (S k) (Z.b2z b + 2 * v) = Z.b2z b + ones k v.
Proof.
  intros k V. induction k as [|k IH].
  - cbn [ones Z.of_nat]. rewrite Z.add_b2z_double_bit0. lia.
  - cbn [ones] in *. rewrite IH. rewrite Nat2Z.inj_succ.
    rewrite (Z.add_comm (Z.b2z b) (2 * v)), Z.testbit_succ_r by lia. lia.
Qed.

Lemma pbits_count k : forall j, (length (pbits k) <= j)%nat -> count_true (pbits k) = ones j (Zpos k).
Proof.
  induction k as [k IH|k IH|]; intros [|j] J; cbn [pbits length count_true] in *; try lia.
  - rewrite (IH j) by lia. change (Zpos k~1) with (Z.b2z true + 2 * Zpos k). rewrite ones_shift by lia. reflexivity.
  - rewrite (IH j) by lia. change (Zpos k~0) with (Z.b2z false + 2 * Zpos k). rewrite ones_shift by lia. reflexivity.
  - replace (ones (S j) 1) with (ones (S j) (Z.b2z true + 2 * 0)) by reflexivity. rewrite ones_shift by lia.
    assert (Z0 : forall i, ones i 0 = 0) by (induction i as [|i Hi]; cbn [ones]; rewrite ?Hi, ?Z.testbit_0_l; reflexivity).
    rewrite Z0. reflexivity.
Qed.

Lemma pbits_length k : Z.of_nat (length (pbits k)) = Z.log2 (Zpos k) + 1.
Proof.
  induction k as [k IH|k IH|]; cbn [pbits length]; [..|reflexivity]; rewrite Nat2Z.inj_succ, IH.
  - change (Zpos k~1) with (2 * Zpos k + 1). rewrite Z.log2_succ_double by lia. lia.
  - change (Zpos k~0) with (2 * Zpos k). rewrite Z.log2_double by lia. lia.
Qed.

Lemma zbits_counts v k : 0 <= v < 2 ^ Z.of_nat k ->
  let l := steps true (zbits v) in
  occurrences Double l = Z.log2 v /\ occurrences Copy l + occurrences Chord l = ones k v /\
  occurrences Copy l = Z.min 1 (ones k v) /\ occurrences Opposite l = 0.
Proof.
  intros V l. subst l. destruct v as [|p|p]; [..|lia].
  - assert (Z0 : forall i, ones i 0 = 0) by (induction i as [|i Hi]; cbn [ones]; rewrite ?Hi, ?Z.testbit_0_l; reflexivity).
    rewrite Z0. cbn. repeat split.
  - assert (NE : pbits p <> []) by (destruct p; discriminate).
    destruct (steps_counts (pbits p) true NE) as [A [B [D [E _]]]]. cbn [zbits].
    pose proof (pbits_length p) as PL.
    assert (K : (length (pbits p) <= k)%nat).
    { apply Nat2Z.inj_le. rewrite PL. pose proof (Z.log2_lt_pow2 (Zpos p) (Z.of_nat k) ltac:(lia)). lia. }
    rewrite A, B, D, E, (pbits_count p k K), PL. repeat split; lia.
Qed.

Section Results.
  Variables (dbg : bool) (live : Z -> bool) (C : cparams).
  Hypothesis HC : good C.

  Lemma L_C84_scalar P s : finite_valid live C P -> canon (fieldn C) s ->
    exists l, pmul_t dbg live C P s = (Multiply :: l ++ [Done], pmul dbg live C P s) /\
      observed (Multiply :: l ++ [Done]) = [fval s] /\
      occurrences Double l = Z.log2 (fval s) /\ occurrences Opposite l = 0 /\
      forall k, fval s < 2 ^ Z.of_nat k -> occurrences Copy l + occurrences Chord l = ones k (fval s) /\
        occurrences Copy l = Z.min 1 (ones k (fval s)).
  Proof.
    intros HP [_ S]. rewrite (g_fieldn C HC) in S. exists (steps true (zbits (fval s))).
    split; [apply (pmul_steps dbg live C HC P s HP S)|].
    split; [unfold observed; rewrite look_mul by lia; reflexivity|].
    destruct (zbits_counts (fval s) (Z.to_nat (Z.log2 (fval s) + 1))) as [A [_ [_ B]]].
    { split; [lia|]. pose proof (Z.log2_nonneg (fval s)). rewrite Z2Nat.id by lia. destruct (Z.eq_dec (fval s) 0) as [->|NZ]; [reflexivity|].
      pose proof (Z.log2_spec (fval s) ltac:(lia)) as [_ U]. replace (Z.log2 (fval s) + 1) with (Z.succ (Z.log2 (fval s))) by lia. exact U. }
    split; [exact A|]. split; [exact B|].
    intros k K. destruct (zbits_counts (fval s) k ltac:(lia)) as [_ [D [E _]]]. split; [exact D|exact E].
  Qed.
End Results.

Lemma gen_finite k live c : live c = true -> finite_valid live (params k) (gen (params k) c).
Proof.
  intros L. split; [reflexivity|]. split; [apply FieldProofs.canon_new; destruct k; reflexivity|].
  split; [apply FieldProofs.canon_new; destruct k; reflexivity|]. split; [exists c; split; [reflexivity|exact L]|].
  destruct k; vm_compute; reflexivity.
Qed.

Lemma L_C84_random k dbg live c r : live c = true ->
  observed (fst (getRandomPoint_t dbg live (params k) (Some c) r)) = [r mod c_order (params k)].
Proof.
  intros L. pose proof (good_params k) as HC. unfold getRandomPoint_t, observed.
  assert (E : snd (lift (getDefaultGen live (params k) (Some c))) = Ok (gen (params k) c)) by (unfold lift, getDefaultGen; rewrite L; reflexivity).
  rewrite (tbind_ok _ _ _ E). cbn [lift fst app]. unfold pmulz_t.
  rewrite (look_pmul dbg live (params k) HC).
  - cbn [snd app fe_new fval]. rewrite (g_fieldn (params k) HC). reflexivity.
  - apply gen_finite, L.
  - cbn [fe_new fval]. rewrite (g_fieldn (params k) HC). apply Z.mod_pos_bound. pose proof (n_gt1' (params k) HC). lia.
Qed.

Section ResultsDme.
  Variables (dbg : bool) (live : Z -> bool).

  Lemma scalar_range r : 0 <= fval (fe_new FIELD_n r) < order.
  Proof. cbn [fe_new fval]. unfold order. apply Z.mod_pos_bound. vm_compute. reflexivity. Qed.

  Lemma L_C84_keys D b r kp : KeyGen dbg live D b r = Ok kp -> branch b ->
    finite live (g0 (dcrs D)) -> finite live (g1 (dcrs D)) -> finite live (h0 (dcrs D)) -> finite live (h1 (dcrs D)) ->
    observed (fst (KeyGen_t dbg live D b r)) = [fval (ksk kp); fval (ksk kp)].
  Proof.
    intros K B F0 F1 F2 F3. unfold KeyGen in K. apply bind_Ok in K. destruct K as [sk [ES K]].
    apply bind_Ok in K. destruct K as [pk [EP K]]. injection K as <-. cbn [ksk].
    unfold KeyGen_t, observed. rewrite (tbind_ok _ _ sk) by exact ES. cbn [lift fst app].
    assert (S : 0 <= fval sk < order).
    { unfold getRandomScalar in ES. apply bind_Ok in ES. destruct ES as [c [_ ES]]. injection ES as <-. apply scalar_range. }
    destruct B as [-> | ->]; cbn [Z.eqb Pos.eqb] in EP |- *;
      apply bind_Ok in EP; destruct EP as [a [EA EP]]; apply bind_Ok in EP; destruct EP as [b' [EB EP]]; injection EP as <-;
      rewrite <- (pmul_snd dbg live CV) in EA, EB;
      rewrite (tbind_ok _ _ (mkpk a b')) by (rewrite (tbind_ok _ _ a EA); cbn [snd]; rewrite (tbind_ok _ _ b' EB); reflexivity);
      rewrite (tbind_ok _ _ a EA); cbn [fst snd]; rewrite (tbind_ok _ _ b' EB); cbn [lift fst snd];
      rewrite !fold_left_app; cbn [fold_left]; rewrite !(look_pmul dbg live CV good_CV) by assumption; reflexivity.
  Qed.

  Lemma L_C84_decrypt sk c : finite live (cu c) -> scal sk -> observed (fst (Dec_t dbg live sk c)) = [fval sk].
  Proof.
    intros F S. unfold Dec_t, observed. unfold tbind.
    assert (E : exists us, snd (pmul_t dbg live CV (cu c) sk) = Ok us).
    { rewrite pmul_snd. destruct (L_C11_scalar dbg live CV good_CV (cu c) sk) as [R [E _]]; [right; exact F|apply S|]. exists R; exact E. }
    destruct E as [us ->]. cbn [fst]. rewrite fold_left_app, look_sub. rewrite (look_pmul dbg live CV good_CV); [reflexivity|exact F|].
    destruct S as [_ S]. exact S.
  Qed.

  Lemma L_C84_encrypt D pk b m r1 r2 c : Enc dbg live D pk b m r1 r2 = Ok c -> branch b -> is_valid live m ->
    finite live (g0 (dcrs D)) -> finite live (g1 (dcrs D)) -> finite live (h0 (dcrs D)) -> finite live (h1 (dcrs D)) ->
    finite live (pg pk) -> finite live (ph pk) ->
    exists s t, observed (fst (Enc_t dbg live D pk b m r1 r2)) = [s; t; s; t] /\
      den CV m = gadd CV (den CV (cmv c)) (gneg CV (gadd CV (gmul CV s (den CV (pg pk))) (gmul CV t (den CV (ph pk))))).
  Proof.
    intros E B M F0 F1 F2 F3 G H. unfold Enc in E.
    apply bind_Ok in E. destruct E as [s [ES E]]. apply bind_Ok in E. destruct E as [t [ET E]].
    assert (S : s = fe_new FIELD_n r1) by (unfold getRandomScalar in ES; apply bind_Ok in ES; destruct ES as [? [_ ES]]; injection ES as <-; reflexivity).
    assert (T : t = fe_new FIELD_n r2) by (unfold getRandomScalar in ET; apply bind_Ok in ET; destruct ET as [? [_ ET]]; injection ET as <-; reflexivity).
    assert (RS : 0 <= fval s < order) by (subst s; apply scalar_range).
    assert (RT : 0 <= fval t < order) by (subst t; apply scalar_range).
    apply bind_Ok in E. destruct E as [gs [EG E]]. apply bind_Ok in E. destruct E as [ht [EH E]].
    apply bind_Ok in E. destruct E as [v [EV E]].
    assert (X : exists us ut u mv k0 k1, (k0 = g0 (dcrs D) /\ k1 = h0 (dcrs D) /\ b = 0 \/ k0 = g1 (dcrs D) /\ k1 = h1 (dcrs D) /\ b = 1) /\
      pmul dbg live CV k0 s = Ok us /\ pmul dbg live CV k1 t = Ok ut /\ padd dbg live CV us ut = Ok u /\ padd dbg live CV v m = Ok mv /\ c = mkct u mv).
    { destruct B as [-> | ->]; cbn [Z.eqb Pos.eqb] in E; apply bind_Ok in E; destruct E as [us [E1 E]]; apply bind_Ok in E; destruct E as [ut [E2 E]];
        apply bind_Ok in E; destruct E as [u [E3 E]]; apply bind_Ok in E; destruct E as [mv [E4 E]]; injection E as <-;
        [exists us, ut, u, mv, (g0 (dcrs D)), (h0 (dcrs D))|exists us, ut, u, mv, (g1 (dcrs D)), (h1 (dcrs D))];
        (split; [tauto|]); repeat split; assumption. }
    clear E. destruct X as [us [ut [u [mv [k0 [k1 [KB [E1 [E2 [E3 [E4 ->]]]]]]]]]]].
    assert (FK0 : finite live k0) by (destruct KB as [[-> _]|[-> _]]; assumption).
    assert (FK1 : finite live k1) by (destruct KB as [[_ [-> _]]|[_ [-> _]]]; assumption).
    exists (fval s), (fval t). split.
    - unfold Enc_t, observed.
      rewrite <- (pmul_snd dbg live CV) in EG, EH, E1, E2. rewrite <- (padd_snd dbg live CV) in EV, E3, E4.
      rewrite (tbind_ok _ _ s) by exact ES. rewrite (tbind_ok _ _ t) by exact ET. cbn [lift fst app].
      rewrite (tbind_ok _ _ gs) by exact EG. rewrite (tbind_ok _ _ ht) by exact EH. rewrite (tbind_ok _ _ v) by exact EV.
      cbn [fst snd].
      assert (R : (if b =? 0 then
          tdo us <- pmul_t dbg live CV (g0 (dcrs D)) s; tdo ut <- pmul_t dbg live CV (h0 (dcrs D)) t; tdo u <- padd_t dbg live CV us ut;
          tdo mv <- padd_t dbg live CV v m; lift (Ok (mkct u mv))
        else if b =? 1 then
          tdo us <- pmul_t dbg live CV (g1 (dcrs D)) s; tdo ut <- pmul_t dbg live CV (h1 (dcrs D)) t; tdo u <- padd_t dbg live CV us ut;
          tdo mv <- padd_t dbg live CV v m; lift (Ok (mkct u mv))
        else lift (Ok ctxt_default)) =
        (tdo us <- pmul_t dbg live CV k0 s; tdo ut <- pmul_t dbg live CV k1 t; tdo u <- padd_t dbg live CV us ut;
          tdo mv <- padd_t dbg live CV v m; lift (Ok (mkct u mv)))).
      { destruct KB as [[-> [-> ->]]|[-> [-> ->]]]; reflexivity. }
      rewrite R. clear R.
      rewrite (tbind_ok _ _ us) by exact E1. rewrite (tbind_ok _ _ ut) by exact E2. rewrite (tbind_ok _ _ u) by exact E3.
      rewrite (tbind_ok _ _ mv) by exact E4. cbn [fst snd lift]. rewrite !fold_left_app. cbn [fold_left].
      rewrite !look_add. rewrite (look_pmul dbg live CV good_CV), (look_pmul dbg live CV good_CV) by assumption. rewrite look_add.
      rewrite (look_pmul dbg live CV good_CV), (look_pmul dbg live CV good_CV) by assumption. reflexivity.
    - cbn [cmv].
      assert (W : forall P r x R, finite live P -> x = fe_new FIELD_n r -> pmul dbg live CV P x = Ok R ->
        valid live CV R /\ den CV R = gmul CV (fval x) (den CV P)).
      { intros P r x R FP -> EP. destruct (L_C11_den dbg live CV good_CV P (r mod FIELD_n) (or_intror FP)) as [R' [ER [VR DR]]].
        unfold pmulz in ER. change (fieldn CV) with FIELD_n in ER.
        assert (Q : fe_new FIELD_n (r mod FIELD_n) = fe_new FIELD_n r) by (unfold fe_new; rewrite Z.mod_mod by discriminate; reflexivity).
        rewrite Q, EP in ER. injection ER as <-. split; [exact VR|exact DR]. }
      destruct (W _ _ _ _ G S EG) as [VG DG]. destruct (W _ _ _ _ H T EH) as [VH DH].
      destruct (yields_padd dbg live CV good_CV gs ht VG VH) as [v' [EV' [VV DV]]]. rewrite EV in EV'. injection EV' as <-.
      destruct (yields_padd dbg live CV good_CV v m VV M) as [mv' [EM [VM DM]]]. rewrite E4 in EM. injection EM as <-.
      rewrite <- DG, <- DH, <- DV, DM. unfold gadd, gneg.
      rewrite (eadd_comm (c_prime CV) (c_a CV) (c_b CV) (isnice CV good_CV) (den CV v)) by (apply (valid_eon live CV good_CV); assumption).
      symmetry. apply (eadd_sub (c_prime CV) (c_a CV) (c_b CV) (isnice CV good_CV)); apply (valid_eon live CV good_CV); assumption.
  Qed.
End ResultsDme.
