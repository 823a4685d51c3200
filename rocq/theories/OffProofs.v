(** Proofs about points which are not on the curve of the class. *)
From Coq Require Import ZArith Znumtheory Zpow_facts Bool List Lia Field.
From Verif Require Import Outcome FieldModel ZpField SpecField FieldProofs Fermat ECGroup ECOrder CurveParams CurveFacts EccModel EccProofs
  SpecEcc DmeModel DmeProofs OffMath SpecOff.
Import ListNotations.
Open Scope Z_scope.

(** ** The operators do not read b *)
Section Formulas.
  Variables (dbg : bool) (live : Z -> bool) (C : cparams) (b : Z).
  Notation C' := (with_b C b).
  Lemma asc_b P Q : assert_same_curve dbg live C' P Q = assert_same_curve dbg live C P Q.
  Proof.
    unfold assert_same_curve, deref. destruct dbg; [|reflexivity].
    destruct (pcur P) as [c|]; [|reflexivity]. destruct (live c); [|reflexivity]. cbn [bind].
    destruct (pcur Q) as [d|]; [|reflexivity]. destruct (live d); [|reflexivity]. cbn [bind].
    rewrite !curve_eq_refl. reflexivity.
  Qed.
  Lemma pdouble_b P : pdouble dbg live C' P = pdouble dbg live C P.
  Proof.
    unfold pdouble. cbn [fieldp with_b]. destruct (fe_square (fieldp C) (px P)) as [xx|]; [|reflexivity]. cbn [bind].
    destruct (fe_mulz (fieldp C) xx 3) as [x3|]; [|reflexivity]. cbn [bind]. unfold deref.
    destruct (pcur P) as [c|]; [|reflexivity]. destruct (live c); [|reflexivity]. reflexivity.
  Qed.
  Lemma padd_b P Q : padd dbg live C' P Q = padd dbg live C P Q.
  Proof. unfold padd. rewrite asc_b, pdouble_b. reflexivity. Qed.
  Lemma psub_b P Q : psub dbg live C' P Q = psub dbg live C P Q.
  Proof. unfold psub. rewrite asc_b. cbn [fieldp with_b]. destruct (assert_same_curve dbg live C P Q) as [u|]; [|reflexivity]. cbn [bind].
    destruct (fe_sub dbg (fieldp C) (fe_new (fieldp C) 0) (py Q)) as [v|]; [|reflexivity]. cbn [bind]. apply padd_b. Qed.
  Lemma mulloop_b bits : forall R P, mulloop dbg live C' bits R P = mulloop dbg live C bits R P.
  Proof.
    induction bits as [|d rest IH]; intros R P; cbn [mulloop]; [reflexivity|].
    rewrite padd_b. destruct (if d then padd dbg live C R P else Ok R) as [R'|]; [|reflexivity]. cbn [bind].
    rewrite pdouble_b. destruct rest; [reflexivity|]. destruct (pdouble dbg live C P) as [P'|]; [|reflexivity]. cbn [bind]. apply IH.
  Qed.
  Lemma pmul_b P s : pmul dbg live C' P s = pmul dbg live C P s.
  Proof. unfold pmul. rewrite mulloop_b. reflexivity. Qed.
  Lemma peq_b P Q : peq live C' P Q = peq live C P Q.
  Proof.
    unfold peq, deref. destruct (pinf P && pinf Q); [reflexivity|]. destruct (negb (fe_eq (px P) (px Q))); [reflexivity|].
    destruct (negb (fe_eq (py P) (py Q))); [reflexivity|].
    destruct (pcur P) as [c|]; [|reflexivity]. destruct (live c); [|reflexivity]. cbn [bind].
    destruct (pcur Q) as [d|]; [|reflexivity]. destruct (live d); [|reflexivity]. cbn [bind].
    rewrite !curve_eq_refl. reflexivity.
  Qed.
End Formulas.

(** ** Multiplication of any cyclic family of points which adds by the formulas *)
Section Sim.
  Variables (dbg : bool) (live : Z -> bool) (C : cparams).
  Hypothesis HC : good C.
  Notation p := (c_prime C).
  Notation ept := (ept p).
  Notation eadd := (eadd p (c_a C)).
  Notation inj := (inj C).
  Let Hp : prime p := g_prime C HC.
  Let HF := field_Fp p Hp.
  Add Field SimField : HF.

  Definition ynz (E : ept) : Prop := match E with None => True | Some (_, y) => y <> f0 p end.

  Lemma padd_y E E' c c' : lv live C E c -> lv live C E' c' -> ynz E ->
    padd dbg live C (inj c E) (inj c' E') = Ok (inj (EccProofs.pick C E c c') (eadd E E')).
  Proof.
    intros L L' Y. unfold padd. destruct E as [[x y]|]; cbn [EccProofs.inj pinf pt_inf]; [|reflexivity].
    destruct E' as [[x' y']|]; cbn [EccProofs.inj pinf pt_inf]; [|reflexivity].
    rewrite assert_same_curve_inj. rewrite L, L' by discriminate. rewrite orb_true_r. cbn [bind EccProofs.pick].
    cbn [px py]. rewrite !(emb_eq C HC).
    destruct (eqFp p x x') as [<-|Nx].
    - destruct (eqFp p y y') as [<-|Ny].
      + rewrite (pdouble_any dbg live C HC) by exact Y. rewrite L by discriminate. reflexivity.
      + apply (f_equal Ok). unfold ECOrder.eadd, add. destruct (eqFp p x x) as [_|]; [|contradiction].
        destruct (eqFp p y y') as [|_]; [contradiction|]. reflexivity.
    - assert (D : fsub p x x' <> f0 p).
      { intros E. apply Nx. transitivity (fadd p (fsub p x x') x'); [ring|]. rewrite E. ring. }
      rewrite !(emb_sub dbg C HC). cbn [bind]. rewrite (emb_div dbg C HC) by exact D. cbn [bind]. rewrite (emb_mul dbg C HC). cbn [bind].
      rewrite !(emb_sub dbg C HC). cbn [bind]. rewrite !(emb_sub dbg C HC). cbn [bind]. rewrite !(emb_sub dbg C HC). cbn [bind].
      rewrite (emb_mul dbg C HC). cbn [bind]. rewrite !(emb_sub dbg C HC). cbn [bind].
      apply (f_equal Ok). unfold ECOrder.eadd, add. destruct (eqFp p x x') as [|_]; [contradiction|].
      unfold third, chord_slope. reflexivity.
  Qed.

  Variable f : Z -> ept.
  Hypothesis f_add : forall i j, 0 <= i -> 0 <= j -> eadd (f i) (f j) = f (i + j).
  Hypothesis f_y : forall i, 0 <= i -> ynz (f i).
  Hypothesis f_dbl : forall i, 0 <= i -> f i <> None -> f (2 * i) <> None.
  Hypothesis f_0 : f 0 = None.

  Lemma mulloop_sim bits c : live c = true -> forall i j, 0 <= i -> 0 <= j -> f j <> None ->
    mulloop dbg live C bits (inj c (f i)) (inj c (f j)) = Ok (inj c (f (i + bval bits * j))).
  Proof.
    intros L. induction bits as [|d rest IH]; intros i j Hi Hj N; cbn [mulloop].
    - cbn [bval]. apply (f_equal (fun z => Ok (inj c (f z)))). lia.
    - assert (S : (if d then padd dbg live C (inj c (f i)) (inj c (f j)) else Ok (inj c (f i))) = Ok (inj c (f (i + Z.b2z d * j)))).
      { destruct d; cbn [Z.b2z].
        - rewrite padd_y by (try (intros _; exact L); apply f_y; exact Hi). rewrite pick_same, f_add by assumption.
          apply (f_equal (fun z => Ok (inj c (f z)))). lia.
        - apply (f_equal (fun z => Ok (inj c (f z)))). lia. }
      rewrite S. cbn [bind]. destruct rest as [|b' rest'].
      + apply (f_equal (fun z => Ok (inj c (f z)))). cbn [bval]. lia.
      + assert (D : pdouble dbg live C (inj c (f j)) = Ok (inj c (f (2 * j)))).
        { pose proof (f_add j j Hj Hj) as A. replace (j + j) with (2 * j) in A by lia. rewrite <- A.
          pose proof (f_y j Hj) as Y. destruct (f j) as [[x y]|]; [|contradiction].
          cbn [EccProofs.inj]. rewrite (pdouble_any dbg live C HC) by exact Y. rewrite L. reflexivity. }
        rewrite D. cbn [bind].
        assert (Hd : 0 <= Z.b2z d * j) by (destruct d; cbn [Z.b2z]; lia).
        rewrite IH by (try lia; apply f_dbl; assumption).
        apply (f_equal (fun z => Ok (inj c (f z)))). cbn [bval]. lia.
  Qed.

  Lemma pmul_sim c s : lv live C (f 1) c -> 0 <= fval s -> (f 1 = None -> f (fval s) = None) ->
    pmul dbg live C (inj c (f 1)) s = Ok (inj c (f (fval s))).
  Proof.
    intros L S N. destruct (f 1) as [e|] eqn:E1.
    - assert (P : pmul dbg live C (inj c (f 1)) s = mulloop dbg live C (zbits (fval s)) (inj c (f 0)) (inj c (f 1))).
      { unfold pmul. rewrite E1, f_0. destruct e as [x y]. reflexivity. }
      rewrite E1 in P. rewrite P, <- E1.
      rewrite mulloop_sim by (try lia; try (apply L; discriminate); rewrite E1; discriminate).
      rewrite bval_zbits by exact S. apply (f_equal (fun z => Ok (inj c (f z)))). lia.
    - rewrite N by reflexivity. reflexivity.
  Qed.
End Sim.

(** ** The node on secp256r1 *)
Section Node.
  Variable C : cparams.
  Hypothesis HC : good C.
  Notation p := (c_prime C).
  Notation vanishes := (vanishes C).
  Notation quadratic := (quadratic C).
  Notation node := (fun live => node live C).
  Notation stray := (stray C).
  Notation generic := (generic C).
  Hypothesis p_gt3 : 3 < p.
  Hypothesis Ha : (p | c_a C + 3).
  Notation mk := (mk p).
  Declare Scope nd_scope.
  Notation "0" := (f0 p) : nd_scope.
  Notation "1" := (f1 p) : nd_scope.
  Infix "+" := (fadd p) : nd_scope.
  Infix "*" := (fmul p) : nd_scope.
  Infix "-" := (fsub p) : nd_scope.
  Infix "/" := (fdiv p) : nd_scope.
  Notation "- x" := (fopp p x) : nd_scope.
  Delimit Scope nd_scope with nd.
  Let Hp : prime p := g_prime C HC.
  Let HF := field_Fp p Hp.
  Let two_nz := isnice_two C HC.
  Add Field NodeField : HF.

  Lemma vanishes_mk z : vanishes z <-> mk z = 0%nd.
  Proof. symmetry. apply (mk_0_iff p Hp). Qed.
  Lemma vanishes_eq x y : vanishes (x - y) <-> mk x = mk y.
  Proof.
    rewrite vanishes_mk, <- mk_sub. split; intros E.
    - transitivity ((mk x - mk y) + mk y)%nd; [ring|]. rewrite E. ring.
    - rewrite E. ring.
  Qed.
  Lemma three_nz : (1 + 1 + 1)%nd <> f0 p.
  Proof.
    unfold f1. rewrite !mk_add. intros E. apply (mk_0_iff p Hp) in E. apply Z.divide_pos_le in E; lia.
  Qed.
  Lemma a_m3 : mk (c_a C) = (- (1 + 1 + 1))%nd.
  Proof.
    unfold f1. rewrite !mk_add, mk_opp. apply vanishes_eq. unfold SpecOff.vanishes. replace (c_a C - _) with (c_a C + 3) by lia. exact Ha.
  Qed.

  Lemma pow_cong x y k m : 0 < m -> x mod m = y mod m -> (x ^ k) mod m = (y ^ k) mod m.
  Proof. intros M E. rewrite (Zpower_mod x), (Zpower_mod y), E by exact M. reflexivity. Qed.

  (** -1 is not a square *)
  Lemma no_root r : (r * r)%nd <> (- (1))%nd.
  Proof.
    intros E. assert (R : r <> 0%nd).
    { intros ->. apply (F_1_neq_0 HF). transitivity (- (0 * 0))%nd; [rewrite E; ring|ring]. }
    assert (N : ~ (p | val p r)) by (intros D; apply R; apply (mk_0_iff p Hp) in D; rewrite mk_val in D; exact D).
    pose proof (fermat p (val p r) Hp N) as FE.
    pose proof (g_p34 C HC) as P4. pose proof (Z.div_mod p 4 ltac:(lia)) as D4. rewrite P4 in D4. set (k := p / 4) in *.
    assert (K : p - 1 = 2 * (2 * k + 1)) by lia. assert (K0 : 0 <= k) by lia. clearbody k.
    rewrite K, Z.pow_mul_r in FE by lia.
    assert (S : (val p r ^ 2) mod p = (-1) mod p).
    { rewrite Z.pow_2_r. apply mk_eq_inv. rewrite <- mk_mul, mk_val, E. unfold f1. rewrite mk_opp. reflexivity. }
    rewrite (pow_cong _ _ (2 * k + 1) p ltac:(lia) S) in FE.
    replace ((-1) ^ (2 * k + 1)) with (-1) in FE.
    2:{ rewrite Z.pow_add_r, Z.pow_mul_r by lia. change ((-1) ^ 2) with 1. rewrite Z.pow_1_l by lia. reflexivity. }
    replace (-1) with (p - 1 + -1 * p) in FE by lia. rewrite Z_mod_plus_full, Z.mod_small in FE by lia. lia.
  Qed.

  Variables (dbg : bool) (live : Z -> bool) (w : Z).
  Hypothesis Hw : vanishes (w * w + 3).
  Notation nod := (nodal (Fp p) (f1 p) (fadd p) (fmul p) (fsub p) (fdiv p) (eqFp p) (mk w)).
  Notation slope := (slope (Fp p) (f1 p) (fadd p) (fmul p) (fsub p) (fdiv p) (mk w)).
  Lemma W : (mk w * mk w)%nd = (- (1 + 1 + 1))%nd.
  Proof.
    apply vanishes_mk in Hw. rewrite <- mk_add, <- mk_mul in Hw. rewrite (mk3 C : mk 3 = _) in Hw.
    transitivity ((mk w * mk w + (1 + 1 + 1)) - (1 + 1 + 1))%nd; [ring|]. rewrite Hw. ring.
  Qed.

  (** squares *)
  Definition sq (u : Fp p) : Prop := exists r, r <> 0%nd /\ u = (r * r)%nd.
  Lemma sq_nz u : sq u -> u <> 0%nd.
  Proof. intros [r [N ->]] E. apply (fmul_0 p Hp) in E. tauto. Qed.
  Lemma sq_m1 u : sq u -> u <> (- (1))%nd.
  Proof. intros [r [N ->]]. apply no_root. Qed.
  Lemma sq_1 : sq 1%nd.
  Proof. exists 1%nd. split; [apply (F_1_neq_0 HF)|ring]. Qed.
  Lemma sq_mul u v : sq u -> sq v -> sq (u * v)%nd.
  Proof.
    intros [r [N ->]] [r' [N' ->]]. exists (r * r')%nd. split; [|ring]. intros E. apply (fmul_0 p Hp) in E. tauto.
  Qed.
  Lemma sq_div u v : sq u -> sq v -> sq (u / v)%nd.
  Proof.
    intros [r [N ->]] [r' [N' ->]]. exists (r / r')%nd. split.
    - intros E. apply N. transitivity ((r / r') * r')%nd; [field; exact N'|]. rewrite E. ring.
    - field. exact N'.
  Qed.
  Lemma quadratic_sq u : quadratic u <-> sq (mk u).
  Proof.
    split.
    - intros [r [N E]]. exists (mk r). split; [intros Z; apply N, vanishes_mk, Z|]. apply vanishes_eq in E. rewrite E, mk_mul. reflexivity.
    - intros [r [N E]]. exists (val p r). split; [intros D; apply N; apply vanishes_mk in D; rewrite mk_val in D; exact D|].
      apply vanishes_eq. rewrite E, <- mk_mul, mk_val. reflexivity.
  Qed.
  Lemma sq_pow u k : 0 <= k -> sq (mk u) -> sq (mk (u ^ k)).
  Proof.
    intros K S. revert k K. apply natlike_ind; [apply sq_1|]. intros k K IH. rewrite Z.pow_succ_r, <- mk_mul by exact K.
    apply sq_mul; assumption.
  Qed.

  Lemma nod_add u v : u <> 0%nd -> v <> 0%nd -> u <> (- (1))%nd -> eadd p (c_a C) (nod u) (nod v) = nod (u * v)%nd.
  Proof.
    intros U V U1. unfold eadd.
    exact (nodal_add _ _ _ _ _ _ _ _ _ HF (eqFp p) (mk (c_a C)) two_nz (mk w) W three_nz a_m3 u v U V U1).
  Qed.
  Lemma nod_None u : nod u = None <-> u = 1%nd.
  Proof.
    unfold nodal. destruct (eqFp p u (f1 p)) as [->|N]; [split; reflexivity|]. split; [discriminate|contradiction].
  Qed.
  Lemma nod_ne u : u <> 1%nd -> nod u = Some ((slope u * slope u + (1 + 1))%nd, (slope u * (slope u * slope u + (1 + 1 + 1)))%nd).
  Proof. intros N. unfold nodal. destruct (eqFp p u (f1 p)); [contradiction|reflexivity]. Qed.
  Lemma slope_minus_nz u : u <> 1%nd -> (slope u - mk w)%nd <> f0 p.
  Proof. exact (slope_minus _ _ _ _ _ _ _ _ _ HF (eqFp p) two_nz (mk w) W three_nz u). Qed.
  Lemma slope_x_nz u : u <> 1%nd -> u <> f0 p -> (slope u * slope u + (1 + 1 + 1))%nd <> f0 p.
  Proof. exact (slope_x _ _ _ _ _ _ _ _ _ HF (eqFp p) two_nz (mk w) W three_nz u). Qed.
  Lemma slope_ratio' u : u <> 1%nd -> (slope u + mk w)%nd = (u * (slope u - mk w))%nd.
  Proof. exact (slope_ratio _ _ _ _ _ _ _ _ _ HF (mk w) u). Qed.
  Lemma slope_inj' u v : u <> 1%nd -> v <> 1%nd -> slope u = slope v -> u = v.
  Proof. exact (slope_inj _ _ _ _ _ _ _ _ _ HF (eqFp p) two_nz (mk w) W three_nz u v). Qed.
  Lemma slope_zero' u : u <> 1%nd -> slope u = 0%nd -> u = (- (1))%nd.
  Proof. exact (slope_zero _ _ _ _ _ _ _ _ _ HF (eqFp p) (mk w) W three_nz u). Qed.
  Lemma w_nz' : mk w <> f0 p.
  Proof. exact (w_nz _ _ _ _ _ _ _ _ _ HF (mk w) W three_nz). Qed.
  Lemma nod_y u : sq u -> ynz C (nod u).
  Proof.
    intros S. destruct (eqFp p u (f1 p)) as [->|N].
    - rewrite (proj2 (nod_None _) eq_refl). exact I.
    - rewrite (nod_ne u N). cbn [ynz]. intros E. apply (fmul_0 p Hp) in E. destruct E as [E|E].
      + apply (sq_m1 u S), (slope_zero' u N E).
      + exact (slope_x_nz u N (sq_nz u S) E).
  Qed.
  Lemma nod_inj u v : u <> 0%nd -> v <> 0%nd -> nod u = nod v -> u = v.
  Proof.
    intros U V E. destruct (eqFp p u (f1 p)) as [->|NU].
    { rewrite (proj2 (nod_None _) eq_refl) in E. symmetry in E. apply nod_None in E. symmetry. exact E. }
    destruct (eqFp p v (f1 p)) as [->|NV].
    { rewrite (proj2 (nod_None _) eq_refl) in E. apply nod_None in E. contradiction. }
    rewrite (nod_ne u NU), (nod_ne v NV) in E.
    pose proof (f_equal (fun o => match o with Some (x, _) => x | None => f0 p end) E) as EX.
    pose proof (f_equal (fun o => match o with Some (_, y) => y | None => f0 p end) E) as EY. cbv beta iota in EX, EY.
    assert (S : (slope u * slope u)%nd = (slope v * slope v)%nd).
    { transitivity ((slope u * slope u + (1 + 1)) - (1 + 1))%nd; [ring|]. rewrite EX. ring. }
    apply (slope_inj' u v NU NV). pose proof (slope_x_nz u NU U) as X. rewrite S in EY. rewrite S in X.
    set (d := (slope v * slope v + (1 + 1 + 1))%nd) in *. clearbody d.
    transitivity (slope u * d / d)%nd; [field; exact X|]. rewrite EY. field. exact X.
  Qed.

  (** representation of the points of the specification *)
  Lemma node_inj u P : node live w u P -> mk u <> 0%nd /\ exists c, lv live C (nod (mk u)) c /\ P = inj C c (nod (mk u)).
  Proof.
    intros [[-> D]|(PL & EQ & NX & R)].
    - apply vanishes_eq in D. change (mk 1) with (f1 p) in D. rewrite D, (proj2 (nod_None _) eq_refl).
      split; [apply (F_1_neq_0 HF)|]. exists 0. split; [intros N; contradiction|reflexivity].
    - destruct P as [X Y i q0]. destruct PL as (I & CX & CY & c & PC & L). cbn [pinf px py pcur] in *. subst i q0.
      set (x := mk (fval X)). set (y := mk (fval Y)).
      assert (EX : X = emb C x) by (apply (emb_surj C HC); exact CX).
      assert (EY : Y = emb C y) by (apply (emb_surj C HC); exact CY).
      assert (M2 : mk 2 = (1 + 1)%nd) by exact (mk2 C).
      assert (M1 : mk 1 = 1%nd) by reflexivity.
      rewrite vanishes_mk, <- !mk_sub, <- !mk_mul, <- !mk_add, <- mk_sub, M2, M1 in EQ. fold x y in EQ.
      rewrite vanishes_mk, <- mk_add, M1 in NX. fold x in NX.
      rewrite vanishes_mk, <- !mk_sub, <- mk_mul, <- mk_sub, <- mk_add, <- !mk_mul, <- !mk_add, M1 in R. fold x y in R.
      set (t := (y / (x + 1))%nd).
      assert (YT : y = (t * (x + 1))%nd) by (unfold t; field; exact NX).
      assert (XT : x = (t * t + (1 + 1))%nd).
      { assert (Z : ((x + 1) * (x + 1) * (t * t - (x - (1 + 1))))%nd = f0 p).
        { rewrite <- EQ, YT. ring. }
        apply (fmul_0 p Hp) in Z. destruct Z as [Z|Z]; [apply (fmul_0 p Hp) in Z; tauto|].
        transitivity (t * t + (1 + 1) - (t * t - (x - (1 + 1))))%nd; [ring|]. rewrite Z. ring. }
      assert (RT : (mk u * (t - mk w) - (t + mk w))%nd = f0 p).
      { assert (Z : ((x + 1) * (mk u * (t - mk w) - (t + mk w)))%nd = f0 p) by (rewrite <- R, YT; ring).
        apply (fmul_0 p Hp) in Z. tauto. }
      assert (U1 : mk u <> 1%nd).
      { intros E. rewrite E in RT. assert (Z : ((1 + 1) * mk w)%nd = f0 p).
        { transitivity (- (1 * (t - mk w) - (t + mk w)))%nd; [ring|]. rewrite RT. ring. }
        apply (fmul_0 p Hp) in Z. destruct Z as [Z|Z]; [exact (two_nz Z)|exact (w_nz' Z)]. }
      assert (U1' : (mk u - 1)%nd <> f0 p).
      { intros E. apply U1. transitivity ((mk u - 1) + 1)%nd; [ring|]. rewrite E. ring. }
      assert (TS : t = slope (mk u)).
      { unfold OffMath.slope. assert (Z : (t * (mk u - 1))%nd = (mk w * (mk u + 1))%nd).
        { transitivity ((mk u * (t - mk w) - (t + mk w)) + mk w * (mk u + 1))%nd; [ring|]. rewrite RT. ring. }
        rewrite <- Z. field. exact U1'. }
      split.
      + intros U0. rewrite U0 in RT. apply NX. rewrite XT.
        assert (TW : t = (- mk w)%nd). { transitivity (- (0 * (t - mk w) - (t + mk w)) - mk w)%nd; [ring|]. rewrite RT. ring. }
        rewrite TW. transitivity (mk w * mk w + (1 + 1 + 1))%nd; [ring|]. rewrite W. ring.
      + exists c. split; [intros _; exact L|]. rewrite (nod_ne _ U1), <- TS. cbn [inj].
        rewrite EX, EY, YT. f_equal; apply (f_equal (emb C)).
        * exact XT.
        * rewrite XT. ring.
  Qed.
  Lemma inj_node U c : U <> 0%nd -> lv live C (nod U) c -> node live w (val p U) (inj C c (nod U)).
  Proof.
    intros U0 L. destruct (eqFp p U (f1 p)) as [->|N].
    - left. split; [rewrite (proj2 (nod_None _) eq_refl); reflexivity|]. apply vanishes_eq. rewrite mk_val. reflexivity.
    - right. rewrite (nod_ne U N) in *. cbn [inj px py]. set (t := slope U) in *.
      set (x := (t * t + (1 + 1))%nd). set (y := (t * (t * t + (1 + 1 + 1)))%nd). cbn [emb fval].
      assert (M2 : mk 2 = (1 + 1)%nd) by exact (mk2 C).
      assert (M1 : mk 1 = 1%nd) by reflexivity.
      split; [|split; [|split]].
      + split; [reflexivity|]. split; [apply (emb_canon C HC)|]. split; [apply (emb_canon C HC)|]. exists c. split; [reflexivity|]. apply L. discriminate.
      + rewrite vanishes_mk, <- !mk_sub, <- !mk_mul, <- !mk_add, <- mk_sub, M2, M1, !mk_val. unfold x, y. ring.
      + rewrite vanishes_mk, <- mk_add, M1, mk_val. intros E. apply (slope_x_nz U N U0). fold t. rewrite <- E. unfold x. ring.
      + rewrite vanishes_mk, <- !mk_sub, <- mk_mul, <- mk_sub, <- mk_add, <- !mk_mul, <- !mk_add, M1, !mk_val.
        pose proof (slope_ratio' U N) as R. fold t in R. transitivity ((x + 1) * (U * (t - mk w) - (t + mk w)))%nd; [unfold x, y; ring|].
        rewrite R. ring.
  Qed.
  Lemma node_eq u v P : vanishes (u - v) -> node live w u P -> node live w v P.
  Proof.
    intros D H. apply vanishes_eq in D. destruct H as [[-> E]|(PL & EQ & NX & R)].
    - left. split; [reflexivity|]. apply vanishes_eq. apply vanishes_eq in E. rewrite <- D. exact E.
    - right. split; [exact PL|]. split; [exact EQ|]. split; [exact NX|].
      rewrite vanishes_mk, <- mk_sub, <- mk_mul in *. rewrite <- D. exact R.
  Qed.
  Lemma inj_node' u c : mk u <> 0%nd -> lv live C (nod (mk u)) c -> node live w u (inj C c (nod (mk u))).
  Proof.
    intros U L. apply (node_eq (val p (mk u))); [apply vanishes_eq, mk_val|]. apply inj_node; assumption.
  Qed.

  Lemma pmul_nod u c s : sq (mk u) -> lv live C (nod (mk u)) c -> 0 <= fval s ->
    pmul dbg live C (inj C c (nod (mk u))) s = Ok (inj C c (nod (mk (u ^ fval s)))).
  Proof.
    intros Q L S. set (f := fun i => nod (mk (u ^ i))).
    assert (F1 : nod (mk u) = f 1) by (unfold f; rewrite Z.pow_1_r; reflexivity).
    assert (SQ : forall i, 0 <= i -> sq (mk (u ^ i))) by (intros; apply sq_pow; assumption).
    rewrite F1 in *. apply (pmul_sim dbg live C HC f).
    - intros i j Hi Hj. unfold f. rewrite nod_add by (try apply sq_nz; try apply sq_m1; apply SQ; assumption).
      rewrite mk_mul, <- Z.pow_add_r by assumption. reflexivity.
    - intros i Hi. apply nod_y, SQ, Hi.
    - intros i Hi Ni E. apply Ni. apply nod_None. apply nod_None in E.
      rewrite Z.mul_comm, Z.pow_mul_r, Z.pow_2_r, <- mk_mul in E by lia.
      destruct (squares _ _ _ _ _ _ _ _ _ HF (eqFp p) (mk (u ^ i)) (f1 p)) as [G|G]; [rewrite E; ring|exact G|].
      destruct (sq_m1 _ (SQ i Hi) G).
    - apply nod_None. reflexivity.
    - exact L.
    - exact S.
    - intros E. apply nod_None in E. apply nod_None. rewrite Z.pow_1_r in E.
      apply mk_eq_inv in E. apply mk_eq. rewrite (pow_cong _ _ (fval s) p ltac:(lia) E), Z.pow_1_l by exact S. reflexivity.
  Qed.
  Lemma lv_pow u c k : 0 <= k -> lv live C (nod (mk u)) c -> lv live C (nod (mk (u ^ k))) c.
  Proof.
    intros S L NN. apply L. intros E. apply NN. apply nod_None in E. apply nod_None.
    apply mk_eq_inv in E. apply mk_eq. rewrite (pow_cong _ _ k p ltac:(lia) E), Z.pow_1_l by exact S. reflexivity.
  Qed.
  Lemma L_power u P s : quadratic u -> node live w u P -> 0 <= fval s ->
    exists R, pmul dbg live C P s = Ok R /\ node live w (u ^ fval s) R.
  Proof.
    intros Q N S. apply quadratic_sq in Q. destruct (node_inj u P N) as (U0 & c & L & ->).
    eexists. split; [apply pmul_nod; assumption|]. apply inj_node'; [apply sq_nz, sq_pow; assumption|apply lv_pow; assumption].
  Qed.

  Lemma xy_nz u : u <> 1%nd -> u <> f0 p ->
    (slope u * slope u + (1 + 1))%nd = f0 p -> (slope u * (slope u * slope u + (1 + 1 + 1)))%nd <> f0 p.
  Proof.
    intros N U EX EY. apply (fmul_0 p Hp) in EY. destruct EY as [E|E]; [|exact (slope_x_nz u N U E)].
    rewrite E in EX. apply two_nz. rewrite <- EX. ring.
  Qed.
  Lemma L_unique u v P Q : node live w u P -> node live w v Q ->
    exists b, peq live C P Q = Ok b /\ (b = true <-> vanishes (u - v)).
  Proof.
    intros NP NQ. destruct (node_inj u P NP) as (U0 & c & L & ->). destruct (node_inj v Q NQ) as (V0 & d & L' & ->).
    assert (D : vanishes (u - v) <-> nod (mk u) = nod (mk v)).
    { rewrite vanishes_eq. split; [intros ->; reflexivity|apply nod_inj; assumption]. }
    clear NP NQ. set (U := mk u) in *. set (V := mk v) in *. clearbody U V.
    destruct (eqFp p U (f1 p)) as [->|NU]; destruct (eqFp p V (f1 p)) as [->|NV].
    - exists true. rewrite (proj2 (nod_None _) eq_refl) in *. split; [reflexivity|tauto].
    - exists false. rewrite (proj2 (nod_None _) eq_refl) in *. rewrite (nod_ne V NV) in *. split.
      2:{ split; [discriminate|]. intros E. apply D in E. discriminate. }
      unfold peq. cbn [inj pinf pt_inf andb px py]. rewrite (emb_default C), !(emb_eq C HC).
      destruct (eqFp p (f0 p) _) as [E|_]; [|reflexivity]. cbn [negb].
      destruct (eqFp p (f0 p) _) as [E'|_]; [|reflexivity]. exfalso. symmetry in E, E'. exact (xy_nz V NV V0 E E').
    - exists false. rewrite (proj2 (nod_None _) eq_refl) in *. rewrite (nod_ne U NU) in *. split.
      2:{ split; [discriminate|]. intros E. apply D in E. discriminate. }
      unfold peq. cbn [inj pinf pt_inf andb px py]. rewrite (emb_default C), !(emb_eq C HC).
      destruct (eqFp p _ (f0 p)) as [E|_]; [|reflexivity]. cbn [negb].
      destruct (eqFp p _ (f0 p)) as [E'|_]; [|reflexivity]. exfalso. exact (xy_nz U NU U0 E E').
    - rewrite (nod_ne U NU), (nod_ne V NV) in *. cbn [inj]. unfold peq. cbn [pinf andb px py pcur]. rewrite !(emb_eq C HC).
      destruct (eqFp p _ _) as [E|E]; cbn [negb].
      2:{ exists false. split; [reflexivity|]. split; [discriminate|]. intros V'. apply D in V'. exfalso. apply E.
          exact (f_equal (fun o => match o with Some (x, _) => x | None => f0 p end) V'). }
      destruct (eqFp p _ _) as [E'|E']; cbn [negb].
      2:{ exists false. split; [reflexivity|]. split; [discriminate|]. intros V'. apply D in V'. exfalso. apply E'.
          exact (f_equal (fun o => match o with Some (_, y) => y | None => f0 p end) V'). }
      exists true. unfold deref. rewrite L, L' by discriminate. cbn [bind]. rewrite curve_eq_refl. split; [reflexivity|].
      split; [|reflexivity]. intros _. apply D. rewrite E, E'. reflexivity.
  Qed.

  Lemma L_detected u P : ~ (p | c_b C + 2) -> node live w u P -> isValid dbg live C P = Ok (pinf P).
  Proof.
    intros B N. destruct (node_inj u P N) as (U0 & c & L & ->). destruct (eqFp p (mk u) (f1 p)) as [E|NU].
    - rewrite (proj2 (nod_None _) E). reflexivity.
    - rewrite (nod_ne _ NU) in *. cbn [inj pinf]. rewrite (isValid_emb dbg live C HC), L by discriminate.
      destruct (eqFp p _ _) as [E|_]; [|reflexivity]. exfalso. unfold rhsF in E. rewrite a_m3 in E.
      set (t := slope (mk u)) in *.
      assert (Z : mk (c_b C + 2) = f0 p).
      { rewrite <- mk_add, (mk2 C : mk 2 = (1 + 1)%nd).
        set (x := (t * t + (1 + 1))%nd) in *.
        transitivity ((x * x * x + - (1 + 1 + 1) * x + mk (c_b C)) - (x * x * x + - (1 + 1 + 1) * x - (1 + 1)))%nd; [ring|].
        rewrite <- E. unfold x. ring. }
      apply (mk_0_iff p Hp) in Z. contradiction.
  Qed.

  Lemma eneg_nod u : u <> 0%nd -> eneg p (nod u) = nod (1 / u)%nd.
  Proof.
    intros U. destruct (eqFp p u (f1 p)) as [->|N].
    - replace (1 / 1)%nd with (f1 p) by (field; apply (F_1_neq_0 HF)). rewrite (proj2 (nod_None _) eq_refl). reflexivity.
    - assert (N' : (1 / u)%nd <> f1 p).
      { intros E. apply N. transitivity (u * (1 / u))%nd; [rewrite E; ring|field; exact U]. }
      rewrite (nod_ne u N), (nod_ne _ N').
      assert (M : (u - 1)%nd <> f0 p) by (intros E; apply N; transitivity ((u - 1) + 1)%nd; [ring|rewrite E; ring]).
      assert (M' : (1 - u)%nd <> f0 p) by (intros E; apply M; transitivity (- (1 - u))%nd; [ring|rewrite E; ring]).
      assert (S : slope (1 / u)%nd = (- slope u)%nd).
      { unfold OffMath.slope. field. split; [exact M|]. split; [exact U|exact M']. }
      rewrite S. unfold eneg, neg. apply (f_equal Some). apply f_equal2; ring.
  Qed.
  Lemma psub_y E x y c c' : E <> None -> lv live C E c -> live c' = true -> ynz C E ->
    psub dbg live C (inj C c E) (inj C c' (Some (x, y))) = Ok (inj C c (eadd p (c_a C) E (eneg p (Some (x, y))))).
  Proof.
    intros N L L' Y. unfold psub. destruct E as [[x1 y1]|]; [|contradiction]. cbn [inj].
    rewrite assert_same_curve_inj, L, L', orb_true_r by discriminate. cbn [bind px py pcur].
    rewrite (emb_new C HC), (emb_sub dbg C HC). cbn [bind].
    replace (mk 0 - y)%nd with (- y)%nd by (change (mk 0) with (f0 p); ring).
    pose proof (padd_y dbg live C HC (Some (x1, y1)) (eneg p (Some (x, y))) c c L (fun _ => L ltac:(discriminate)) Y) as A.
    cbn [inj ECOrder.eneg neg EccProofs.pick] in A. unfold pt_fe. rewrite A. reflexivity.
  Qed.
  Lemma inv_nz z : z <> 0%nd -> (1 / z)%nd <> f0 p.
  Proof.
    intros Z0 E. apply (F_1_neq_0 HF). transitivity ((1 / z) * z)%nd; [field; exact Z0|]. rewrite E. ring.
  Qed.
  Lemma psub_nod v z c d : sq v -> sq z -> v <> 1%nd -> z <> 1%nd -> live c = true -> live d = true ->
    psub dbg live C (inj C c (nod v)) (inj C d (nod z)) = Ok (inj C c (nod (v / z)%nd)).
  Proof.
    intros V Z NV NZ L L'. pose proof (sq_nz z Z) as Z0. pose proof (sq_nz v V) as V0.
    assert (NV' : nod v <> None) by (intros E; apply nod_None in E; contradiction).
    assert (NZ' : nod z <> None) by (intros E; apply nod_None in E; contradiction).
    destruct (nod z) as [[x y]|] eqn:EZ; [|contradiction]. rewrite psub_y; [|exact NV'|intros _; exact L|exact L'|apply nod_y; exact V].
    rewrite <- EZ, eneg_nod by exact Z0.
    rewrite nod_add; [|exact V0|exact (inv_nz z Z0)|apply sq_m1; exact V].
    replace (v * (1 / z))%nd with (v / z)%nd by (field; exact Z0). reflexivity.
  Qed.

  (** ** Decryption *)
  Notation probing := (probing live C w).
  Notation dec sk c := (do us <- pmul dbg live C (cu c) sk; psub dbg live C (cmv c) us).

  Lemma node_not_stray u P : node live w u P -> ~ stray P.
  Proof.
    intros [[-> _]|(_ & E & _)] [I N]; [discriminate I|]. exact (N E).
  Qed.

  Lemma psub_nod_inf x y c : dbg = false -> live c = true -> y <> f0 p -> x <> f0 p -> (x * x * x + (1 + 1 + 1) * x + (1 + 1))%nd <> f0 p ->
    (y * y)%nd = ((x + 1) * (x + 1) * (x - (1 + 1)))%nd ->
    exists E, psub dbg live C (inj C c (Some (x, y))) (pt_inf C) = Ok (inj C c E) /\ stray (inj C c E).
  Proof.
    intros D L Y0 X0 G EQ. unfold psub.
    assert (A : padd false live C (inj C c (Some (x, y))) (inj C c (Some (f0 p, f0 p))) =
                Ok (inj C c (eadd p (c_a C) (Some (x, y)) (Some (f0 p, f0 p))))).
    { apply (padd_y false live C HC (Some (x, y)) (Some (f0 p, f0 p)) c c); try (intros _; exact L). exact Y0. }
    pose proof (emb_sub dbg C HC) as ES. rewrite D in *. cbn [assert_same_curve bind inj pt_inf py px pcur] in *.
    rewrite (emb_new C HC), (emb_default C), ES. cbn [bind].
    replace (mk 0 - 0)%nd with (f0 p) by (change (mk 0) with (f0 p); ring).
    unfold pt_fe. rewrite A. unfold eadd, add. destruct (eqFp p x (f0 p)) as [E|_]; [contradiction|].
    unfold chord_slope, third. eexists. split; [reflexivity|]. cbn [inj].
    set (l := ((y - 0) / (x - 0))%nd).
    assert (LY : (l * x)%nd = y) by (unfold l; field; intros E; apply X0; rewrite <- E; ring).
    set (x3 := (l * l - x - 0)%nd). split; [reflexivity|]. cbn [px py emb fval].
    assert (M2 : mk 2 = (1 + 1)%nd) by exact (mk2 C).
    assert (M1 : mk 1 = 1%nd) by reflexivity.
    rewrite vanishes_mk, <- !mk_sub, <- !mk_mul, <- !mk_add, <- mk_sub, M2, M1, !mk_val. intros E.
    assert (LL : (l * l)%nd = (x + x3)%nd) by (unfold x3; ring).
    assert (H1 : (x3 * (x * x) + (1 + 1 + 1) * x + (1 + 1))%nd = f0 p).
    { transitivity ((l * x) * (l * x) - (x * x * x - (1 + 1 + 1) * x - (1 + 1)))%nd.
      - transitivity ((l * l) * (x * x) - (x * x * x - (1 + 1 + 1) * x - (1 + 1)))%nd; [rewrite LL; ring|ring].
      - rewrite LY, EQ. ring. }
    assert (H2 : (x * (x3 * x3) + (1 + 1 + 1) * x3 + (1 + 1))%nd = f0 p).
    { rewrite <- LY in E. rewrite <- E.
      transitivity ((l * l) * (x3 * x3) - (x3 + 1) * (x3 + 1) * (x3 - (1 + 1)))%nd; [rewrite LL; ring|ring]. }
    assert (H3 : ((1 + 1) * (x - x3))%nd = f0 p).
    { transitivity (x * (x * (x3 * x3) + (1 + 1 + 1) * x3 + (1 + 1)) - x3 * (x3 * (x * x) + (1 + 1 + 1) * x + (1 + 1)))%nd; [ring|].
      rewrite H1, H2. ring. }
    apply (fmul_0 p Hp) in H3. destruct H3 as [H3|H3]; [exact (two_nz H3)|].
    apply G. rewrite <- H1. assert (E3 : x3 = x) by (transitivity (x - (x - x3))%nd; [ring|rewrite H3; ring]). rewrite E3. ring.
  Qed.

  (** the multiple does not vanish with the ratio *)
  Lemma dec_finite u v sk c a b : sq (mk u) -> sq (mk v) -> lv live C (nod (mk u)) a -> live b = true -> mk v <> 1%nd -> 0 <= fval sk ->
    cu c = inj C a (nod (mk u)) -> cmv c = inj C b (nod (mk v)) -> mk (u ^ fval sk) <> 1%nd ->
    dec sk c = Ok (inj C b (nod (mk v / mk (u ^ fval sk))%nd)).
  Proof.
    intros QU QV L L' NV S EU EV N. rewrite EU, EV, pmul_nod by assumption. cbn [bind].
    apply psub_nod; try assumption; [apply sq_pow; assumption|].
    apply (lv_pow u a (fval sk) S L). intros E. apply N. apply nod_None. exact E.
  Qed.

  Lemma probing_inv u v c : probing u v c ->
    sq (mk u) /\ sq (mk v) /\ mk v <> 1%nd /\ exists a b, lv live C (nod (mk u)) a /\ live b = true /\ cu c = inj C a (nod (mk u)) /\ cmv c = inj C b (nod (mk v)).
  Proof.
    intros (QU & QV & NU & NV & F). split; [apply quadratic_sq, QU|]. split; [apply quadratic_sq, QV|].
    destruct (node_inj _ _ NU) as (_ & a & La & Ea). destruct (node_inj _ _ NV) as (_ & b & Lb & Eb).
    assert (N : mk v <> 1%nd). { intros E. rewrite (proj2 (nod_None _) E) in Eb. rewrite Eb in F. discriminate F. }
    split; [exact N|]. exists a, b. split; [exact La|]. split; [|split; [exact Ea|exact Eb]].
    apply Lb. intros E. apply N, nod_None, E.
  Qed.

  Lemma L_decrypt u v sk c : probing u v c -> 0 <= fval sk -> ~ vanishes (u ^ fval sk - 1) ->
    exists R z, dec sk c = Ok R /\ node live w z R /\ vanishes (z * u ^ fval sk - v).
  Proof.
    intros PR S N1. destruct (probing_inv u v c PR) as (QU & QV & NV & a & b & La & Lb & EU & EV).
    rewrite vanishes_eq in N1. change (mk 1) with (f1 p) in N1.
    pose proof (sq_nz _ (sq_pow u _ S QU)) as Z0.
    eexists. exists (val p (mk v / mk (u ^ fval sk))%nd). split; [apply (dec_finite u v sk c a b); assumption|]. split.
    - apply inj_node; [apply sq_nz, sq_div; [exact QV|apply sq_pow; assumption]|intros _; exact Lb].
    - apply vanishes_eq. rewrite <- mk_mul, mk_val. field. exact Z0.
  Qed.
  Lemma dec_inf u v sk c a b : sq (mk u) -> lv live C (nod (mk u)) a -> 0 <= fval sk ->
    cu c = inj C a (nod (mk u)) -> cmv c = inj C b (nod (mk v)) -> mk (u ^ fval sk) = 1%nd ->
    dec sk c = psub dbg live C (cmv c) (pt_inf C).
  Proof.
    intros QU L S EU EV N. rewrite EU, pmul_nod by assumption. cbn [bind]. rewrite (proj2 (nod_None _) N). reflexivity.
  Qed.
  Lemma L_decrypt_inf' u v sk c a b : probing u v c -> 0 <= fval sk -> vanishes (u ^ fval sk - 1) ->
    lv live C (nod (mk u)) a -> live b = true -> cu c = inj C a (nod (mk u)) -> cmv c = inj C b (nod (mk v)) ->
    if dbg then dec sk c = Err NullDeref else generic c -> exists E, dec sk c = Ok (inj C b E) /\ stray (inj C b E).
  Proof.
    intros PR S N1 La Lb EU EV. destruct (probing_inv u v c PR) as (QU & QV & NV & _).
    apply vanishes_eq in N1. change (mk 1) with (f1 p) in N1.
    pose proof (dec_inf u v sk c a b QU La S EU EV N1) as E. rewrite E.
    pose proof (nod_y _ QV) as Y. rewrite EV. unfold generic. rewrite EV. rewrite (nod_ne _ NV) in *. set (t := slope (mk v)) in *.
    destruct dbg eqn:DB.
    - unfold psub, assert_same_curve. cbn [inj pcur pt_inf]. unfold deref. rewrite Lb. reflexivity.
    - intros G. cbn [inj px emb fval] in G. destruct G as [G1 G2].
      rewrite <- DB. apply psub_nod_inf; [exact DB|exact Lb|exact Y| | |].
      + intros Z. apply G1. apply vanishes_mk. rewrite mk_val. exact Z.
      + intros Z. apply G2. apply vanishes_mk. rewrite <- !mk_add, <- !mk_mul, !mk_val, (mk2 C : mk 2 = (1 + 1)%nd), (mk3 C : mk 3 = (1 + 1 + 1)%nd). exact Z.
      + ring.
  Qed.

  Lemma L_decrypt_inf u v sk c : probing u v c -> 0 <= fval sk -> vanishes (u ^ fval sk - 1) ->
    if dbg then dec sk c = Err NullDeref else generic c -> exists R, dec sk c = Ok R /\ stray R.
  Proof.
    intros PR S N1. destruct (probing_inv u v c PR) as (QU & QV & NV & a & b & La & Lb & EU & EV).
    pose proof (L_decrypt_inf' u v sk c a b PR S N1 La Lb EU EV) as H. destruct dbg; [exact H|].
    intros G. destruct (H G) as (E & EE & ST). exists (inj C b E). split; assumption.
  Qed.
  Lemma dec_form u v c : probing u v c -> generic c -> exists b, forall sk, 0 <= fval sk ->
    dec sk c = Err NullDeref \/ exists E, dec sk c = Ok (inj C b E).
  Proof.
    intros PR G. destruct (probing_inv u v c PR) as (QU & QV & NV & a & b & La & Lb & EU & EV). exists b. intros sk S.
    destruct (eqFp p (mk (u ^ fval sk)) (f1 p)) as [E|E].
    - assert (Z : vanishes (u ^ fval sk - 1)) by (apply vanishes_eq; exact E).
      pose proof (L_decrypt_inf' u v sk c a b PR S Z La Lb EU EV) as H. destruct dbg; [left; exact H|right].
      destruct (H G) as (X & EX & _). exists X. exact EX.
    - right. eexists. apply (dec_finite u v sk c a b); assumption.
  Qed.
  Lemma same_eq u v c sk sk' : probing u v c -> generic c -> 0 <= fval sk -> 0 <= fval sk' ->
    same (dec sk c) (dec sk' c) = true <-> dec sk c = dec sk' c.
  Proof.
    intros PR G S S'. destruct (dec_form u v c PR G) as (b & F).
    destruct (F sk S) as [->|[E ->]]; destruct (F sk' S') as [->|[E' ->]]; cbn [same].
    - split; reflexivity.
    - split; discriminate.
    - split; discriminate.
    - split.
      + intros H. apply andb_prop in H. destruct H as [H HY]. apply andb_prop in H. destruct H as [HI HX].
        apply Z.eqb_eq in HX, HY. destruct E as [[x y]|], E' as [[x' y']|]; try discriminate HI; [|reflexivity].
        cbn [inj px py emb fval] in HX, HY. apply val_inj in HX, HY. rewrite HX, HY. reflexivity.
      + intros H. assert (HP : inj C b E = inj C b E') by exact (f_equal (fun r => match r with Ok x => x | Err _ => inj C b E end) H).
        rewrite HP, eqb_reflx, !Z.eqb_refl. reflexivity.
  Qed.

  Lemma dec_cong u v sk sk' c : probing u v c -> 0 <= fval sk -> 0 <= fval sk' -> vanishes (u ^ fval sk - u ^ fval sk') -> dec sk c = dec sk' c.
  Proof.
    intros PR S S' E. destruct (probing_inv u v c PR) as (QU & QV & NV & a & b & La & Lb & EU & EV).
    apply vanishes_eq in E. rewrite EU, !pmul_nod by assumption. rewrite E. reflexivity.
  Qed.
  (** ratio of the answer *)
  Lemma node_ratio u v P : node live w u P -> node live w v P -> vanishes (u - v).
  Proof.
    intros N N'. destruct (L_unique u v P P N N') as (b & E & D). destruct (L_unique u u P P N N) as (b' & E' & D').
    apply D. assert (Ok b = Ok b') as G by (rewrite <- E, <- E'; reflexivity). replace b with b' by (symmetry; exact (f_equal (fun r => match r with Ok x => x | Err _ => b end) G)).
    apply D'. apply vanishes_eq. reflexivity.
  Qed.
  Lemma L_oracle u v sk sk' c : probing u v c -> generic c -> 0 <= fval sk -> 0 <= fval sk' ->
    dec sk c = dec sk' c <-> vanishes (u ^ fval sk - u ^ fval sk').
  Proof.
    intros PR G S S'. split; [|apply (dec_cong u v); assumption]. intros E.
    assert (EX : forall k, 0 <= k -> vanishes (u ^ k - 1) \/ ~ vanishes (u ^ k - 1)).
    { intros k _. rewrite vanishes_eq. destruct (eqFp p (mk (u ^ k)) (mk 1)); tauto. }
    pose proof (L_decrypt_inf u v sk c PR S) as I1. pose proof (L_decrypt_inf u v sk' c PR S') as I2.
    destruct (EX _ S) as [Z|Z]; destruct (EX _ S') as [Z'|Z'].
    - apply vanishes_eq in Z, Z'. apply vanishes_eq. rewrite Z, Z'. reflexivity.
    - exfalso. specialize (I1 Z). destruct (L_decrypt u v sk' c PR S' Z') as (R & z & ER & NR & _). rewrite <- E in ER.
      destruct dbg; [rewrite I1 in ER; discriminate ER|]. destruct (I1 G) as (R' & ER' & ST). rewrite ER' in ER.
      apply (node_not_stray z R NR). replace R with R' by exact (f_equal (fun r => match r with Ok x => x | Err _ => R end) ER). exact ST.
    - exfalso. specialize (I2 Z'). destruct (L_decrypt u v sk c PR S Z) as (R & z & ER & NR & _). rewrite E in ER.
      destruct dbg; [rewrite I2 in ER; discriminate ER|]. destruct (I2 G) as (R' & ER' & ST). rewrite ER' in ER.
      apply (node_not_stray z R NR). replace R with R' by exact (f_equal (fun r => match r with Ok x => x | Err _ => R end) ER). exact ST.
    - destruct (L_decrypt u v sk c PR S Z) as (R & z & ER & NR & EZ). destruct (L_decrypt u v sk' c PR S' Z') as (R' & z' & ER' & NR' & EZ').
      rewrite ER, ER' in E. assert (RR : R' = R) by exact (f_equal (fun r => match r with Ok x => x | Err _ => R end) (eq_sym E)).
      rewrite RR in NR'. pose proof (node_ratio _ _ _ NR NR') as ZZ. apply vanishes_eq in ZZ, EZ, EZ'. apply vanishes_eq.
      rewrite <- mk_mul in EZ, EZ'. rewrite ZZ in EZ. rewrite <- EZ' in EZ.
      destruct (node_inj _ _ NR') as (Z0 & _).
      set (X := mk (u ^ fval sk)) in *. set (Y := mk (u ^ fval sk')) in *. set (T := mk z') in *. clearbody X Y T.
      transitivity (T * X / T)%nd; [field; exact Z0|]. rewrite EZ. field. exact Z0.
  Qed.

  (** ** Small order *)
  Lemma odd_quadratic u m : 0 < m -> Z.odd m = true -> vanishes (u ^ m - 1) -> quadratic u.
  Proof.
    intros M O E. apply quadratic_sq. pose proof (Z.div2_odd m) as D. rewrite O in D. cbn [Z.b2z] in D. set (h := Z.div2 m) in *. clearbody h.
    apply vanishes_eq in E. change (mk 1) with (f1 p) in E. exists (mk (u ^ (h + 1))).
    assert (S : (mk (u ^ (h + 1)) * mk (u ^ (h + 1)))%nd = mk u).
    { rewrite mk_mul, <- Z.pow_add_r by lia. replace (h + 1 + (h + 1)) with (m + 1) by lia. rewrite Z.pow_add_r, Z.pow_1_r, <- mk_mul, E by lia. ring. }
    split; [|symmetry; exact S]. intros Z. rewrite Z in S. apply (F_1_neq_0 HF). rewrite <- E.
    replace m with (1 + 2 * h) by lia. rewrite Z.pow_add_r, Z.pow_1_r, <- mk_mul, <- S by lia. ring.
  Qed.
  Lemma pow_order u m k : prime m -> vanishes (u ^ m - 1) -> ~ vanishes (u - 1) -> 0 <= k -> vanishes (u ^ k - 1) <-> (m | k).
  Proof.
    intros PM E N K. pose proof (prime_ge_2 m PM) as M2. apply vanishes_eq in E. rewrite vanishes_eq in N. apply mk_eq_inv in E.
    rewrite vanishes_eq. split.
    - intros EK. apply mk_eq_inv in EK. destruct (Zdivide_dec m k) as [D|D]; [exact D|]. exfalso. apply N. apply mk_eq.
      pose proof (fermat m k PM D) as F. pose proof (Z.div_mod (k ^ (m - 1)) m ltac:(lia)) as DM. rewrite F in DM.
      set (b := k ^ (m - 1) / m) in *. assert (B : 0 <= b) by (apply Z.div_pos; [apply Z.pow_nonneg; lia|lia]). clearbody b.
      assert (EE : (u ^ (k * k ^ (m - 2))) mod p = (u ^ (m * b + 1)) mod p).
      { rewrite <- DM. replace (m - 1) with (Z.succ (m - 2)) by lia. rewrite (Z.pow_succ_r k) by lia. reflexivity. }
      rewrite Z.pow_mul_r in EE by (try apply Z.pow_nonneg; lia).
      rewrite (pow_cong _ _ (k ^ (m - 2)) p ltac:(lia) EK), Z.pow_1_l in EE by (apply Z.pow_nonneg; lia).
      rewrite Z.pow_add_r, Z.pow_1_r, Z.pow_mul_r in EE by lia.
      rewrite Z.mul_mod, (pow_cong _ _ b p ltac:(lia) E), Z.pow_1_l, <- Z.mul_mod, Z.mul_1_l in EE by lia. symmetry. exact EE.
    - intros [j ->]. apply mk_eq. assert (J : 0 <= j) by nia. rewrite Z.mul_comm, Z.pow_mul_r by lia.
      rewrite (pow_cong _ _ j p ltac:(lia) E), Z.pow_1_l by lia. reflexivity.
  Qed.
  Lemma pow_same u m i j : prime m -> vanishes (u ^ m - 1) -> ~ vanishes (u - 1) -> 0 <= i -> 0 <= j ->
    vanishes (u ^ i - u ^ j) <-> (m | i - j).
  Proof.
    intros PM E N. assert (HW : forall i j, 0 <= i -> i <= j -> vanishes (u ^ i - u ^ j) <-> (m | i - j)).
    { intros i0 j0 I J. replace (i0 - j0) with (- (j0 - i0)) by lia. rewrite Z.divide_opp_r.
      rewrite <- (pow_order u m (j0 - i0) PM E N) by lia. rewrite !vanishes_eq.
      pose proof (prime_ge_2 m PM) as M2.
      assert (U0 : mk u <> f0 p).
      { intros Z. apply vanishes_eq in E. apply (F_1_neq_0 HF). change (f1 p) with (mk 1). rewrite <- E.
        replace m with (1 + (m - 1)) by lia. rewrite Z.pow_add_r, Z.pow_1_r, <- mk_mul, Z by lia. ring. }
      assert (UI : forall n, 0 <= n -> mk (u ^ n) <> f0 p).
      { apply natlike_ind; [exact (F_1_neq_0 HF)|]. intros n Hn IH. rewrite Z.pow_succ_r, <- mk_mul by exact Hn.
        intros Z. apply (fmul_0 p Hp) in Z. tauto. }
      specialize (UI i0 I). replace j0 with (i0 + (j0 - i0)) at 1 by lia. rewrite Z.pow_add_r, <- mk_mul by lia.
      set (X := mk (u ^ i0)) in *. set (Y := mk (u ^ (j0 - i0))). change (mk 1) with (f1 p). clearbody X Y. split; intros Q.
      - transitivity (X * Y / X)%nd; [field; exact UI|]. rewrite <- Q. field. exact UI.
      - rewrite Q. ring. }
    intros I J. destruct (Z.le_gt_cases i j) as [G|G]; [apply HW; assumption|].
    replace (i - j) with (- (j - i)) by lia. rewrite Z.divide_opp_r, <- HW by lia.
    rewrite !vanishes_eq. split; intros Q; symmetry; exact Q.
  Qed.

  Lemma L_small u v m sk sk' c : prime m -> vanishes (u ^ m - 1) -> ~ vanishes (u - 1) -> probing u v c -> generic c -> 0 <= fval sk -> 0 <= fval sk' ->
    dec sk c = dec sk' c <-> (m | fval sk - fval sk').
  Proof. intros. rewrite (L_oracle u v) by assumption. apply pow_same; assumption. Qed.
End Node.

Lemma try_keys_find A d t : forall fuel k, k <= t < k + Z.of_nat fuel ->
  (forall i, k <= i < k + Z.of_nat fuel -> same A (d i) = true <-> i = t) -> try_keys A d k fuel = Some t.
Proof.
  induction fuel as [|f IH]; intros k R H; [lia|]. cbn [try_keys]. destruct (same A (d k)) eqn:E.
  - apply H in E; [|lia]. rewrite E. reflexivity.
  - assert (k <> t) by (intros Q; apply (H k) in Q; [congruence|lia]).
    apply IH; [lia|]. intros i I. apply H. lia.
Qed.
