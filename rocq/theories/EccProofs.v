(** Refinement of the point operators to the curve group. *)
From Coq Require Import ZArith Znumtheory Bool List Lia Field.
From Verif Require Import Outcome FieldModel ZpField SpecField FieldProofs Fermat ECGroup ECOrder CurveParams CurveFacts EccModel.
Import ListNotations.
Open Scope Z_scope.

Section Ecc.
  Variables (dbg : bool) (live : Z -> bool) (C : cparams).
  Hypothesis HC : good C.

  Notation p := (c_prime C).
  Notation n := (c_order C).
  Notation q := (fieldp C).
  Notation ept := (ept p).
  Notation eon := (eon p (c_a C) (c_b C)).
  Notation eadd := (eadd p (c_a C)).
  Notation eneg := (eneg p).
  Notation ezmul := (ezmul p (c_a C)).
  Declare Scope fp_scope.
  Notation "0" := (f0 p) : fp_scope.
  Notation "1" := (f1 p) : fp_scope.
  Infix "+" := (fadd p) : fp_scope.
  Infix "*" := (fmul p) : fp_scope.
  Infix "-" := (fsub p) : fp_scope.
  Infix "/" := (fdiv p) : fp_scope.
  Notation "- x" := (fopp p x) : fp_scope.
  Delimit Scope fp_scope with fp.
  Let Hp : prime p := g_prime C HC.
  Let Hqp : q = p := g_fieldp C HC.
  Let HF := field_Fp p Hp.
  Add Field FpField : HF.

  Lemma p_pos : 0 < p.
  Proof. destruct Hp; lia. Qed.

  Lemma q_pos : 0 < q.
  Proof. rewrite Hqp; apply p_pos. Qed.

  Lemma p_odd : Z.odd p = true.
  Proof.
    pose proof (g_p34 C HC) as H. pose proof (Z.div_mod p 4 ltac:(lia)) as D. rewrite H in D.
    rewrite D, Z.odd_add, Z.odd_mul. reflexivity.
  Qed.

  Lemma isnice : nice p (c_a C) (c_b C).
  Proof. split; [exact Hp|exact p_odd|apply (g_noroot C HC)]. Qed.

  Lemma isnice_two : fadd p (f1 p) (f1 p) <> f0 p.
  Proof. apply (nice_two p (c_a C) (c_b C) isnice). Qed.

  Lemma on_y_ne0 x y : eon (Some (x, y)) -> y <> f0 p.
  Proof.
    intros H E. subst y. apply (nice_no2 p (c_a C) (c_b C) isnice x). cbn in H. rewrite <- H. ring.
  Qed.

  (** ** Field objects and residues *)
  Definition emb (z : Fp p) : fe := mkfe (val p z) q.

  Lemma emb_canon z : canon q (emb z).
  Proof. split; cbn; [reflexivity|rewrite Hqp; apply val_range; exact Hp]. Qed.

  Lemma emb_new z : fe_new q z = emb (mk p z).
  Proof. unfold fe_new, emb. rewrite Hqp at 1. reflexivity. Qed.

  Lemma emb_default : fe_default q = emb (f0 p).
  Proof. unfold fe_default, emb. f_equal. Qed.

  Lemma emb_surj x : canon q x -> x = emb (mk p (fval x)).
  Proof. intros Hx. rewrite <- emb_new, canon_new_val; [reflexivity|exact Hx]. Qed.

  Lemma emb_inj x y : emb x = emb y -> x = y.
  Proof. intros E. injection E as E. apply val_inj, E. Qed.

  Lemma emb_add x y : fe_add dbg q (emb x) (emb y) = Ok (emb (fadd p x y)).
  Proof. rewrite fe_add_ok by (apply q_pos || apply emb_canon). rewrite emb_new. reflexivity. Qed.
  Lemma emb_sub x y : fe_sub dbg q (emb x) (emb y) = Ok (emb (fsub p x y)).
  Proof. rewrite fe_sub_ok by (apply q_pos || apply emb_canon). rewrite emb_new. reflexivity. Qed.
  Lemma emb_mul x y : fe_mul dbg q (emb x) (emb y) = Ok (emb (fmul p x y)).
  Proof. rewrite fe_mul_ok by (apply q_pos || apply emb_canon). rewrite emb_new. reflexivity. Qed.
  Lemma emb_square x : fe_square q (emb x) = Ok (emb (fmul p x x)).
  Proof. rewrite fe_square_ok by (apply q_pos || apply emb_canon). rewrite emb_new. reflexivity. Qed.
  Lemma emb_mulz x a : fe_mulz q (emb x) a = Ok (emb (fmul p x (mk p a))).
  Proof.
    rewrite fe_mulz_ok by (apply q_pos || apply emb_canon). rewrite emb_new.
    rewrite <- (mk_val p x) at 2. rewrite mk_mul. reflexivity.
  Qed.
  Lemma emb_div x y : y <> f0 p -> fe_div dbg q (emb x) (emb y) = Ok (emb (fdiv p x y)).
  Proof.
    intros N. assert (Hq : prime q) by (rewrite Hqp; exact Hp).
    destruct (fe_div_ok dbg q q_pos Hq (emb x) (emb y)) as [r [E [Hr M]]]; try apply emb_canon.
    { cbn. intros Z0. apply N. rewrite <- (mk_val p y), Z0. reflexivity. }
    rewrite E. f_equal. rewrite (emb_surj r Hr). f_equal.
    set (z := mk p (fval r)).
    assert (M' : fmul p z y = x).
    { unfold z. rewrite <- (mk_val p y), mk_mul. rewrite <- (mk_val p x). apply mk_eq.
      cbn in M. rewrite Hqp in M. rewrite M. symmetry; apply val_mod. }
    rewrite <- M'. field. exact N.
  Qed.
  Lemma emb_div0 x : fe_div dbg q (emb x) (emb (f0 p)) = Err NoInverse.
  Proof.
    assert (Hq : prime q) by (rewrite Hqp; exact Hp).
    apply (fe_div_zero dbg q q_pos Hq); try apply emb_canon. apply Z.mod_0_l. pose proof p_pos; lia.
  Qed.
  Lemma emb_eq x y : fe_eq (emb x) (emb y) = if eqFp p x y then true else false.
  Proof.
    destruct (eqFp p x y) as [->|N]; [apply fe_eq_refl|].
    destruct (fe_eq (emb x) (emb y)) eqn:E; [|reflexivity].
    apply (fe_eq_spec q) in E; try apply emb_canon. apply emb_inj in E. contradiction.
  Qed.
  Lemma mk2 : mk p 2 = (1 + 1)%fp.
  Proof. unfold f1. rewrite mk_add. reflexivity. Qed.
  Lemma mk3 : mk p 3 = (1 + 1 + 1)%fp.
  Proof. unfold f1. rewrite !mk_add. reflexivity. Qed.

  (** ** Points *)
  Definition inj (c : Z) (E : ept) : point :=
    match E with
    | None => pt_inf C
    | Some (x, y) => mkpoint (emb x) (emb y) false (Some c)
    end.
  Definition pick (E : ept) (c c' : Z) : Z := match E with None => c' | Some _ => c end.

  Lemma curve_eq_refl : curve_eq C C = true.
  Proof. unfold curve_eq. rewrite !Z.eqb_refl. reflexivity. Qed.

  Lemma deref_live c : live c = true -> deref live C (Some c) = Ok C.
  Proof. intros H. unfold deref. rewrite H. reflexivity. Qed.
  Lemma deref_dead c : live c = false -> deref live C (Some c) = Err UseAfterFree.
  Proof. intros H. unfold deref. rewrite H. reflexivity. Qed.

  Local Ltac fe := repeat (first [rewrite emb_add | rewrite emb_sub | rewrite emb_mul | rewrite emb_mulz
     | rewrite emb_square | rewrite emb_new | rewrite emb_default]; cbn [bind]).

  Lemma pdouble_any x y c : y <> f0 p ->
    pdouble dbg live C (mkpoint (emb x) (emb y) false (Some c)) =
    (if live c then Ok (inj c (eadd (Some (x, y)) (Some (x, y)))) else Err UseAfterFree).
  Proof.
    intros N. unfold pdouble. cbn [px py pcur]. fe. unfold deref. destruct (live c); cbn [bind]; [|reflexivity].
    fe. rewrite emb_div.
    2:{ rewrite mk2. intros E. apply fmul_0 in E; [|exact Hp]. destruct E as [E|E]; [contradiction|].
        apply isnice_two, E. }
    cbn [bind]. fe. f_equal.
    unfold ECOrder.eadd, add. destruct (eqFp p x x) as [_|]; [|contradiction]. destruct (eqFp p y y) as [_|]; [|contradiction].
    unfold third, dbl_slope. cbn [inj]. unfold pt_fe. rewrite mk2, mk3.
    assert (E : ((x * x * (1 + 1 + 1) + mk p (c_a C)) / (y * (1 + 1)) = ((1 + 1 + 1) * (x * x) + mk p (c_a C)) / ((1 + 1) * y))%fp).
    { field. split; [exact N|exact isnice_two]. }
    rewrite E. f_equal; f_equal; ring.
  Qed.

  Lemma pdouble_inj E c : eon E -> E <> None ->
    pdouble dbg live C (inj c E) = if live c then Ok (inj c (eadd E E)) else Err UseAfterFree.
  Proof.
    intros H N. destruct E as [[x y]|]; [|contradiction]. cbn [inj]. apply pdouble_any, (on_y_ne0 x), H.
  Qed.

  Lemma pdouble_inf : pdouble dbg live C (pt_inf C) = Err NullDeref.
  Proof. unfold pdouble, pt_inf. cbn [px py pcur]. fe. reflexivity. Qed.

  (** what operator+ does, for any set of live curve objects *)
  Definition add_needs (E E' : ept) (c c' : Z) : bool :=
    match E, E' with
    | Some _, Some _ => (negb dbg || (live c && live c')) && (if ept_dec p E E' then live c else true)
    | _, _ => true
    end.

  Lemma assert_same_curve_inj x y x' y' c c' :
    assert_same_curve dbg live C (mkpoint x y false (Some c)) (mkpoint x' y' false (Some c')) =
    if negb dbg || (live c && live c') then Ok tt else Err UseAfterFree.
  Proof.
    unfold assert_same_curve. destruct dbg; [|reflexivity]. cbn [pcur deref negb orb].
    destruct (live c); cbn; [|reflexivity]. destruct (live c'); cbn; [|reflexivity].
    rewrite curve_eq_refl. reflexivity.
  Qed.

  Lemma padd_any E E' c c' : eon E -> eon E' ->
    padd dbg live C (inj c E) (inj c' E') =
    if add_needs E E' c c' then Ok (inj (pick E c c') (eadd E E')) else Err UseAfterFree.
  Proof.
    intros H H'. unfold padd. destruct E as [[x y]|]; cbn [inj pinf pt_inf]; [|reflexivity].
    destruct E' as [[x' y']|]; cbn [inj pinf pt_inf]; [|reflexivity].
    rewrite assert_same_curve_inj. cbn [add_needs pick].
    destruct (negb dbg || live c && live c'); cbn [bind andb]; [|reflexivity].
    cbn [px py]. rewrite !emb_eq.
    destruct (eqFp p x x') as [<-|Nx].
    - destruct (eqFp p y y') as [<-|Ny].
      + destruct (ept_dec p (Some (x, y)) (Some (x, y))) as [_|]; [|contradiction].
        rewrite pdouble_any by (apply (on_y_ne0 x), H). reflexivity.
      + destruct (ept_dec p (Some (x, y)) (Some (x, y'))) as [E|_]; [injection E as E; contradiction|].
        f_equal. unfold ECOrder.eadd, add. destruct (eqFp p x x) as [_|]; [|contradiction].
        destruct (eqFp p y y') as [|_]; [contradiction|]. reflexivity.
    - destruct (ept_dec p (Some (x, y)) (Some (x', y'))) as [E|_]; [injection E as E; contradiction|].
      fe. rewrite emb_div.
      2:{ intros E. apply Nx. rewrite <- (mk_val p x), <- (mk_val p x').
          assert (S : (x = (x - x') + x')%fp) by ring. rewrite (mk_val p x), S, E, mk_val. ring. }
      cbn [bind]. fe. f_equal. unfold ECOrder.eadd, add. destruct (eqFp p x x') as [|_]; [contradiction|].
      unfold third, chord_slope. reflexivity.
  Qed.

  (** a finite point needs its curve object alive *)
  Definition lv (E : ept) (c : Z) : Prop := E <> None -> live c = true.

  Lemma lv_live E c : live c = true -> lv E c.
  Proof. intros L _. exact L. Qed.
  Lemma pick_same E c : pick E c c = c.
  Proof. destruct E; reflexivity. Qed.

  Lemma lv_add E E' c c' : lv E c -> lv E' c' -> lv (eadd E E') (pick E c c').
  Proof.
    intros L L' N. destruct E as [e|]; cbn [pick].
    - apply L; discriminate.
    - apply L'. exact N.
  Qed.

  Lemma add_needs_live E E' c c' : lv E c -> lv E' c' -> add_needs E E' c c' = true.
  Proof.
    intros L L'. unfold add_needs. destruct E as [e|], E' as [e'|]; try reflexivity.
    specialize (L ltac:(discriminate)). specialize (L' ltac:(discriminate)).
    rewrite L, L'. destruct (ept_dec p (Some e) (Some e')), (negb dbg); reflexivity.
  Qed.

  Lemma padd_inj E E' c c' : eon E -> eon E' -> lv E c -> lv E' c' ->
    padd dbg live C (inj c E) (inj c' E') = Ok (inj (pick E c c') (eadd E E')).
  Proof. intros. rewrite padd_any, add_needs_live by assumption. reflexivity. Qed.

  (** subtraction of a finite point *)
  Lemma psub_any E x y c c' : eon E -> eon (Some (x, y)) -> E <> None ->
    psub dbg live C (inj c E) (inj c' (Some (x, y))) =
    if add_needs E (eneg (Some (x, y))) c c && (negb dbg || live c && live c')
    then Ok (inj c (eadd E (eneg (Some (x, y))))) else Err UseAfterFree.
  Proof.
    intros H H' N. unfold psub. destruct E as [[x1 y1]|]; [|contradiction]. cbn [inj].
    rewrite assert_same_curve_inj.
    destruct (negb dbg || live c && live c') eqn:B; cbn [bind];
      [rewrite andb_true_r|rewrite andb_false_r; reflexivity].
    cbn [px py pcur]. fe.
    replace (mk p 0 - y)%fp with (- y)%fp by (change (mk p 0) with (f0 p); ring).
    pose proof (padd_any (Some (x1, y1)) (eneg (Some (x, y))) c c H (eon_neg p (c_a C) (c_b C) isnice _ H')) as A.
    cbn [inj ECOrder.eneg neg] in A. unfold pt_fe. rewrite A. reflexivity.
  Qed.

  Lemma psub_inj E E' c c' : eon E -> eon E' -> E <> None -> E' <> None -> lv E c -> lv E' c' ->
    psub dbg live C (inj c E) (inj c' E') = Ok (inj c (eadd E (eneg E'))).
  Proof.
    intros H H' N N' L L'. destruct E' as [[x y]|]; [|contradiction].
    specialize (L N). specialize (L' N').
    rewrite psub_any, add_needs_live, L, L', orb_true_r by auto using lv_live. reflexivity.
  Qed.

  (** inf - Q for finite Q: with asserts on the null curve of infinity is read; otherwise the
      mirrored point comes back carrying the null pointer *)
  Lemma psub_inf_l x y c' : eon (Some (x, y)) ->
    psub dbg live C (pt_inf C) (inj c' (Some (x, y))) =
    if dbg then Err NullDeref else Ok (mkpoint (emb x) (emb (- y)%fp) false None).
  Proof.
    intros H. unfold psub, assert_same_curve. destruct dbg eqn:D; [reflexivity|]. cbn [bind pcur pt_inf inj py px].
    pose proof emb_sub as S. rewrite D in S. rewrite emb_new, S. cbn [bind].
    replace (mk p 0 - y)%fp with (- y)%fp by (change (mk p 0) with (f0 p); ring).
    reflexivity.
  Qed.

  (** P - inf *)
  Lemma psub_inf_r E c : eon E -> live c = true ->
    psub dbg live C (inj c E) (pt_inf C) =
    if dbg then Err NullDeref else
    match E with
    | None => Ok (mkpoint (emb (f0 p)) (emb (f0 p)) false None)
    | Some (x, y) => Ok (inj c (ECGroup.add (Fp p) (f1 p) (fadd p) (fmul p) (fsub p) (fdiv p) (eqFp p) (mk p (c_a C)) E (Some (f0 p, f0 p))))
    end.
  Proof.
    intros H L. unfold psub, assert_same_curve. destruct dbg eqn:D.
    - destruct E as [[x y]|]; [|reflexivity]. cbn [inj pcur]. rewrite deref_live by assumption. reflexivity.
    - cbn [bind pt_inf py px]. pose proof emb_sub as S. rewrite D in S. rewrite emb_new, emb_default, S. cbn [bind].
      replace (mk p 0 - f0 p)%fp with (f0 p) by (change (mk p 0) with (f0 p); ring).
      destruct E as [[x y]|]; [|reflexivity].
      cbn [inj pcur]. unfold padd, pt_fe. cbn [pinf px py]. unfold assert_same_curve. cbn [bind].
      rewrite !emb_eq. cbn [add]. destruct (eqFp p x (f0 p)) as [->|Nx].
      + destruct (eqFp p y (f0 p)) as [->|Ny]; [|reflexivity].
        exfalso. apply (on_y_ne0 _ _ H). reflexivity.
      + pose proof emb_mul as M. rewrite D in M. pose proof emb_div as V. rewrite D in V.
        rewrite !S. cbn [bind]. rewrite V.
        2:{ intros F. apply Nx. assert (Sx : (x = (x - 0) + 0)%fp) by ring. rewrite Sx, F. ring. }
        cbn [bind]. rewrite !M. cbn [bind]. rewrite !S. cbn [bind]. rewrite !S. cbn [bind]. rewrite !S. cbn [bind].
        rewrite M. cbn [bind]. rewrite S. cbn [bind]. reflexivity.
  Qed.

  (** ** Scalar multiplication *)
  Fixpoint bval (l : list bool) : Z :=
    match l with
    | [] => 0
    | b :: l' => Z.b2z b + 2 * bval l'
    end.

  Lemma bval_pbits k : bval (pbits k) = Zpos k.
  Proof. induction k as [k IH|k IH|]; cbn [pbits bval Z.b2z]; rewrite ?IH; lia. Qed.

  Lemma bval_zbits v : 0 <= v -> bval (zbits v) = v.
  Proof. destruct v; intros; cbn [zbits]; [reflexivity|apply bval_pbits|lia]. Qed.

  Lemma eadd2 E : eon E -> eadd E E = ezmul 2 E.
  Proof. intros H. change (ezmul 2 E) with (eadd E (eadd E None)). rewrite eadd_0_r. reflexivity. Qed.

  Lemma mulloop_inj bits c : live c = true -> forall R E, eon R -> eon E -> E <> None ->
    mulloop dbg live C bits (inj c R) (inj c E) = Ok (inj c (eadd R (ezmul (bval bits) E))).
  Proof.
    intros L. induction bits as [|b rest IH]; intros R E HR HE N; cbn [mulloop].
    - cbn [bval]. rewrite ezmul_0, eadd_0_r. reflexivity.
    - assert (S : (if b then padd dbg live C (inj c R) (inj c E) else Ok (inj c R)) =
                  Ok (inj c (eadd R (ezmul (Z.b2z b) E)))).
      { destruct b; cbn [Z.b2z].
        - rewrite padd_inj, pick_same, ezmul_1 by auto using lv_live. reflexivity.
        - rewrite ezmul_0, eadd_0_r. reflexivity. }
      rewrite S. cbn [bind]. destruct rest as [|b' rest'].
      + cbn [bval]. rewrite Z.add_0_r. reflexivity.
      + rewrite pdouble_inj, L by assumption. cbn [bind].
        rewrite IH; [|apply (eon_add p (c_a C) (c_b C) isnice)|apply (eon_add p (c_a C) (c_b C) isnice)|];
          try assumption; try (apply (eon_zmul p (c_a C) (c_b C) isnice); assumption).
        * f_equal. f_equal. cbn [bval]. set (v := Z.b2z b' + 2 * bval rest').
          rewrite eadd2, <- (ezmul_mul p (c_a C) (c_b C) isnice), (Z.mul_comm v 2) by assumption.
          rewrite (eadd_assoc p (c_a C) (c_b C) isnice); auto using (eon_zmul p (c_a C) (c_b C) isnice).
          rewrite (ezmul_add p (c_a C) (c_b C) isnice) by assumption. reflexivity.
        * apply (edouble_ne p (c_a C) (c_b C) isnice); assumption.
  Qed.

  Lemma pmul_inj E c s : eon E -> lv E c -> 0 <= fval s ->
    pmul dbg live C (inj c E) s = Ok (inj c (ezmul (fval s) E)).
  Proof.
    intros H L S. unfold pmul. destruct E as [[x y]|].
    - cbn [inj pinf]. pose proof (mulloop_inj (zbits (fval s)) c (L ltac:(discriminate)) None (Some (x, y)) I H ltac:(discriminate)) as M.
      cbn [inj] in M. rewrite M, bval_zbits, eadd_0_l by assumption. reflexivity.
    - cbn [inj pinf pt_inf]. rewrite ezmul_None. reflexivity.
  Qed.

  (** a dead curve is noticed as soon as a doubling is needed *)
  Lemma pmul_dead x y c s : eon (Some (x, y)) -> live c = false ->
    pmul dbg live C (inj c (Some (x, y))) s =
    if (0 <=? fval s) && (fval s <=? 1) then Ok (inj c (ezmul (fval s) (Some (x, y)))) else Err UseAfterFree.
  Proof.
    intros H L. unfold pmul. cbn [inj pinf].
    assert (A : padd dbg live C (pt_inf C) (mkpoint (emb x) (emb y) false (Some c)) = Ok (mkpoint (emb x) (emb y) false (Some c))) by reflexivity.
    assert (D : pdouble dbg live C (mkpoint (emb x) (emb y) false (Some c)) = Err UseAfterFree).
    { rewrite pdouble_any, L by (apply (on_y_ne0 x), H). reflexivity. }
    assert (PB : forall k l, mulloop dbg live C (pbits k ++ l) (pt_inf C) (mkpoint (emb x) (emb y) false (Some c)) =
       match k, l with xH, [] => Ok (mkpoint (emb x) (emb y) false (Some c)) | _, _ => Err UseAfterFree end).
    { intros k l. destruct k as [k|k|].
      - cbn [pbits app mulloop]. rewrite A. cbn [bind]. destruct k; cbn [pbits app]; rewrite D; reflexivity.
      - cbn [pbits app mulloop bind]. destruct k; cbn [pbits app]; rewrite D; reflexivity.
      - cbn [pbits app mulloop]. rewrite A. cbn [bind]. destruct l; [reflexivity|]. rewrite D. reflexivity. }
    destruct (fval s) as [|k|k] eqn:F.
    - reflexivity.
    - cbn [zbits]. rewrite <- (app_nil_r (pbits k)), PB. destruct k; try reflexivity.
    - cbn [zbits]. rewrite PB. destruct k; reflexivity.
  Qed.

  (** ** Equality *)
  Lemma peq_any E E' c c' : eon E -> eon E' ->
    peq live C (inj c E) (inj c' E') =
    if ept_dec p E E' then
      match E with None => Ok true | Some _ => if live c && live c' then Ok true else Err UseAfterFree end
    else Ok false.
  Proof.
    intros H H'. unfold peq.
    destruct E as [[x y]|], E' as [[x' y']|]; cbn [inj pinf pt_inf andb px py pcur].
    - rewrite !emb_eq. destruct (eqFp p x x') as [<-|Nx]; cbn [negb].
      + destruct (eqFp p y y') as [<-|Ny]; cbn [negb].
        * destruct (ept_dec p (Some (x, y)) (Some (x, y))) as [_|]; [|contradiction].
          unfold deref. destruct (live c); cbn [bind andb]; [|reflexivity]. destruct (live c'); cbn [bind]; [|reflexivity].
          rewrite curve_eq_refl. reflexivity.
        * destruct (ept_dec p (Some (x, y)) (Some (x, y'))) as [F|_]; [injection F as F; contradiction|reflexivity].
      + destruct (ept_dec p (Some (x, y)) (Some (x', y'))) as [F|_]; [injection F as F; contradiction|reflexivity].
    - rewrite emb_default, !emb_eq. destruct (ept_dec p (Some (x, y)) None) as [F|_]; [discriminate|].
      destruct (eqFp p x (f0 p)); cbn [negb]; [|reflexivity].
      destruct (eqFp p y (f0 p)) as [->|]; cbn [negb]; [|reflexivity]. exfalso; apply (on_y_ne0 _ _ H); reflexivity.
    - rewrite emb_default, !emb_eq. destruct (ept_dec p None (Some (x', y'))) as [F|_]; [discriminate|].
      destruct (eqFp p (f0 p) x'); cbn [negb]; [|reflexivity].
      destruct (eqFp p (f0 p) y') as [<-|]; cbn [negb]; [|reflexivity]. exfalso; apply (on_y_ne0 _ _ H'); reflexivity.
    - destruct (ept_dec p None None) as [_|]; [reflexivity|contradiction].
  Qed.

  Lemma peq_inj E E' c c' : eon E -> eon E' -> lv E c -> lv E' c' ->
    peq live C (inj c E) (inj c' E') = Ok (if ept_dec p E E' then true else false).
  Proof.
    intros H H' L L'. rewrite peq_any by assumption. destruct (ept_dec p E E') as [<-|]; [|reflexivity].
    destruct E; [|reflexivity]. rewrite L, L' by discriminate. reflexivity.
  Qed.

  (** ** Membership and lookup *)
  Definition rhsF (x : Fp p) : Fp p := (x * x * x + mk p (c_a C) * x + mk p (c_b C))%fp.

  Lemma rhs_emb x : rhs dbg C (emb x) (c_a C) (c_b C) = Ok (emb (rhsF x)).
  Proof.
    unfold rhs. fe. f_equal. f_equal. unfold rhsF. ring.
  Qed.

  Lemma isValid_emb x y c :
    isValid dbg live C (mkpoint (emb x) (emb y) false (Some c)) =
    if live c then Ok (if eqFp p (y * y)%fp (rhsF x) then true else false) else Err UseAfterFree.
  Proof.
    unfold isValid. cbn [pinf pcur px py]. unfold deref. destruct (live c); cbn [bind]; [|reflexivity].
    rewrite rhs_emb. cbn [bind]. fe. rewrite Z.eqb_refl. cbn [emb fmod]. rewrite Hqp, Z.eqb_refl. cbn [andb].
    f_equal. rewrite emb_eq. destruct (eqFp p (rhsF x) (y * y)%fp), (eqFp p (y * y)%fp (rhsF x)); congruence.
  Qed.

  Lemma isValid_inj E c : eon E -> lv E c -> isValid dbg live C (inj c E) = Ok true.
  Proof.
    intros H L. destruct E as [[x y]|]; [|reflexivity]. cbn [inj]. rewrite isValid_emb, L by discriminate.
    destruct (eqFp p (y * y)%fp (rhsF x)) as [_|N]; [reflexivity|]. exfalso; apply N, H.
  Qed.

  (** the candidate square root *)
  Definition rootF (z : Fp p) : Fp p := mk p (sqrt_cand p (val p z)).

  Lemma root_emb z : root C (emb z) = Ok (val p (rootF z)).
  Proof.
    unfold root, mpz_divexact, mpz_powm. cbn [emb fmod fval]. rewrite Hqp.
    pose proof p_pos as Pp. pose proof (g_p34 C HC) as H4.
    assert (E : (p + 1) mod 4 = 0) by (rewrite Z.add_mod, H4 by lia; reflexivity).
    rewrite E. cbn [Z.eqb bind]. destruct (Z.eqb_spec p 0); [lia|].
    rewrite Z.abs_eq, powmod_spec by (try apply Z.div_pos; lia).
    unfold rootF, sqrt_cand. rewrite val_mk, Z.mod_mod by lia. reflexivity.
  Qed.

  Lemma rootF_square y : (rootF (y * y) * rootF (y * y) = y * y)%fp.
  Proof.
    unfold rootF. rewrite mk_mul.
    assert (E : sqrt_cand p (val p (y * y)%fp) = sqrt_cand p (val p y * val p y)).
    { unfold sqrt_cand. change (val p (fmul p y y)) with ((val p y * val p y) mod p).
      symmetry. apply Zpow_facts.Zpower_mod, p_pos. }
    rewrite E. apply mk_eq. apply (sqrt_cand_spec p Hp _ (g_p34 C HC)).
  Qed.

  Lemma evaluateP_emb x c :
    evaluateP dbg live C (Some c) (emb x) =
    if live c then Ok (if eqFp p (rootF (rhsF x) * rootF (rhsF x))%fp (rhsF x)
                       then inj c (Some (x, rootF (rhsF x))) else pt_inf C)
    else Err UseAfterFree.
  Proof.
    unfold evaluateP, deref. destruct (live c); cbn [bind]; [|reflexivity].
    rewrite rhs_emb. cbn [bind]. rewrite root_emb. cbn [bind]. rewrite emb_new, mk_val. fe.
    rewrite emb_eq. destruct (eqFp p (rootF (rhsF x) * rootF (rhsF x))%fp (rhsF x)); reflexivity.
  Qed.

  Lemma evaluatePneg_emb x c :
    evaluatePneg dbg live C (Some c) (emb x) =
    if live c then Ok (if eqFp p (rootF (rhsF x) * rootF (rhsF x))%fp (rhsF x)
                       then inj c (Some (x, - rootF (rhsF x))%fp) else pt_inf C)
    else Err UseAfterFree.
  Proof.
    unfold evaluatePneg, deref. destruct (live c); cbn [bind]; [|reflexivity].
    rewrite rhs_emb. cbn [bind]. rewrite root_emb. cbn [bind fmod emb]. rewrite emb_new.
    assert (E : mk p (q - val p (rootF (rhsF x))) = (- rootF (rhsF x))%fp).
    { rewrite Hqp, <- mk_sub, mk_val. replace (mk p p) with (f0 p); [ring|].
      symmetry. apply mk_0_iff; [exact Hp|]. apply Z.divide_refl. }
    rewrite E. fe. change (mkfe (val p (rhsF x)) q) with (emb (rhsF x)). rewrite emb_eq.
    replace (- rootF (rhsF x) * - rootF (rhsF x))%fp with (rootF (rhsF x) * rootF (rhsF x))%fp by ring.
    destruct (eqFp p (rootF (rhsF x) * rootF (rhsF x))%fp (rhsF x)); reflexivity.
  Qed.

  Lemma lookup_total x : (exists y, eon (Some (x, y))) <-> (rootF (rhsF x) * rootF (rhsF x) = rhsF x)%fp.
  Proof.
    split.
    - intros [y H]. cbn in H. change (rhsF x) with (x * x * x + mk p (c_a C) * x + mk p (c_b C))%fp. rewrite <- H.
      apply rootF_square.
    - intros H. exists (rootF (rhsF x)). exact H.
  Qed.

  (** ** Everything in terms of multiples of the generator *)
  Definition gk (k : Z) : ept := ezmul k (gen_pt C).

  Lemma gen_on : eon (gen_pt C).
  Proof. apply (g_on C HC). Qed.
  Lemma gen_ne : gen_pt C <> None.
  Proof. discriminate. Qed.
  Lemma n_prime : prime n.
  Proof. apply (g_order C HC). Qed.
  Lemma n_gt1' : 1 < n.
  Proof. destruct n_prime; assumption. Qed.

  Lemma gk_on k : eon (gk k).
  Proof. apply (eon_zmul p (c_a C) (c_b C) isnice), gen_on. Qed.
  Lemma gk_add i j : eadd (gk i) (gk j) = gk (i + j).
  Proof. symmetry. apply (ezmul_add p (c_a C) (c_b C) isnice), gen_on. Qed.
  Lemma gk_neg i : eneg (gk i) = gk (- i).
  Proof. symmetry. apply (ezmul_opp p (c_a C) (c_b C) isnice). Qed.
  Lemma gk_mul k i : ezmul k (gk i) = gk (k * i).
  Proof. symmetry. apply (ezmul_mul p (c_a C) (c_b C) isnice), gen_on. Qed.
  Lemma gk_0 : gk 0 = None.
  Proof. reflexivity. Qed.
  Lemma gk_1 : gk 1 = gen_pt C.
  Proof. apply ezmul_1. Qed.
  Lemma gk_None k : gk k = None <-> (n | k).
  Proof.
    split.
    - intros E. apply (order_exact p (c_a C) (c_b C) isnice n n_prime (gen_pt C) k gen_on gen_ne (g_ord C HC) E).
    - intros [m ->]. unfold gk. rewrite (ezmul_mul p (c_a C) (c_b C) isnice), (g_ord C HC) by apply gen_on. apply ezmul_None.
  Qed.
  Lemma gk_eq i j : gk i = gk j <-> (n | i - j).
  Proof.
    rewrite <- gk_None. replace (i - j) with (i + - j) by ring. rewrite <- gk_add, <- gk_neg. split.
    - intros ->. apply (eadd_neg_r p (c_a C) (c_b C) isnice), gk_on.
    - intros E. apply (eadd_None_inv p (c_a C) (c_b C) isnice) in E;
        [|apply gk_on|apply (eon_neg p (c_a C) (c_b C) isnice), gk_on].
      rewrite <- (eneg_neg p (c_a C) (c_b C) isnice (gk i)), <- E. apply (eneg_neg p (c_a C) (c_b C) isnice).
  Qed.
  Lemma gk_mod i : gk (i mod n) = gk i.
  Proof.
    pose proof n_gt1'. apply gk_eq. exists (- (i / n)). rewrite Z.mod_eq by lia. ring.
  Qed.
  Lemma gk_surj E : eon E -> exists k, 0 <= k < n /\ E = gk k.
  Proof.
    intros H. apply (cyclic p (c_a C) (c_b C) isnice n (gen_pt C) n_prime gen_on gen_ne (g_ord C HC) (g_big C HC) E H).
  Qed.
  Lemma order_all' E : eon E -> ezmul n E = None.
  Proof. intros H. destruct (gk_surj E H) as [k [_ ->]]. rewrite gk_mul. apply gk_None. exists k; ring. Qed.

  Lemma ezmul_mod k E : eon E -> ezmul (k mod n) E = ezmul k E.
  Proof. intros H. apply (order_mod p (c_a C) (c_b C) isnice n n_prime E k H), order_all', H. Qed.

  Lemma order_exact' E k : eon E -> E <> None -> (ezmul k E = None <-> (n | k)).
  Proof.
    intros H N. split.
    - apply (order_exact p (c_a C) (c_b C) isnice n n_prime E k H N), order_all', H.
    - intros [m ->]. rewrite (ezmul_mul p (c_a C) (c_b C) isnice), order_all' by assumption. apply ezmul_None.
  Qed.

  (** [P] is the library's representation of k*G *)
  Definition rk (P : point) (k : Z) : Prop := exists c, lv (gk k) c /\ P = inj c (gk k).

  Lemma rk_eqk P i j : rk P i -> (n | i - j) -> rk P j.
  Proof. intros [c [L ->]] D. exists c. apply gk_eq in D. rewrite <- D. split; [assumption|reflexivity]. Qed.

  Lemma rk_fun P i j : rk P i -> rk P j -> (n | i - j).
  Proof.
    intros [c [_ ->]] [c' [_ E]]. apply gk_eq.
    destruct (gk i) as [[x y]|], (gk j) as [[x' y']|]; cbn [inj] in E; try discriminate E; [|reflexivity].
    injection E as E1 E2 _. apply val_inj in E1, E2. subst. reflexivity.
  Qed.

  Lemma rk_inf k : rk (pt_inf C) k -> (n | k).
  Proof.
    intros [c [_ E]]. apply gk_None. destruct (gk k) as [[x y]|]; [discriminate E|reflexivity].
  Qed.

  Lemma rk_pinf P k : rk P k -> (pinf P = true <-> (n | k)).
  Proof.
    intros [c [_ ->]]. rewrite <- gk_None. destruct (gk k) as [[x y]|]; cbn; split; congruence.
  Qed.

  Lemma rk_gen c : live c = true -> rk (gen C c) 1.
  Proof.
    intros L. exists c; split; [apply lv_live, L|]. rewrite gk_1. unfold gen, pt_z, gen_pt. cbn [inj]. rewrite !emb_new. reflexivity.
  Qed.

  Lemma padd_rk P Q i j : rk P i -> rk Q j -> exists R, padd dbg live C P Q = Ok R /\ rk R (i + j).
  Proof.
    intros [c [L ->]] [c' [L' ->]]. rewrite padd_inj by (assumption || apply gk_on). eexists; split; [reflexivity|].
    exists (pick (gk i) c c'). rewrite <- gk_add. split; [apply lv_add; assumption|reflexivity].
  Qed.

  Lemma psub_rk P Q i j : rk P i -> rk Q j -> ~ (n | i) -> ~ (n | j) ->
    exists R, psub dbg live C P Q = Ok R /\ rk R (i - j).
  Proof.
    intros [c [L ->]] [c' [L' ->]] Ni Nj. rewrite psub_inj by (assumption || apply gk_on || (rewrite gk_None; assumption)).
    eexists; split; [reflexivity|]. exists c; split; [|rewrite gk_neg, gk_add; reflexivity].
    apply lv_live, L. rewrite gk_None; assumption.
  Qed.

  Lemma pmul_rk P i s : rk P i -> 0 <= fval s -> exists R, pmul dbg live C P s = Ok R /\ rk R (fval s * i).
  Proof.
    intros [c [L ->]] S. rewrite pmul_inj by (assumption || apply gk_on). eexists; split; [reflexivity|].
    exists c; split; [|rewrite gk_mul; reflexivity].
    intros N. apply L. intros F. apply N. rewrite <- gk_mul, F. apply ezmul_None.
  Qed.

  Lemma pmulz_rk P i a : rk P i -> exists R, pmulz dbg live C P a = Ok R /\ rk R (a * i).
  Proof.
    intros H. pose proof n_gt1'. unfold pmulz.
    assert (F : fval (fe_new (fieldn C) a) = a mod n) by (rewrite (g_fieldn C HC); reflexivity).
    destruct (pmul_rk P i (fe_new (fieldn C) a) H) as [R [E K]].
    - rewrite F. apply Z.mod_pos_bound. lia.
    - exists R; split; [assumption|]. rewrite F in K. apply (rk_eqk _ _ _ K).
      exists (- (a / n) * i). rewrite Z.mod_eq by lia. ring.
  Qed.

  Lemma peq_rk P Q i j : rk P i -> rk Q j -> exists b, peq live C P Q = Ok b /\ (b = true <-> (n | i - j)).
  Proof.
    intros [c [L ->]] [c' [L' ->]]. rewrite peq_inj by (assumption || apply gk_on). eexists; split; [reflexivity|].
    rewrite <- gk_eq. destruct (ept_dec p (gk i) (gk j)); split; congruence.
  Qed.

  Lemma isValid_rk P i : rk P i -> isValid dbg live C P = Ok true.
  Proof. intros [c [L ->]]. apply isValid_inj; [apply gk_on|assumption]. Qed.
End Ecc.
