(** The curve group over Z/p and its order.  Mathematics only; models no code. *)
From Coq Require Import ZArith Znumtheory List Lia Bool Zpow_facts.
From Verif Require Import Fermat ZpField ECGroup.
Import ListNotations.
Open Scope Z_scope.

Section Curve.
  Variables p a b : Z.

  (** points of y^2 = x^3 + a x + b over Z/p, [None] being the point at infinity *)
  Definition ept : Type := pt (Fp p).
  Definition eon : ept -> Prop := on (Fp p) (fadd p) (fmul p) (mk p a) (mk p b).
  Definition eneg : ept -> ept := neg (Fp p) (fopp p).
  Definition eadd : ept -> ept -> ept :=
    add (Fp p) (f1 p) (fadd p) (fmul p) (fsub p) (fdiv p) (eqFp p) (mk p a).
  Definition ezmul : Z -> ept -> ept :=
    zmul (Fp p) (f1 p) (fadd p) (fmul p) (fsub p) (fopp p) (fdiv p) (eqFp p) (mk p a).

  Record nice : Prop := {
    nice_prime : prime p;
    nice_odd : Z.odd p = true;
    nice_no_root : forall x, (x * x * x + a * x + b) mod p <> 0 }.

  Hypothesis H : nice.

  Lemma nice_field : Field_theory.field_theory (f0 p) (f1 p) (fadd p) (fmul p) (fsub p) (fopp p) (fdiv p) (finv p) eq.
  Proof. apply field_Fp, nice_prime, H. Qed.

  Lemma nice_two : fadd p (f1 p) (f1 p) <> f0 p.
  Proof. apply two_nz_Fp; apply H. Qed.

  Lemma nice_no2 : forall x : Fp p,
    fadd p (fadd p (fmul p (fmul p x x) x) (fmul p (mk p a) x)) (mk p b) <> f0 p.
  Proof.
    intros x E. apply (nice_no_root H (val p x)). rewrite <- (mk_val p x) in E.
    rewrite !mk_mul, !mk_add in E. apply mk_eq_inv in E. rewrite E. reflexivity.
  Qed.

  Local Ltac G l := eapply l; try exact nice_field; try exact nice_two; try exact nice_no2; try exact (eqFp p); try eassumption.

  Lemma ept_dec (P Q : ept) : {P = Q} + {P <> Q}.
  Proof. apply pt_dec, eqFp. Qed.
  Lemma eon_add P Q : eon P -> eon Q -> eon (eadd P Q).
  Proof. intros; G on_add. Qed.
  Lemma eon_neg P : eon P -> eon (eneg P).
  Proof. intros; G on_neg. Qed.
  Lemma eon_zmul k P : eon P -> eon (ezmul k P).
  Proof. intros; G on_zmul. Qed.
  Lemma eadd_assoc P Q R : eon P -> eon Q -> eon R -> eadd (eadd P Q) R = eadd P (eadd Q R).
  Proof. intros; G add_assoc. Qed.
  Lemma eadd_comm P Q : eon P -> eon Q -> eadd P Q = eadd Q P.
  Proof. intros; G add_comm. Qed.
  Lemma eadd_0_l P : eadd None P = P.
  Proof. reflexivity. Qed.
  Lemma eadd_0_r P : eadd P None = P.
  Proof. apply add_None_r. Qed.
  Lemma eadd_neg_r P : eon P -> eadd P (eneg P) = None.
  Proof. intros; G add_neg_r. Qed.
  Lemma eadd_neg_l P : eon P -> eadd (eneg P) P = None.
  Proof. intros; G add_neg_l. Qed.
  Lemma eneg_neg P : eneg (eneg P) = P.
  Proof. G neg_neg. Qed.
  Lemma eneg_add P Q : eon P -> eon Q -> eneg (eadd P Q) = eadd (eneg P) (eneg Q).
  Proof. intros; G neg_add. Qed.
  Lemma eadd_sub P Q : eon P -> eon Q -> eadd (eadd P Q) (eneg Q) = P.
  Proof. intros; G add_sub. Qed.
  Lemma eadd_cancel_r P P' Q : eon P -> eon P' -> eon Q -> eadd P Q = eadd P' Q -> P = P'.
  Proof. intros; G add_cancel_r. Qed.
  Lemma eadd_None_inv P Q : eon P -> eon Q -> eadd P Q = None -> Q = eneg P.
  Proof. intros; G add_None_inv. Qed.
  Lemma eno_self_neg P : eon P -> P = eneg P -> P = None.
  Proof. intros; G no_self_neg. Qed.
  Lemma edouble_ne P : eon P -> P <> None -> eadd P P <> None.
  Proof. intros; G double_ne. Qed.
  Lemma ezmul_add j k P : eon P -> ezmul (j + k) P = eadd (ezmul j P) (ezmul k P).
  Proof. intros; G zmul_add. Qed.
  Lemma ezmul_mul j k P : eon P -> ezmul (j * k) P = ezmul j (ezmul k P).
  Proof. intros; G zmul_mul. Qed.
  Lemma ezmul_distr k P Q : eon P -> eon Q -> ezmul k (eadd P Q) = eadd (ezmul k P) (ezmul k Q).
  Proof. intros; G zmul_distr. Qed.
  Lemma ezmul_opp k P : ezmul (- k) P = eneg (ezmul k P).
  Proof. G zmul_opp. Qed.
  Lemma ezmul_neg k P : eon P -> ezmul k (eneg P) = eneg (ezmul k P).
  Proof. intros; G zmul_neg. Qed.
  Lemma ezmul_None k : ezmul k None = None.
  Proof. apply zmul_None. Qed.
  Lemma ezmul_1 P : ezmul 1 P = P.
  Proof. apply zmul_1. Qed.
  Lemma ezmul_0 P : ezmul 0 P = None.
  Proof. reflexivity. Qed.

  (** ** An injection of the points into [0, 2p] *)
  Definition code (P : ept) : Z :=
    match P with
    | None => 2 * p
    | Some (x, y) => 2 * val p x + val p y mod 2
    end.

  Lemma code_range P : 0 <= code P <= 2 * p.
  Proof.
    pose proof (p_gt1 p (nice_prime H)). destruct P as [[x y]|]; cbn [code]; [|lia].
    pose proof (val_range p (nice_prime H) x). pose proof (Z.mod_pos_bound (val p y) 2). lia.
  Qed.

  Lemma code_inj P Q : eon P -> eon Q -> code P = code Q -> P = Q.
  Proof.
    intros HP HQ E. pose proof (nice_prime H) as Hp. pose proof (p_gt1 p Hp).
    destruct P as [[x y]|], Q as [[x' y']|]; cbn [code] in E.
    - pose proof (val_range p Hp x). pose proof (val_range p Hp x').
      pose proof (Z.mod_pos_bound (val p y) 2). pose proof (Z.mod_pos_bound (val p y') 2).
      assert (Ex : val p x = val p x') by lia. apply val_inj in Ex; subst x'.
      assert (Ey : val p y mod 2 = val p y' mod 2) by lia.
      assert (S : y = y' \/ y = fopp p y') by (G same_x).
      destruct S as [->| ->]; [reflexivity|exfalso].
      assert (N : y' <> f0 p) by (G on_y_nz).
      pose proof (val_range p Hp y') as R.
      assert (val p y' <> 0).
      { intros Z0. apply N. rewrite <- (mk_val p y'), Z0. reflexivity. }
      change (val p (fopp p y')) with ((- val p y') mod p) in Ey.
      rewrite <- (Z_mod_plus_full (- val p y') 1 p), (Z.mod_small (- val p y' + 1 * p) p) in Ey by lia.
      pose proof (nice_odd H) as Ho. rewrite Zodd_mod in Ho. apply Zeq_bool_eq in Ho.
      pose proof (Z.div_mod p 2). pose proof (Z.div_mod (val p y') 2).
      pose proof (Z.div_mod (- val p y' + 1 * p) 2). lia.
    - pose proof (val_range p Hp x). pose proof (Z.mod_pos_bound (val p y) 2). lia.
    - pose proof (val_range p Hp x'). pose proof (Z.mod_pos_bound (val p y') 2). lia.
    - reflexivity.
  Qed.

  (** ** A point of large prime order generates the whole group *)
  Variables (n : Z) (P0 : ept).
  Hypothesis Hn : prime n.
  Hypothesis HP0 : eon P0.
  Hypothesis NP0 : P0 <> None.
  Hypothesis OP0 : ezmul n P0 = None.
  Hypothesis Big : 2 * p + 1 < 3 * n.

  Lemma n_gt1 : 1 < n.
  Proof. destruct Hn; assumption. Qed.

  (** multiples depend on the scalar modulo the order only *)
  Lemma order_mod P k : eon P -> ezmul n P = None -> ezmul (k mod n) P = ezmul k P.
  Proof.
    intros HP HO. pose proof n_gt1.
    rewrite (Z.div_mod k n) at 2 by lia.
    rewrite ezmul_add, (Z.mul_comm n), ezmul_mul, HO, ezmul_None by assumption. reflexivity.
  Qed.

  Lemma order_exact P k : eon P -> P <> None -> ezmul n P = None -> ezmul k P = None -> (n | k).
  Proof.
    intros HP NP HO Hk. destruct (Znumtheory.Zdivide_dec n k) as [Hd|Hd]; [assumption|exfalso].
    pose proof (prime_rel_prime n Hn k Hd) as Hr.
    apply rel_prime_bezout in Hr. destruct Hr as [u v E].
    apply NP. rewrite <- (ezmul_1 P), <- E, ezmul_add by assumption.
    rewrite !ezmul_mul, HO, Hk, !ezmul_None by assumption. reflexivity.
  Qed.

  Lemma zmul_inj P i j : eon P -> P <> None -> ezmul n P = None -> 0 <= i < n -> 0 <= j < n ->
    ezmul i P = ezmul j P -> i = j.
  Proof.
    intros HP NP HO Hi Hj E.
    assert (Z0 : ezmul (i - j) P = None).
    { replace (i - j) with (i + - j) by lia. rewrite ezmul_add, ezmul_opp, E by assumption.
      apply eadd_neg_r, eon_zmul; assumption. }
    apply order_exact in Z0; try assumption. destruct Z0 as [k Hk].
    assert (k = 0) by nia. lia.
  Qed.

  Definition multiples : list ept := map (fun i => ezmul (i - 1) P0) (zrange (n + 1)).

  Lemma half_in P k : eon P -> ezmul 2 P = ezmul k P0 -> exists h, P = ezmul h P0.
  Proof.
    intros HP E. pose proof n_gt1. pose proof (Z.div_mod (n + 1) 2 ltac:(lia)) as HD.
    destruct (Z.eq_dec n 2) as [->|N2].
    { pose proof (p_gt1 p (nice_prime H)). pose proof (nice_odd H) as Ho.
      assert (p = 2) as Hp2 by lia. rewrite Hp2 in Ho. discriminate. }
    assert (Odd : (n + 1) mod 2 = 0).
    { destruct (Z.eq_dec ((n + 1) mod 2) 0) as [|N]; [assumption|exfalso].
      pose proof (Z.mod_pos_bound (n + 1) 2). assert ((n + 1) mod 2 = 1) as HM by lia.
      assert (D2 : (2 | n)). { exists ((n + 1) / 2). lia. }
      apply prime_divisors in D2; [lia|assumption]. }
    set (h := (n + 1) / 2 * k). exists h.
    set (T := eadd P (eneg (ezmul h P0))).
    assert (HT : eon T) by (apply eon_add, eon_neg, eon_zmul; assumption).
    assert (T2 : eadd T T = None).
    { assert (E2 : ezmul 2 T = eadd T T)
        by (change (ezmul 2 T) with (eadd T (eadd T None)); rewrite eadd_0_r; reflexivity).
      rewrite <- E2.
      unfold T. rewrite ezmul_distr, E, ezmul_neg, <- ezmul_mul by auto using eon_neg, eon_zmul.
      rewrite <- (order_mod P0 (2 * h)) by assumption.
      replace (2 * h) with (k + k * n) by (unfold h; nia). rewrite Z_mod_plus_full, order_mod by assumption.
      apply eadd_neg_r, eon_zmul; assumption. }
    apply eadd_None_inv in T2; try assumption. apply eno_self_neg in T2; [|assumption].
    unfold T in T2. apply eadd_None_inv in T2; auto using eon_neg, eon_zmul.
    rewrite <- (eneg_neg P), <- T2, eneg_neg. reflexivity.
  Qed.

  Theorem cyclic P : eon P -> exists k, 0 <= k < n /\ P = ezmul k P0.
  Proof.
    intros HP. pose proof n_gt1 as Hn1.
    assert (Hin : (exists k, P = ezmul k P0) -> exists k, 0 <= k < n /\ P = ezmul k P0).
    { intros [k ->]. exists (k mod n); split; [apply Z.mod_pos_bound; lia|].
      symmetry; apply order_mod; assumption. }
    destruct (in_dec ept_dec P multiples) as [HI|HI].
    { apply in_map_iff in HI. destruct HI as [i [<- Hi]]. apply zrange_In in Hi.
      exists (i - 1); split; [lia|reflexivity]. }
    assert (NI : forall k, P <> ezmul k P0).
    { intros k E. apply HI. apply in_map_iff. exists (k mod n + 1).
      pose proof (Z.mod_pos_bound k n ltac:(lia)). split; [|apply zrange_In; lia].
      rewrite E. replace (k mod n + 1 - 1) with (k mod n) by lia. apply order_mod; assumption. }
    exfalso.
    set (f := fun i => code (eadd (ezmul ((i - 1) / n) P) (ezmul ((i - 1) mod n) P0))).
    assert (ND : NoDup (map f (zrange (3 * n + 1)))).
    { apply NoDup_map_inj; [|apply zrange_NoDup].
      intros i j Hi Hj E. apply zrange_In in Hi. apply zrange_In in Hj.
      unfold f in E. apply code_inj in E; auto using eon_add, eon_zmul.
      set (c := (i - 1) / n) in *. set (d := (j - 1) / n) in *.
      set (u := (i - 1) mod n) in *. set (v := (j - 1) mod n) in *.
      pose proof (Z.div_mod (i - 1) n ltac:(lia)) as Di. pose proof (Z.div_mod (j - 1) n ltac:(lia)) as Dj.
      fold c u in Di. fold d v in Dj.
      assert (Ru : 0 <= u < n) by (apply Z.mod_pos_bound; lia).
      assert (Rv : 0 <= v < n) by (apply Z.mod_pos_bound; lia).
      assert (Rc : 0 <= c < 3). { split; [apply Z.div_pos; lia|apply Z.div_lt_upper_bound; lia]. }
      assert (Rd : 0 <= d < 3). { split; [apply Z.div_pos; lia|apply Z.div_lt_upper_bound; lia]. }
      assert (K : ezmul (c - d) P = ezmul (v - u) P0).
      { apply (eadd_cancel_r _ _ (eadd (ezmul d P) (ezmul u P0))); auto using eon_add, eon_zmul.
        rewrite <- eadd_assoc, <- ezmul_add by auto using eon_zmul.
        rewrite (eadd_comm (ezmul d P)), <- eadd_assoc, <- ezmul_add by auto using eon_zmul.
        replace (c - d + d) with c by lia. replace (v - u + u) with v by lia.
        rewrite E, eadd_comm by auto using eon_zmul. reflexivity. }
      assert (K' : ezmul (d - c) P = ezmul (u - v) P0).
      { replace (d - c) with (- (c - d)) by lia. replace (u - v) with (- (v - u)) by lia.
        rewrite !ezmul_opp, K. reflexivity. }
      assert (C : c - d = 0 \/ c - d = 1 \/ d - c = 1 \/ c - d = 2 \/ d - c = 2) by lia.
      destruct C as [C|[C|[C|[C|C]]]].
      - rewrite C in K. assert (V : ezmul v P0 = ezmul u P0).
        { replace v with ((v - u) + u) by lia. rewrite ezmul_add, <- K by assumption. reflexivity. }
        apply zmul_inj in V; auto. nia.
      - exfalso. rewrite C, ezmul_1 in K. apply (NI _ K).
      - exfalso. rewrite C, ezmul_1 in K'. apply (NI _ K').
      - exfalso. rewrite C in K. destruct (half_in _ _ HP K) as [h Hh]. apply (NI _ Hh).
      - exfalso. rewrite C in K'. destruct (half_in _ _ HP K') as [h Hh]. apply (NI _ Hh). }
    assert (IN : incl (map f (zrange (3 * n + 1))) (map (fun x => x - 1) (zrange (2 * p + 2)))).
    { intros z Hz. apply in_map_iff in Hz. destruct Hz as [i [<- _]].
      apply in_map_iff. exists (f i + 1); split; [lia|]. apply zrange_In.
      pose proof (code_range (eadd (ezmul ((i - 1) / n) P) (ezmul ((i - 1) mod n) P0))) as CR.
      fold (f i) in CR. lia. }
    pose proof (NoDup_incl_length ND IN) as L. rewrite !map_length in L.
    unfold zrange in L. rewrite !map_length, !seq_length in L.
    pose proof (p_gt1 p (nice_prime H)). lia.
  Qed.

  Theorem order_all P : eon P -> ezmul n P = None.
  Proof.
    intros HP. destruct (cyclic P HP) as [k [_ ->]].
    rewrite <- ezmul_mul, Z.mul_comm, ezmul_mul, OP0 by assumption. apply ezmul_None.
  Qed.
End Curve.
