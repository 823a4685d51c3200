(** Proofs about changed shares and about one share too few. *)
From Coq Require Import ZArith Znumtheory Bool List Lia Field.
From Verif Require Import Outcome FieldModel ZpField SpecField FieldProofs Primes CurveParams Emb Poly ShamirModel SpecShamir ShamirProofs.
Import ListNotations.
Open Scope Z_scope.

Section Proofs.
  Variable dbg : bool.
  Notation q := FIELD.
  Let Hq : prime q := prime_FIELD.
  Let HF := field_Fp q Hq.
  Add Field ShField2 : HF.
  Notation F := (Fp q).
  Notation mk := (mk q).
  Notation em := (em q).
  Notation peval := (peval q).

  Lemma em_mk x : scalar x -> x = em (mk (fval x)).
  Proof. apply em_surj. Qed.

  (** ** C64 *)
  Definition others (xs1 xs2 : list fe) : list F := map (fun y => mk (fval y)) (xs1 ++ xs2).
  Definition nums (xs1 xs2 : list fe) : F := prod q (others xs1 xs2).
  Definition dens (xs1 : list fe) (x : fe) (xs2 : list fe) : F :=
    prod q (map (fun y => fsub q y (mk (fval x))) (others xs1 xs2)).

  Lemma nums_ne0 xs1 xs2 : Forall scalar (xs1 ++ xs2) -> (forall y, In y (xs1 ++ xs2) -> fval y <> 0) -> nums xs1 xs2 <> f0 q.
  Proof.
    intros A N E. apply (prod_0 q Hq), in_map_iff in E. destruct E as [y [E I]].
    apply (N y I). rewrite Forall_forall in A. specialize (A y I). apply (f_equal (val q)) in E.
    rewrite val_mk in E. destruct A as [_ B]. rewrite Z.mod_small in E by exact B. exact E.
  Qed.
  Lemma dens_ne0 xs1 x xs2 : Forall scalar (xs1 ++ x :: xs2) -> NoDup (xs1 ++ x :: xs2) -> dens xs1 x xs2 <> f0 q.
  Proof.
    intros A N E. apply (prod_0 q Hq), in_map_iff in E. destruct E as [z [E I]]. apply (fsub_eq0 q Hq) in E.
    apply in_map_iff in I. destruct I as [y [<- I]]. rewrite Forall_forall in A.
    assert (Y : y = x).
    { rewrite (em_mk y), (em_mk x), E; [reflexivity| |].
      - apply A, in_app_iff. right. left. reflexivity.
      - apply A, in_app_iff. apply in_app_iff in I. destruct I; [left|right; right]; assumption. }
    subst y. apply NoDup_remove_2 in N. contradiction.
  Qed.

  (** adding [d * dens / nums] to the value adds [d] to the result *)
  Lemma shift l1 s l2 r d : Forall sh_ok (l1 ++ s :: l2) -> NoDup (map sidx (l1 ++ s :: l2)) ->
    (forall y, In y (l1 ++ l2) -> fval (sidx y) <> 0) -> reconSecret dbg (l1 ++ s :: l2) = Ok r ->
    reconSecret dbg (l1 ++ mkshare (sidx s) (em (fadd q (mk (fval (sval s)))
        (fmul q d (fdiv q (dens (map sidx l1) (sidx s) (map sidx l2)) (nums (map sidx l1) (map sidx l2)))))) :: l2) =
      Ok (em (fadd q (mk (fval r)) d)).
  Proof.
    intros A N Z0 E. destruct (recon_exists _ A N) as [f [Lf Hf]].
    rewrite (recon_poly dbg _ f A N ltac:(lia) Hf) in E. apply Ok_inj in E. subst r.
    assert (N0 : nums (map sidx l1) (map sidx l2) <> f0 q).
    { apply nums_ne0.
      - rewrite <- map_app. rewrite Forall_forall in *. intros y I. apply in_map_iff in I. destruct I as [t [<- I]].
        apply A. apply in_app_iff in I. apply in_app_iff. destruct I; [left|right; right]; assumption.
      - rewrite <- map_app. intros y I. apply in_map_iff in I. destruct I as [t [<- I]]. exact (Z0 t I). }
    set (a := fdiv q d (nums (map sidx l1) (map sidx l2))).
    set (g := pscale q a (plins q (others (map sidx l1) (map sidx l2)))).
    set (v := fmul q d _). set (s' := mkshare _ _).
    assert (Lo : length (others (map sidx l1) (map sidx l2)) = (length l1 + length l2)%nat).
    { unfold others. rewrite map_length, app_length, !map_length. reflexivity. }
    rewrite (recon_poly dbg (l1 ++ s' :: l2) (padd q f g)).
    - f_equal. f_equal. rewrite (peval_padd q Hq). unfold g. rewrite (peval_pscale q Hq), (peval_plins q Hq).
      assert (M : map (fun y => fsub q y (f0 q)) (others (map sidx l1) (map sidx l2)) = others (map sidx l1) (map sidx l2)).
      { rewrite <- (map_id (others _ _)) at 2. apply map_ext. intros y. ring. }
      rewrite M. fold (nums (map sidx l1) (map sidx l2)). unfold a. change (fval (em (peval f (f0 q)))) with (val q (peval f (f0 q))).
      rewrite mk_val. field. exact N0.
    - rewrite Forall_app in *. destruct A as [A1 A2]. split; [exact A1|]. inversion A2 as [|? ? A3 A4]; subst.
      constructor; [|exact A4]. split; [apply A3|]. apply em_canon. exact Hq.
    - rewrite map_app in *. exact N.
    - rewrite padd_length, Lf. unfold g. rewrite pscale_length, plins_length, Lo, !app_length. cbn [length]. lia.
    - intros t I. rewrite (peval_padd q Hq). unfold g. rewrite (peval_pscale q Hq), (peval_plins q Hq).
      assert (O : In t (l1 ++ l2) -> fadd q (peval f (sx t)) (fmul q a (prod q (map (fun y => fsub q y (sx t)) (others (map sidx l1) (map sidx l2))))) = sv t).
      { intros J. rewrite (Hf t). 2:{ apply in_app_iff in J. apply in_app_iff. destruct J; [left|right; right]; assumption. }
        assert (P0 : prod q (map (fun y => fsub q y (sx t)) (others (map sidx l1) (map sidx l2))) = f0 q).
        { apply (prod_0 q Hq), in_map_iff. exists (sx t). split; [ring|]. unfold others. rewrite <- map_app, map_map.
          apply in_map_iff. exists t. split; [reflexivity|exact J]. }
        rewrite P0. ring. }
      apply in_app_iff in I. destruct I as [I|[I|I]].
      + apply O, in_app_iff. left. exact I.
      + subst t. change (sx s') with (sx s). rewrite (Hf s) by (apply in_app_iff; right; left; reflexivity).
        unfold s', sv. cbn [sval]. change (fval (em ?z)) with (val q z). rewrite mk_val. f_equal.
        fold (dens (map sidx l1) (sidx s) (map sidx l2)). unfold v, a.
        change (prod q (map (fun y => fsub q y (sx s)) (others (map sidx l1) (map sidx l2)))) with (dens (map sidx l1) (sidx s) (map sidx l2)).
        field. exact N0.
      + apply O, in_app_iff. right. exact I.
  Qed.

  Lemma L_C64 xs1 x xs2 d : Forall scalar (xs1 ++ x :: xs2) -> NoDup (xs1 ++ x :: xs2) ->
    (forall y, In y (xs1 ++ xs2) -> fval y <> 0) ->
    exists c, forall l1 s l2 r, Forall sh_ok (l1 ++ s :: l2) -> map sidx l1 = xs1 -> sidx s = x -> map sidx l2 = xs2 ->
      reconSecret dbg (l1 ++ s :: l2) = Ok r ->
      reconSecret dbg (l1 ++ mkshare x (fe_new q (fval (sval s) + c)) :: l2) = Ok (fe_new q (fval r + d)).
  Proof.
    intros A N Z0. exists (val q (fmul q (mk d) (fdiv q (dens xs1 x xs2) (nums xs1 xs2)))).
    intros l1 s l2 r Ao <- <- <- E.
    rewrite em_new, em_new, <- !mk_add, mk_val. apply shift; try assumption.
    - rewrite map_app. exact N.
    - intros y I. apply Z0. rewrite <- map_app. apply in_map_iff. exists y. split; [reflexivity|exact I].
  Qed.

  Lemma L_C64_changes l1 s l2 v r : Forall sh_ok (l1 ++ s :: l2) -> NoDup (map sidx (l1 ++ s :: l2)) ->
    (forall y, In y (l1 ++ l2) -> fval (sidx y) <> 0) -> scalar v ->
    reconSecret dbg (l1 ++ s :: l2) = Ok r -> reconSecret dbg (l1 ++ mkshare (sidx s) v :: l2) = Ok r -> v = sval s.
  Proof.
    intros A N Z0 V E E'.
    assert (SV : scalar (sval s)). { rewrite Forall_forall in A. apply A, in_app_iff. right. left. reflexivity. }
    set (D := dens (map sidx l1) (sidx s) (map sidx l2)). set (M := nums (map sidx l1) (map sidx l2)).
    assert (ND : D <> f0 q).
    { apply dens_ne0.
      - replace (map sidx l1 ++ sidx s :: map sidx l2) with (map sidx (l1 ++ s :: l2)) by apply map_app.
        rewrite Forall_forall in *. intros y I. apply in_map_iff in I. destruct I as [t [<- I]]. apply A, I.
      - rewrite map_app in N. exact N. }
    assert (NM : M <> f0 q).
    { apply nums_ne0.
      - rewrite <- map_app. rewrite Forall_forall in *. intros y I. apply in_map_iff in I. destruct I as [t [<- I]].
        apply A. apply in_app_iff in I. apply in_app_iff. destruct I; [left|right; right]; assumption.
      - rewrite <- map_app. intros y I. apply in_map_iff in I. destruct I as [t [<- I]]. exact (Z0 t I). }
    set (d := fmul q (fsub q (mk (fval v)) (mk (fval (sval s)))) (fdiv q M D)).
    pose proof (shift l1 s l2 r d A N Z0 E) as H. fold D M in H.
    assert (Ev : fadd q (mk (fval (sval s))) (fmul q d (fdiv q D M)) = mk (fval v)).
    { unfold d. field. split; assumption. }
    rewrite Ev, <- (em_mk v V), E' in H. apply Ok_inj in H.
    assert (R : r = em (mk (fval r))).
    { apply em_mk. rewrite H. apply em_canon. exact Hq. }
    rewrite R in H at 1. apply em_inj in H.
    assert (D0 : d = f0 q).
    { transitivity (fsub q (fadd q (mk (fval r)) d) (mk (fval r))); [ring|]. rewrite <- H. ring. }
    unfold d in D0. apply fmul_0 in D0; [|exact Hq]. destruct D0 as [D0|D0].
    - apply (fsub_eq0 q Hq) in D0. rewrite (em_mk v V), (em_mk (sval s) SV), D0. reflexivity.
    - exfalso. apply NM. transitivity (fmul q (fdiv q M D) D); [field; exact ND|]. rewrite D0. ring.
  Qed.

  (** ** C65 *)
  Fixpoint fpow (y : F) (m : nat) : F := match m with O => f1 q | S m' => fmul q y (fpow y m') end.
  Lemma peval_top f : forall c y, peval (f ++ [c]) y = fadd q (peval f y) (fmul q c (fpow y (length f))).
  Proof.
    induction f as [|a f IH]; intros c y; [cbn [app Poly.peval length fpow]; ring|]. cbn [app Poly.peval length fpow]. rewrite IH. ring.
  Qed.
  Lemma peval_repeat m y : peval (repeat (f0 q) m) y = f0 q.
  Proof. induction m as [|m IH]; cbn [repeat Poly.peval]; [reflexivity|]. rewrite IH. ring. Qed.
  (** y^m - prod (y - x) is a shorter polynomial *)
  Lemma lower xs : exists e, length e = length xs /\
    forall y, peval e y = fsub q (fpow y (length xs)) (prod q (map (fun x => fsub q y x) xs)).
  Proof.
    induction xs as [|x xs [e [L H]]].
    - exists []. split; [reflexivity|]. intros y. cbn [Poly.peval length fpow map prod fold_right]. ring.
    - exists (padd q (repeat (f0 q) (length xs) ++ [x]) (padd q (f0 q :: e) (pscale q (fopp q x) e))). split.
      + rewrite !padd_length, pscale_length, app_length, repeat_length. cbn [length]. lia.
      + intros y. rewrite !(peval_padd q Hq), (peval_pscale q Hq), peval_top, repeat_length. cbn [Poly.peval length fpow map].
        rewrite peval_repeat, !H. cbn [prod fold_right]. fold (prod q (map (fun x => fsub q y x) xs)). ring.
  Qed.

  Lemma L_C65 cap rnd t n secret shares sel : 2 <= t < SIZE -> n < SIZE -> rand_range rnd -> scalar secret ->
    getShares dbg cap rnd t n secret = Ok shares ->
    NoDup sel -> incl sel shares -> Z.of_nat (length sel) = t - 1 ->
    (reconSecret dbg sel = Ok secret <-> (rnd (Z.to_nat (t - 2)) + 1) mod 100 = 0).
  Proof.
    intros Ht Hn R Hs E ND I L. apply getShares_inv in E; try assumption; [|lia]. subst shares.
    destruct (Z.neg_nonneg_cases n) as [Neg|Pos].
    { replace (Z.to_nat n) with O in I by lia. cbn in I. destruct sel as [|o sel]; [cbn in L; lia|]. exfalso. exact (I o (or_introl eq_refl)). }
    destruct (sel_facts _ (Z.to_nat n) sel ltac:(lia) ND I) as [A [B D]].
    replace (Z.to_nat (t - 1)) with (S (Z.to_nat (t - 2))) in D by lia. set (k := Z.to_nat (t - 2)) in *.
    unfold draws in D. rewrite seq_S, map_app, map_app in D. cbn [map] in D. rewrite Nat.add_0_l in D.
    set (c := (rnd k + 1) mod 100) in *. set (f := mk (fval secret) :: map mk (map (fun i => (rnd i + 1) mod 100) (seq 0 k))).
    assert (Lf : length f = S k) by (unfold f; cbn [length]; rewrite !map_length, seq_length; reflexivity).
    destruct (lower (map sx sel)) as [e [Le He]]. rewrite map_length in Le, He.
    assert (Lsel : length sel = S k) by lia.
    rewrite (recon_poly dbg sel (padd q f (pscale q (mk c) e)) A B).
    - rewrite (peval_padd q Hq), (peval_pscale q Hq), He. rewrite Lsel. cbn [fpow].
      set (P := prod q _).
      assert (NP : P <> f0 q).
      { intros Z0. apply (prod_0 q Hq), in_map_iff in Z0. destruct Z0 as [z [Z0 J]].
        apply in_map_iff in J. destruct J as [s [<- J]].
        assert (S0 : sx s = f0 q). { transitivity (fsub q (f0 q) (fsub q (f0 q) (sx s))); [ring|]. rewrite Z0. ring. }
        apply I, in_map_iff in J. destruct J as [i [<- J]]. apply in_seq in J. unfold sx in S0. cbn [the_share sidx] in S0.
        change (fval (em ?z)) with (val q z) in S0. rewrite mk_val in S0. pose proof FIELD_big.
        apply (f_equal (val q)) in S0. rewrite val_mk in S0. rewrite Z.mod_small in S0 by lia. cbn in S0. lia. }
      assert (F0 : peval f (f0 q) = mk (fval secret)) by (unfold f; cbn [Poly.peval]; ring).
      rewrite F0. rewrite (em_mk secret Hs) at 2.
      assert (C0 : mk c = f0 q <-> c = 0).
      { split; [|intros ->; reflexivity]. intros Z0. apply (f_equal (val q)) in Z0. rewrite val_mk in Z0.
        assert (0 <= c < 100) by (apply Z.mod_pos_bound; lia). pose proof FIELD_big. unfold SIZE in *.
        rewrite Z.mod_small in Z0 by lia. exact Z0. }
      rewrite <- C0. split.
      + intros Q. apply Ok_inj, em_inj in Q.
        assert (Q' : fmul q (mk c) P = f0 q).
        { transitivity (fsub q (mk (fval secret)) (fadd q (mk (fval secret))
            (fmul q (mk c) (fsub q (fmul q (f0 q) (fpow (f0 q) k)) P)))); [ring|]. rewrite Q. ring. }
        apply fmul_0 in Q'; [|exact Hq]. destruct Q'; [assumption|contradiction].
      + intros ->. f_equal. f_equal. ring.
    - rewrite padd_length, pscale_length, Lf, Le. lia.
    - intros s J. rewrite <- (D s J), (peval_padd q Hq), (peval_pscale q Hq), He. rewrite app_comm_cons. fold f.
      rewrite peval_top, Lf, Lsel. f_equal.
      assert (P0 : prod q (map (fun x => fsub q (sx s) x) (map sx sel)) = f0 q).
      { apply (prod_0 q Hq), in_map_iff. exists (sx s). split; [ring|]. apply in_map, J. }
      rewrite P0. ring.
  Qed.
End Proofs.
