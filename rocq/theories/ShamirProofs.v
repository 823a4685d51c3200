(** Proofs about secret sharing. *)
From Coq Require Import ZArith Znumtheory Bool List Lia Field.
From Verif Require Import Outcome FieldModel ZpField SpecField FieldProofs Primes CurveParams Emb Poly ShamirModel SpecShamir.
Import ListNotations.
Open Scope Z_scope.

Lemma prime_FIELD : prime FIELD.
Proof. exact prime_secp256r1_n. Qed.
Lemma FIELD_big : SIZE < FIELD.
Proof. vm_compute. reflexivity. Qed.

Lemma mapM_Ok {A B} (f : A -> B) l : mapM (fun a => Ok (f a)) l = Ok (map f l).
Proof. induction l as [|a l IH]; cbn; [reflexivity|]. rewrite IH. reflexivity. Qed.
Lemma mapM_ext {A B} (f g : A -> res B) l : (forall a, In a l -> f a = g a) -> mapM f l = mapM g l.
Proof.
  induction l as [|a l IH]; intros H; cbn; [reflexivity|].
  rewrite (H a (or_introl eq_refl)), IH; [reflexivity|]. intros; apply H; right; assumption.
Qed.

Section Proofs.
  Variable dbg : bool.
  Notation q := FIELD.
  Let Hq : prime q := prime_FIELD.
  Let HF := field_Fp q Hq.
  Add Field ShField : HF.
  Notation F := (Fp q).
  Notation mk := (mk q).
  Notation em := (em q).
  Notation peval := (peval q).

  Lemma evalPoly_em x f : evalPoly dbg (em x) (map em f) = Ok (em (peval f x)).
  Proof.
    assert (A : forall f y t, exists t', foldM (fun '(y, temp) coeff =>
       do u <- fe_mul dbg q coeff temp; do y' <- fe_add dbg q y u; do temp' <- fe_mul dbg q temp (em x); Ok (y', temp'))
       (map em f) (em y, em t) = Ok (em (fadd q y (fmul q t (peval f x))), t')).
    { clear f. induction f as [|c f IH]; intros y t; cbn [map foldM].
      - exists (em t). f_equal. f_equal. f_equal. cbn [Poly.peval]. ring.
      - rewrite (em_mul dbg q Hq). cbn [bind]. rewrite (em_add dbg q Hq). cbn [bind].
        rewrite (em_mul dbg q Hq). cbn [bind]. destruct (IH (fadd q y (fmul q c t)) (fmul q t x)) as [t' E].
        exists t'. rewrite E. f_equal. f_equal. f_equal. cbn [Poly.peval]. ring. }
    unfold evalPoly. rewrite em_new, em_default. destruct (A f (f0 q) (mk 1)) as [t' E].
    rewrite E. cbn [bind]. f_equal. f_equal. change (mk 1) with (f1 q). ring.
  Qed.

  (** ** polynomials on integers and on residues *)
  Lemma mk_poly_at cs x : mk (poly_at cs x) = peval (map mk cs) (mk x).
  Proof. induction cs as [|c cs IH]; cbn [poly_at map Poly.peval]; [reflexivity|]. rewrite <- mk_add, <- mk_mul, IH. reflexivity. Qed.

  Lemma mk_eq_iff a b : mk a = mk b <-> (q | a - b).
  Proof.
    pose proof (q_pos q Hq). split; intros H0.
    - apply mk_eq_inv in H0. apply Z.mod_divide; [lia|]. rewrite Zminus_mod, H0, Z.sub_diag, Z.mod_0_l by lia. reflexivity.
    - apply mk_eq. destruct H0 as [m H0]. replace a with (b + m * q) by lia. apply Z_mod_plus_full.
  Qed.

  Lemma on_poly_iff cs s : on_poly cs s <-> peval (map mk cs) (mk (fval (sidx s))) = mk (fval (sval s)).
  Proof. unfold on_poly. rewrite <- mk_poly_at, mk_eq_iff. reflexivity. Qed.

  (** ** reconSecret *)
  Section Recon.
    Variable shares : list share.
    Hypothesis Hok : Forall sh_ok shares.
    Let k := length shares.
    Let x i := mk (fval (sidx (at_ shares i))).
    Let v i := mk (fval (sval (at_ shares i))).

    Lemma at_ok i : (i < k)%nat -> sidx (at_ shares i) = em (x i) /\ sval (at_ shares i) = em (v i).
    Proof.
      intros H. unfold at_. assert (I : In (nth i shares (mkshare (fe_default q) (fe_default q))) shares) by (apply nth_In; exact H).
      rewrite Forall_forall in Hok. destruct (Hok _ I) as [A B]. unfold x, v, at_.
      split; apply em_surj; assumption.
    Qed.

    Lemma inner i l a b : (i < k)%nat -> (forall j, In j l -> (j < k)%nat) ->
      foldM (fun '(numerator, denominator) j =>
          if negb (Nat.eqb i j) then
            do numerator' <- fe_mul_eq dbg numerator (sidx (at_ shares j));
            do d <- fe_sub dbg q (sidx (at_ shares j)) (sidx (at_ shares i));
            do denominator' <- fe_mul_eq dbg denominator d;
            Ok (numerator', denominator')
          else Ok (numerator, denominator)) l (em a, em b) =
      let o := map x (filter (fun j => negb (Nat.eqb i j)) l) in
      Ok (em (fmul q a (prod q o)), em (fmul q b (prod q (map (fun y => fsub q y (x i)) o)))).
    Proof.
      intros Hi. revert a b. induction l as [|j l IH]; intros a b Hl; cbn [foldM filter map].
      - cbv zeta. unfold prod. cbn [map fold_right]. f_equal. f_equal; f_equal; ring.
      - destruct (negb (Nat.eqb i j)) eqn:E.
        + destruct (at_ok j (Hl j (or_introl eq_refl))) as [-> _]. destruct (at_ok i Hi) as [-> _].
          rewrite (em_mul_eq dbg q Hq). cbn [bind]. rewrite (em_sub dbg q Hq). cbn [bind].
          rewrite (em_mul_eq dbg q Hq). cbn [bind].
          destruct (at_ok i Hi) as [Ei _]. rewrite <- Ei.
          rewrite IH by (intros; apply Hl; right; assumption). cbv zeta. cbn [map prod fold_right]. unfold prod.
          f_equal. f_equal; f_equal; ring.
        + cbn [bind]. apply IH. intros; apply Hl; right; assumption.
    Qed.

    Definition outer_step (result : fe) (i : nat) : res fe :=
      do (numerator, denominator) <-
        foldM (fun '(numerator, denominator) j =>
          if negb (Nat.eqb i j) then
            do numerator' <- fe_mul_eq dbg numerator (sidx (at_ shares j));
            do d <- fe_sub dbg q (sidx (at_ shares j)) (sidx (at_ shares i));
            do denominator' <- fe_mul_eq dbg denominator d;
            Ok (numerator', denominator')
          else Ok (numerator, denominator))
          (seq 0 k) (fe_new q 1, fe_new q 1);
      do u <- fe_mul dbg q (sval (at_ shares i)) numerator;
      do w <- fe_div dbg q u denominator;
      fe_add_eq dbg result w.

    Lemma outer_em a i : (i < k)%nat ->
      outer_step (em a) i = if eqFp q (lden q k x i) (f0 q) then Err NoInverse else Ok (em (fadd q a (lterm q k x v i))).
    Proof.
      intros Hi. unfold outer_step. rewrite em_new.
      rewrite inner by (try exact Hi; intros j I; apply in_seq in I; unfold k in *; lia). cbv zeta. cbn [bind].
      fold (oth q k x i). fold (lnum q k x i). fold (lden q k x i). change (mk 1) with (f1 q).
      replace (fmul q (f1 q) (lnum q k x i)) with (lnum q k x i) by ring.
      replace (fmul q (f1 q) (lden q k x i)) with (lden q k x i) by ring.
      destruct (at_ok i Hi) as [_ ->]. rewrite (em_mul dbg q Hq). cbn [bind].
      destruct (eqFp q (lden q k x i) (f0 q)) as [E|N].
      - rewrite E, (em_div0 dbg q Hq). reflexivity.
      - rewrite (em_div dbg q Hq) by exact N. cbn [bind]. rewrite (em_add_eq dbg q Hq). reflexivity.
    Qed.

    Lemma recon_loop l : forall a, (forall i, In i l -> (i < k)%nat) ->
      foldM outer_step l (em a) =
      if existsb (fun i => if eqFp q (lden q k x i) (f0 q) then true else false) l then Err NoInverse
      else Ok (em (fadd q a (fsum q (map (lterm q k x v) l)))).
    Proof.
      induction l as [|i l IH]; intros a H; cbn [foldM existsb map].
      - f_equal. f_equal. unfold fsum. cbn [fold_right]. ring.
      - rewrite outer_em by (apply H; left; reflexivity).
        destruct (eqFp q (lden q k x i) (f0 q)); cbn [orb bind]; [reflexivity|].
        rewrite IH by (intros; apply H; right; assumption).
        destruct (existsb _ l); [reflexivity|]. f_equal. f_equal. cbn [fsum fold_right]. unfold fsum. ring.
    Qed.

    Lemma recon_distinct : (forall i j, (i < k)%nat -> (j < k)%nat -> x i = x j -> i = j) ->
      reconSecret dbg shares = Ok (em (fsum q (map (lterm q k x v) (seq 0 k)))).
    Proof.
      intros D. unfold reconSecret. fold k. fold outer_step. rewrite em_default.
      rewrite recon_loop by (intros i I; apply in_seq in I; lia).
      match goal with |- (if ?e then _ else _) = _ => destruct e eqn:E end.
      - apply existsb_exists in E. destruct E as [i [I E]]. apply in_seq in I.
        destruct (eqFp q (lden q k x i) (f0 q)) as [Z0|]; [|discriminate].
        exfalso. apply (lden_ne0 q Hq k x D i); [lia|exact Z0].
      - f_equal. f_equal. ring.
    Qed.

    Lemma recon_repeat i j : (i < k)%nat -> (j < k)%nat -> i <> j -> x i = x j -> reconSecret dbg shares = Err NoInverse.
    Proof.
      intros Hi Hj N E. unfold reconSecret. fold k. fold outer_step. rewrite em_default.
      rewrite recon_loop by (intros m I; apply in_seq in I; lia).
      match goal with |- (if ?e then _ else _) = _ => assert (B : e = true) end; [|rewrite B; reflexivity].
      apply existsb_exists. exists i. split; [apply in_seq; lia|].
      destruct (eqFp q (lden q k x i) (f0 q)) as [|C]; [reflexivity|]. exfalso. apply C.
      unfold lden. apply prod_0; [exact Hq|]. apply in_map_iff. exists (x j). split.
      - rewrite E. ring.
      - unfold oth. apply in_map, filter_In. split; [apply in_seq; lia|]. apply negb_true_iff, Nat.eqb_neq. exact N.
    Qed.
  End Recon.

  Definition sx (s : share) : F := mk (fval (sidx s)).
  Definition sv (s : share) : F := mk (fval (sval s)).

  Lemma at_map {A} (g : share -> A) (l : list share) i : (i < length l)%nat ->
    nth_error (map g l) i = Some (g (at_ l i)).
  Proof.
    intros H. rewrite nth_error_map. unfold at_. rewrite (nth_error_nth' l (mkshare (fe_default q) (fe_default q)) H). reflexivity.
  Qed.

  Lemma sh_inj s s' : sh_ok s -> sh_ok s' -> sx s = sx s' -> sidx s = sidx s'.
  Proof.
    intros [A _] [B _] E. unfold sx in E. rewrite (em_surj q (sidx s) A), (em_surj q (sidx s') B), E. reflexivity.
  Qed.

  Lemma distinct_at l : Forall sh_ok l -> NoDup (map sidx l) ->
    forall i j, (i < length l)%nat -> (j < length l)%nat -> sx (at_ l i) = sx (at_ l j) -> i = j.
  Proof.
    intros Hok ND i j Hi Hj E. rewrite NoDup_nth_error in ND. apply ND.
    - rewrite map_length. exact Hi.
    - rewrite !at_map by assumption. f_equal. rewrite Forall_forall in Hok.
      apply sh_inj; [apply Hok, nth_In, Hi|apply Hok, nth_In, Hj|exact E].
  Qed.

  (** reconstruction evaluates at 0 any short polynomial through the shares *)
  Lemma recon_poly l f : Forall sh_ok l -> NoDup (map sidx l) -> (length f <= length l)%nat ->
    (forall s, In s l -> peval f (sx s) = sv s) -> reconSecret dbg l = Ok (em (peval f (f0 q))).
  Proof.
    intros Hok ND L H. pose proof (distinct_at l Hok ND) as D. rewrite (recon_distinct l Hok D). f_equal. f_equal.
    apply (lagrange q Hq); [exact D|exact L|].
    intros i Hi. apply (H (at_ l i)). apply nth_In. exact Hi.
  Qed.

  (** existence of the interpolating polynomial *)
  Lemma recon_exists l : Forall sh_ok l -> NoDup (map sidx l) ->
    exists f, length f = length l /\ forall s, In s l -> peval f (sx s) = sv s.
  Proof.
    intros Hok ND. pose proof (distinct_at l Hok ND) as D.
    exists (interp q (length l) (fun i => sx (at_ l i)) (fun i => sv (at_ l i))). split.
    - apply interp_length. exact D.
    - intros s I. apply (In_nth _ _ (mkshare (fe_default q) (fe_default q))) in I. destruct I as [i [Hi <-]].
      apply (interp_at q Hq (length l) (fun i => sx (at_ l i)) (fun i => sv (at_ l i)) D i Hi).
  Qed.

  (** ** getShares *)
  Definition the_share (f : list F) (i : nat) : share := mkshare (em (mk (Z.of_nat i))) (em (peval f (mk (Z.of_nat i)))).
  Definition draws (rnd : nat -> Z) (k : nat) : list Z := map (fun i => (rnd i + 1) mod 100) (seq 0 k).

  Lemma coef_ok r : 0 <= r < INT_MAX -> coef r = Ok (em (mk ((r + 1) mod 100))).
  Proof.
    intros H. unfold coef. destruct (Z.eqb_spec r INT_MAX); [lia|]. rewrite em_new.
    rewrite Z.rem_mod_nonneg by lia. reflexivity.
  Qed.

  Lemma shares_map f n : mapM (fun i => let idx := fe_new q (Z.of_nat i) in
      do val <- evalPoly dbg idx (map em f); Ok (mkshare idx val)) (seq 1 n) = Ok (map (the_share f) (seq 1 n)).
  Proof.
    rewrite (mapM_ext _ (fun i => Ok (the_share f i))); [apply mapM_Ok|].
    intros i _. cbv zeta. rewrite em_new, evalPoly_em. reflexivity.
  Qed.

  Lemma getShares_ok cap rnd t n secret : scalar secret -> 1 <= t < SIZE -> t <= cap -> n <= cap -> 
    (forall i, (i < Z.to_nat (t - 1))%nat -> 0 <= rnd i < INT_MAX) ->
    getShares dbg cap rnd t n secret =
    Ok (map (the_share (mk (fval secret) :: map mk (draws rnd (Z.to_nat (t - 1))))) (seq 1 (Z.to_nat n))).
  Proof.
    intros Hs Ht Hc Hn Hr. unfold getShares. rewrite (Z.mod_small (t - 1)) by lia.
    destruct (Z.ltb_spec cap (t - 1 + 1)); [lia|]. destruct (Z.ltb_spec cap n); [lia|]. cbn [orb].
    rewrite (mapM_ext _ (fun i => Ok (em (mk ((rnd i + 1) mod 100))))).
    2:{ intros i I. apply in_seq in I. apply coef_ok. apply Hr. lia. }
    rewrite mapM_Ok. cbn [bind].
    assert (E : secret :: map (fun i => em (mk ((rnd i + 1) mod 100))) (seq 0 (Z.to_nat (t - 1))) =
                map em (mk (fval secret) :: map mk (draws rnd (Z.to_nat (t - 1))))).
    { cbn [map]. rewrite <- (em_surj q secret Hs). f_equal. unfold draws. rewrite !map_map. reflexivity. }
    rewrite E. apply shares_map.
  Qed.

  Lemma coefs_inv rnd l cs : rand_range rnd -> mapM (fun i => coef (rnd i)) l = Ok cs -> forall i, In i l -> 0 <= rnd i < INT_MAX.
  Proof.
    intros R. revert cs. induction l as [|j l IH]; intros cs E i I; [contradiction|]. cbn in E.
    apply bind_Ok in E. destruct E as [c [Ec E]]. apply bind_Ok in E. destruct E as [cs' [E' _]].
    destruct I as [<-|I]; [|exact (IH cs' E' i I)].
    unfold coef in Ec. destruct (Z.eqb_spec (rnd j) INT_MAX) as [|N]; [discriminate|]. specialize (R j). lia.
  Qed.

  Lemma getShares_inv cap rnd t n secret shares : scalar secret -> 1 <= t < SIZE -> rand_range rnd ->
    getShares dbg cap rnd t n secret = Ok shares ->
    shares = map (the_share (mk (fval secret) :: map mk (draws rnd (Z.to_nat (t - 1))))) (seq 1 (Z.to_nat n)).
  Proof.
    intros Hs Ht R E. pose proof E as E0. unfold getShares in E. rewrite (Z.mod_small (t - 1)) in E by lia.
    destruct (Z.ltb_spec cap (t - 1 + 1)); [discriminate|]. destruct (Z.ltb_spec cap n); [discriminate|]. cbn [orb] in E.
    apply bind_Ok in E. destruct E as [cs [E _]].
    rewrite getShares_ok in E0; [apply Ok_inj in E0; symmetry; exact E0|assumption|assumption|lia|assumption|].
    intros i Hi. apply (coefs_inv rnd _ cs R E). apply in_seq. lia.
  Qed.

  Lemma the_share_ok f i : sh_ok (the_share f i).
  Proof. split; apply em_canon; exact Hq. Qed.

  Lemma idx_inj i j : Z.of_nat i < SIZE -> Z.of_nat j < SIZE -> mk (Z.of_nat i) = mk (Z.of_nat j) -> i = j.
  Proof.
    intros Hi Hj E. pose proof FIELD_big. apply mk_eq_inv in E. rewrite !Z.mod_small in E by lia. lia.
  Qed.

  Lemma sel_facts f n sel : Z.of_nat n < SIZE -> NoDup sel -> incl sel (map (the_share f) (seq 1 n)) ->
    Forall sh_ok sel /\ NoDup (map sidx sel) /\ (forall s, In s sel -> peval f (sx s) = sv s).
  Proof.
    intros Hn ND I. split; [|split].
    - apply Forall_forall. intros s Hs. apply I, in_map_iff in Hs. destruct Hs as [i [<- _]]. apply the_share_ok.
    - assert (A : forall l, NoDup l -> incl l (map (the_share f) (seq 1 n)) -> NoDup (map sidx l)).
      { induction l as [|s l IH]; intros N J; [constructor|]. inversion N as [|? ? Ns N']; subst. cbn. constructor.
        - intros K. apply in_map_iff in K. destruct K as [s' [E K]].
          pose proof (J s (or_introl eq_refl)) as A. pose proof (J s' (or_intror K)) as B.
          apply in_map_iff in A, B. destruct A as [i [<- A]]. destruct B as [j [<- B]].
          apply in_seq in A, B. cbn in E. apply em_inj in E.
          apply idx_inj in E; [|lia|lia]. subst j. contradiction.
        - apply IH; [assumption|]. intros s' K. apply J. right; assumption. }
      apply A; assumption.
    - intros s Hs. apply I, in_map_iff in Hs. destruct Hs as [i [<- _]]. unfold sx, sv. cbn. rewrite !mk_val.
      change (exist _ _ _) with (mk (Z.of_nat i)). f_equal. apply val_inj. cbn. apply Zmod_mod.
  Qed.

  Lemma draws_length rnd k : length (draws rnd k) = k.
  Proof. unfold draws. rewrite map_length, seq_length. reflexivity. Qed.

  Lemma L_C20 cap rnd t n secret shares sel : 1 <= t <= n -> n < SIZE -> rand_range rnd -> scalar secret ->
    getShares dbg cap rnd t n secret = Ok shares ->
    NoDup sel -> incl sel shares -> t <= Z.of_nat (length sel) ->
    reconSecret dbg sel = Ok secret.
  Proof.
    intros Ht Hn R Hs E ND I L. apply getShares_inv in E; try assumption; [|lia]. subst shares.
    destruct (sel_facts _ (Z.to_nat n) sel ltac:(lia) ND I) as [A [B D]].
    rewrite (fun L => recon_poly sel _ A B L D).
    - f_equal. transitivity (em (mk (fval secret))); [|symmetry; apply em_surj; exact Hs]. f_equal. cbn [Poly.peval]. ring.
    - cbn [length]. rewrite map_length, draws_length. lia.
  Qed.

  Lemma L_C24_shape cap rnd t n secret : scalar secret -> 1 <= t < SIZE -> t <= cap -> 0 <= n <= cap -> no_overflow rnd ->
    exists shares, getShares dbg cap rnd t n secret = Ok shares /\ Z.of_nat (length shares) = n /\
      forall k, 1 <= k <= n ->
        nth_error shares (Z.to_nat (k - 1)) =
        Some (mkshare (fe_new q k)
               (fe_new q (poly_at (fval secret :: map (fun i => (rnd i + 1) mod 100) (seq 0 (Z.to_nat (t - 1)))) k))).
  Proof.
    intros Hs Ht Hc Hn Hr. eexists. split; [apply getShares_ok; try assumption; try lia; intros; apply Hr|].
    split; [rewrite map_length, seq_length; lia|].
    intros k Hk. rewrite nth_error_map.
    assert (S : nth_error (seq 1 (Z.to_nat n)) (Z.to_nat (k - 1)) = Some (Z.to_nat k)).
    { rewrite (nth_error_nth' _ O) by (rewrite seq_length; lia). rewrite seq_nth by lia. f_equal. lia. }
    rewrite S. cbn [option_map]. unfold the_share. rewrite Z2Nat.id by lia. rewrite !em_new.
    f_equal. f_equal. f_equal. rewrite mk_poly_at. reflexivity.
  Qed.

  Lemma L_C24_zero cap rnd n secret : getShares dbg cap rnd 0 n secret = getShares dbg cap rnd SIZE n secret /\
    (cap < SIZE -> getShares dbg cap rnd 0 n secret = Err Exhausted).
  Proof.
    split.
    - unfold getShares. change ((0 - 1) mod SIZE) with (SIZE - 1). rewrite (Z.mod_small (SIZE - 1)) by (unfold SIZE; lia). reflexivity.
    - intros H. unfold getShares. change ((0 - 1) mod SIZE) with (SIZE - 1).
      destruct (Z.ltb_spec cap (SIZE - 1 + 1)); [reflexivity|lia].
  Qed.

  Lemma L_C24_overflow cap rnd t n secret i : 1 <= t < SIZE -> t <= cap -> n <= cap ->
    0 <= i < t - 1 -> rnd (Z.to_nat i) = INT_MAX -> getShares dbg cap rnd t n secret = Err SignedOverflow.
  Proof.
    intros Ht Hc Hn Hi Hr. unfold getShares. rewrite (Z.mod_small (t - 1)) by lia.
    destruct (Z.ltb_spec cap (t - 1 + 1)); [lia|]. destruct (Z.ltb_spec cap n); [lia|]. cbn [orb].
    assert (A : forall l, In (Z.to_nat i) l -> mapM (fun i => coef (rnd i)) l = Err SignedOverflow).
    { induction l as [|j l IH]; intros I; [contradiction|]. cbn. unfold coef at 1.
      destruct (Z.eqb_spec (rnd j) INT_MAX) as [|N]; [reflexivity|]. cbn [bind].
      destruct I as [->|I]; [contradiction|]. rewrite (IH I). reflexivity. }
    rewrite A; [reflexivity|]. apply in_seq. lia.
  Qed.

  (** ** C21, C22 *)
  Lemma canon_coefs (f : list F) : exists cs, Forall residue cs /\ f = map mk cs /\ length cs = length f.
  Proof.
    exists (map (val q) f). split; [|split].
    - apply Forall_forall. intros z I. apply in_map_iff in I. destruct I as [a [<- _]]. apply val_range. exact Hq.
    - rewrite map_map. rewrite <- (map_id f) at 1. apply map_ext. intros a. symmetry. apply mk_val.
    - apply map_length.
  Qed.

  Lemma mk_coefs_inj cs : forall cs', Forall residue cs -> Forall residue cs' -> map mk cs = map mk cs' -> cs = cs'.
  Proof.
    induction cs as [|c cs IH]; intros [|c' cs'] A B E; try discriminate; [reflexivity|].
    inversion A; inversion B; subst. cbn [map] in E. injection E as E1 E2. f_equal; [|apply IH; assumption].
    unfold residue in *. rewrite !Z.mod_small in E1 by assumption. exact E1.
  Qed.

  Lemma sx_nodup l : Forall sh_ok l -> NoDup (map sidx l) -> NoDup (map sx l).
  Proof.
    induction l as [|s l IH]; intros A B; [constructor|]. inversion A; inversion B; subst. cbn. constructor; [|apply IH; assumption].
    intros K. apply in_map_iff in K. destruct K as [s' [E K]]. match goal with H : ~ In _ _ |- _ => apply H end.
    apply in_map_iff. exists s'. split; [|assumption]. match goal with H : Forall sh_ok l |- _ => rewrite Forall_forall in H; specialize (H _ K) end.
    apply sh_inj; assumption.
  Qed.

  Lemma L_C21 l : Forall sh_ok l -> NoDup (map sidx l) ->
    exists cs, (length cs = length l /\ Forall residue cs /\ Forall (on_poly cs) l) /\
      (forall cs', length cs' = length l -> Forall residue cs' -> Forall (on_poly cs') l -> cs' = cs) /\
      reconSecret dbg l = Ok (fe_new q (poly_at cs 0)).
  Proof.
    intros A B. destruct (recon_exists l A B) as [f [L H]]. destruct (canon_coefs f) as [cs [R [-> Lc]]].
    rewrite map_length in L. exists cs. split; [|split].
    - split; [exact L|split; [exact R|]]. apply Forall_forall. intros s I. apply on_poly_iff, H, I.
    - intros cs' L' R' P'. apply mk_coefs_inj; try assumption.
      apply (coefs_unique q Hq (map sx l)).
      + apply sx_nodup; assumption.
      + rewrite !map_length. lia.
      + rewrite !map_length. lia.
      + intros y I. apply in_map_iff in I. destruct I as [s [<- I]]. rewrite (H s I).
        rewrite Forall_forall in P'. apply on_poly_iff, P', I.
    - rewrite (recon_poly l (map mk cs) A B); [|rewrite map_length; lia|exact H].
      rewrite em_new, mk_poly_at. reflexivity.
  Qed.

  Lemma L_C21_empty : reconSecret dbg [] = Ok (fe_new q 0).
  Proof. reflexivity. Qed.

  Lemma L_C22 l1 s1 l2 s2 l3 : Forall sh_ok (l1 ++ s1 :: l2 ++ s2 :: l3) -> sidx s1 = sidx s2 ->
    reconSecret dbg (l1 ++ s1 :: l2 ++ s2 :: l3) = Err NoInverse.
  Proof.
    intros A E. set (l := l1 ++ s1 :: l2 ++ s2 :: l3) in *.
    assert (A1 : at_ l (length l1) = s1). { unfold at_, l. rewrite app_nth2, Nat.sub_diag; [reflexivity|lia]. }
    assert (A2 : at_ l (length l1 + S (length l2)) = s2).
    { unfold at_, l. rewrite app_nth2 by lia. replace (length l1 + S (length l2) - length l1)%nat with (S (length l2)) by lia.
      cbn [nth]. rewrite app_nth2, Nat.sub_diag by lia. reflexivity. }
    assert (L : length l = (length l1 + S (length l2 + S (length l3)))%nat).
    { unfold l. rewrite app_length. cbn [length]. rewrite app_length. reflexivity. }
    apply (recon_repeat l A (length l1) (length l1 + S (length l2))); try lia.
    rewrite A1, A2, E. reflexivity.
  Qed.

  (** ** C23 *)
  Fixpoint tails (d : nat) : list (list Z) :=
    match d with
    | O => [[]]
    | S d' => flat_map (fun c => map (cons c) (tails d')) (map Z.of_nat (seq 0 100))
    end.

  Lemma flat_map_length {A B} (g : A -> list B) m l : (forall a, length (g a) = m) -> length (flat_map g l) = (length l * m)%nat.
  Proof. intros H. induction l as [|a l IH]; cbn; [reflexivity|]. rewrite app_length, H, IH. reflexivity. Qed.

  Lemma tails_length d : length (tails d) = (100 ^ d)%nat.
  Proof.
    induction d as [|d IH]; [reflexivity|]. cbn [tails].
    rewrite (flat_map_length _ (100 ^ d)%nat).
    - rewrite map_length, seq_length. reflexivity.
    - intros c. rewrite map_length. exact IH.
  Qed.

  Lemma tails_in l : Forall (fun c => 0 <= c < 100) l -> In l (tails (length l)).
  Proof.
    induction l as [|c l IH]; intros H; [left; reflexivity|]. inversion H; subst. cbn [tails length].
    apply in_flat_map. exists c. split.
    - apply in_map_iff. exists (Z.to_nat c). split; [lia|]. apply in_seq. lia.
    - apply in_map. apply IH. assumption.
  Qed.

  Lemma peval_app f g x : peval (f ++ g) x = fadd q (peval f x) (peval (repeat (f0 q) (length f) ++ g) x).
  Proof.
    induction f as [|c f IH]; cbn [app length repeat Poly.peval]; [ring|]. rewrite IH. ring.
  Qed.

  Lemma L_C23 t obs : (1 <= length obs)%nat -> Z.of_nat (length obs) <= t < SIZE ->
    exists candidates, length candidates = (100 ^ (Z.to_nat t - length obs))%nat /\
      forall cap rnd n secret shares, n < SIZE -> rand_range rnd -> scalar secret ->
        getShares dbg cap rnd t n secret = Ok shares -> NoDup obs -> incl obs shares -> In secret candidates.
  Proof.
    intros L1 Lt. set (m := length obs) in *. set (d := (Z.to_nat t - m)%nat).
    set (x := fun i => sx (at_ obs i)).
    set (cand := fun tl : list Z => em (fsum q (map (lterm q m x
        (fun i => fsub q (sv (at_ obs i)) (peval (repeat (f0 q) m ++ map mk tl) (x i)))) (seq 0 m)))).
    exists (map cand (tails d)). split; [rewrite map_length, tails_length; reflexivity|].
    intros cap rnd n secret shares Hn R Hs E ND I.
    apply getShares_inv in E; try assumption; [|lia]. subst shares.
    destruct (Z.neg_nonneg_cases n) as [Neg|Pos].
    { replace (Z.to_nat n) with O in I by lia. cbn in I. destruct obs as [|o obs]; [cbn in *; lia|]. exfalso. exact (I o (or_introl eq_refl)). }
    destruct (sel_facts _ (Z.to_nat n) obs ltac:(lia) ND I) as [A [B D]].
    set (cs := draws rnd (Z.to_nat (t - 1))) in *.
    set (tl := skipn (m - 1) cs).
    assert (Ltl : length tl = d). { unfold tl. rewrite skipn_length. unfold cs. rewrite draws_length. unfold d. lia. }
    assert (Htl : Forall (fun c => 0 <= c < 100) tl).
    { apply Forall_forall. intros c Hc.
      assert (Hc' : In c cs). { unfold tl in Hc. rewrite <- (firstn_skipn (m - 1) cs). apply in_or_app. right. exact Hc. }
      unfold cs, draws in Hc'. apply in_map_iff in Hc'. destruct Hc' as [i [<- _]]. apply Z.mod_pos_bound. lia. }
    apply in_map_iff. exists tl. split; [|rewrite <- Ltl; apply tails_in; exact Htl].
    set (low := mk (fval secret) :: map mk (firstn (m - 1) cs)).
    assert (Ef : mk (fval secret) :: map mk cs = low ++ map mk tl).
    { unfold low, tl. cbn [app]. f_equal. rewrite <- map_app, firstn_skipn. reflexivity. }
    assert (Llow : length low = m).
    { unfold low. cbn [length]. rewrite map_length, firstn_length. unfold cs. rewrite draws_length. lia. }
    unfold cand. transitivity (em (mk (fval secret))); [|symmetry; apply em_surj; exact Hs]. f_equal.
    rewrite (lagrange q Hq m x _ (distinct_at obs A B) low).
    - unfold low. cbn [Poly.peval]. ring_simplify. reflexivity.
    - lia.
    - intros i Hi. assert (Ii : In (at_ obs i) obs) by (apply nth_In; exact Hi).
      rewrite <- (D _ Ii), Ef, peval_app, Llow. unfold x. ring.
  Qed.

  (** with coefficients from the whole field, t-1 shares would be compatible with every secret *)
  Lemma L_C23_uniform secret obs : scalar secret -> Forall sh_ok obs -> NoDup (map sidx obs) ->
    Forall (fun s => fval (sidx s) <> 0) obs ->
    exists cs, length cs = length obs /\ Forall scalar cs /\
      forall s, In s obs -> evalPoly dbg (sidx s) (secret :: cs) = Ok (sval s).
  Proof.
    intros Hs A B N.
    destruct (recon_exists (mkshare (fe_new q 0) secret :: obs)) as [f [L H]].
    { constructor; [split; [apply canon_new, (q_pos q Hq)|exact Hs]|exact A]. }
    { cbn. constructor; [|exact B]. intros K. apply in_map_iff in K. destruct K as [s [E K]].
      rewrite Forall_forall in N. apply (N s K). rewrite E. apply (Z.mod_0_l q). pose proof (q_pos q Hq); lia. }
    cbn [length] in L. destruct f as [|c f]; [discriminate|]. cbn [length] in L. apply eq_add_S in L.
    assert (C : em c = secret).
    { pose proof (H _ (or_introl eq_refl)) as E. unfold sx, sv in E.
      cbn [sidx sval Poly.peval] in E. rewrite em_new in E. rewrite em_val, mk_val in E. change (mk 0) with (f0 q) in E.
      transitivity (em (mk (fval secret))); [|symmetry; apply em_surj; exact Hs]. f_equal. rewrite <- E. ring. }
    exists (map em f). split; [rewrite map_length; exact L|]. split.
    - apply Forall_forall. intros y I. apply in_map_iff in I. destruct I as [a [<- _]]. apply em_canon. exact Hq.
    - intros s I. rewrite Forall_forall in A. destruct (A s I) as [X V]. rewrite <- C. change (em c :: map em f) with (map em (c :: f)).
      rewrite (em_surj q (sidx s) X), evalPoly_em. rewrite (em_surj q (sval s) V). f_equal. f_equal. apply (H s (or_intror I)).
  Qed.

  (** ** C25 *)
  Lemma add_shares_map f g l : add_shares dbg (map (the_share f) l) (map (the_share g) l) = Ok (map (the_share (padd q f g)) l).
  Proof.
    unfold add_shares. induction l as [|i l IH]; [reflexivity|]. cbn [map combine mapM].
    unfold the_share at 1 2. cbn [sval sidx]. rewrite (em_add dbg q Hq). cbn [bind]. rewrite IH. cbn [bind].
    f_equal. f_equal. unfold the_share. cbn. rewrite <- (peval_padd q Hq). reflexivity.
  Qed.

  Lemma L_C25 cap1 cap2 rnd1 rnd2 t1 t2 n a b l1 l2 :
    1 <= t1 < SIZE -> 1 <= t2 < SIZE -> n < SIZE -> rand_range rnd1 -> rand_range rnd2 -> scalar a -> scalar b ->
    getShares dbg cap1 rnd1 t1 n a = Ok l1 -> getShares dbg cap2 rnd2 t2 n b = Ok l2 ->
    exists l, add_shares dbg l1 l2 = Ok l /\ length l = length l1 /\
      forall sel, NoDup sel -> incl sel l -> Z.max t1 t2 <= Z.of_nat (length sel) ->
        reconSecret dbg sel = Ok (fe_new q (fval a + fval b)).
  Proof.
    intros T1 T2 Hn R1 R2 Ha Hb E1 E2.
    apply getShares_inv in E1; try assumption. apply getShares_inv in E2; try assumption. subst l1 l2.
    rewrite add_shares_map. eexists. split; [reflexivity|]. split; [rewrite !map_length; reflexivity|].
    intros sel ND I L.
    destruct (Z.neg_nonneg_cases n) as [Neg|Pos].
    { replace (Z.to_nat n) with O in I by lia. cbn in I. destruct sel as [|o sel]; [cbn in L; lia|]. exfalso. exact (I o (or_introl eq_refl)). }
    destruct (sel_facts _ (Z.to_nat n) sel ltac:(lia) ND I) as [A [B D]].
    rewrite (fun L => recon_poly sel _ A B L D).
    - f_equal. rewrite em_new. f_equal. rewrite (peval_padd q Hq). cbn [Poly.peval].
      rewrite <- mk_add. ring.
    - rewrite padd_length. cbn [length]. rewrite !map_length, !draws_length. lia.
  Qed.
End Proofs.

Lemma L_C23_refuted : let s := mkshare (mkfe 1 FIELD) (mkfe 0 FIELD) in
  (exists rnd shares, no_overflow rnd /\ getShares false 2 rnd 2 2 (mkfe 0 FIELD) = Ok shares /\ In s shares) /\
  (forall rnd shares, rand_range rnd -> getShares false 2 rnd 2 2 (mkfe 1 FIELD) = Ok shares -> ~ In s shares).
Proof.
  cbv zeta. split.
  - exists (fun _ => 99). eexists. split; [|split].
    + intros i. vm_compute. split; [discriminate|reflexivity].
    + vm_compute. reflexivity.
    + left. reflexivity.
  - intros rnd shares R E I.
    assert (S1 : scalar (mkfe 1 FIELD)) by (split; [reflexivity|vm_compute; split; [discriminate|reflexivity]]).
    apply getShares_inv in E; [|exact S1|split; vm_compute; [discriminate|reflexivity]|exact R].
    subst shares. apply in_map_iff in I. destruct I as [i [E I]]. apply in_seq in I.
    change (Z.to_nat (2 - 1)) with 1%nat in E. change (Z.to_nat 2) with 2%nat in I.
    injection E as E1 E2.
    set (c := (rnd 0%nat + 1) mod 100).
    assert (Hc : 0 <= c < 100) by (apply Z.mod_pos_bound; lia).
    assert (E3 : (1 + Z.of_nat i * c) mod FIELD = 0).
    { assert (G : mk FIELD (1 + Z.of_nat i * c) =
                  peval FIELD (mk FIELD 1 :: map (mk FIELD) (draws rnd 1)) (mk FIELD (Z.of_nat i))).
      { rewrite <- (mk_poly_at (1 :: draws rnd 1)). f_equal. unfold draws. cbn [seq map poly_at]. fold c. lia. }
      apply (f_equal (val FIELD)) in G. rewrite val_mk in G. rewrite G. exact E2. }
    pose proof FIELD_big as B. unfold SIZE in B. rewrite Z.mod_small in E3; [lia|]. nia.
Qed.
