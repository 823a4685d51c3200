(** Someone who listens to oblivious transfers: the third element is random. *)
From Coq Require Import ZArith Znumtheory Bool List Lia.
From Verif Require Import Outcome FieldModel ZpField SpecField FieldProofs ECGroup ECOrder CurveParams CurveFacts EccModel EccProofs SpecEcc EccThms Emb RF DmeModel SpecDme DmeProofs OtModel OtProofs SpecCount CountMath SpecDdh SpecDdh2 SpecDdh3 SpecDdh4 DdhProofs DdhProofs2 DdhMany DdhServe DdhHear DdhHear2 DdhCases.
Import ListNotations.
Open Scope Z_scope.

Section Talk.
  Variables (live : Z -> bool) (w0 y0 w1 y1 : Z) (M : heard -> point * point).
  Hypothesis V : forall h, is_valid live (fst (M h)) /\ is_valid live (snd (M h)).
  Notation wb b := (at_branch b w0 w1).
  Notation yb b := (at_branch b y0 y1).
  Notation wo b := (at_branch b w1 w0).
  Notation yo b := (at_branch b y1 y0).
  Notation key_item := (key_item w0 y0 w1 y1).

  Definition lg0 (h : heard) : Z := Z.of_nat (proj1_sig (log live (fst (M h)) (proj1 (V h)))).
  Definition lg1 (h : heard) : Z := Z.of_nat (proj1_sig (log live (snd (M h)) (proj2 (V h)))).
  Lemma lg0_eq h x : gadd CV (pow x) (den CV (fst (M h))) = pow (x + lg0 h).
  Proof. unfold lg0. destruct (log live (fst (M h)) (proj1 (V h))) as [i EI]. cbn [proj1_sig]. rewrite EI. apply pow_add. Qed.
  Lemma lg1_eq h x : gadd CV (pow x) (den CV (snd (M h))) = pow (x + lg1 h).
  Proof. unfold lg1. destruct (log live (snd (M h)) (proj2 (V h))) as [i EI]. cbn [proj1_sig]. rewrite EI. apply pow_add. Qed.

  Definition up (k : Z) (p : Z * Z) : Z * Z := (fst p, (snd p + k) mod order).
  Definition down (k : Z) (p : Z * Z) : Z * Z := (fst p, (snd p - k) mod order).
  Lemma up_down k p : pairdraw p -> pairdraw (up k p) /\ down k (up k p) = p.
  Proof. destruct p as [x y]. intros [A B]. unfold up, down. cbn [fst snd] in *. rewrite (add_sub y k B). split; [split; [exact A|apply draw_mod]|reflexivity]. Qed.
  Lemma down_up k p : pairdraw p -> pairdraw (down k p) /\ up k (down k p) = p.
  Proof. destruct p as [x y]. intros [A B]. unfold up, down. cbn [fst snd] in *. rewrite (sub_add y k B). split; [split; [exact A|apply draw_mod]|reflexivity]. Qed.

  Variables (a e d : Z).
  Definition state : Type := Z * Z * heard.
  Definition rand_f (st : state) (s : step) (x : list Z) : list Z :=
    let '(b, r, seen) := st in
    match s, x with
    | Key _, [q] => [(q + a) mod order]
    | Pair, [i; j; s; t] =>
        joined b (up (at_branch b (lg0 seen) (lg1 seen)) (lin e 1 (d + r * e) r (i, j)))
                 (up (at_branch b (lg1 seen) (lg0 seen)) (lin (wo b) (yo b) (r * wb b) (r * yb b) (s, t)))
    | _, _ => x
    end.
  Definition rand_g (st : state) (s : step) (x : list Z) : list Z :=
    let '(b, r, seen) := st in
    match s, x with
    | Key _, [r] => [(r - a) mod order]
    | Pair, _ =>
        let p := unlin e 1 (d + r * e) r (down (at_branch b (lg0 seen) (lg1 seen)) (mine b x)) in
        let p' := unlin (wo b) (yo b) (r * wb b) (r * yb b) (down (at_branch b (lg1 seen) (lg0 seen)) (others b x)) in
        [fst p; snd p; fst p'; snd p']
    | _, _ => x
    end.
  Definition rand_nx (st : state) (s : step) (x : list Z) : state :=
    let '(b, r, seen) := st in
    match s, x with
    | Key b', [r'] => (b', r', seen ++ [key_item b' r'])
    | Pair, [i0; j0; i1; j1] => (b, r, seen ++ [[(pow i0, pow j0); (pow i1, pow j1)]])
    | _, _ => st
    end.
  Lemma rand_fg st s x : fits s x -> fits s (rand_f st s x) /\ rand_g st s (rand_f st s x) = x.
  Proof.
    destruct st as [[b r] seen]. destruct s as [b'|]; intros F.
    - destruct (one_fits b' x F) as [q [-> Q]]. cbn [rand_f rand_g]. rewrite (add_sub q a Q). split; [split; [reflexivity|constructor; [apply draw_mod|constructor]]|reflexivity].
    - destruct (four_fits x F) as [i [j [s [t [-> [A [B [C D]]]]]]]]. cbn [rand_f rand_g].
      destruct (lin_unlin e 1 (d + r * e) r (i, j) (conj A B)) as [P1 E1]. destruct (up_down (at_branch b (lg0 seen) (lg1 seen)) _ P1) as [P2 E2].
      destruct (lin_unlin (wo b) (yo b) (r * wb b) (r * yb b) (s, t) (conj C D)) as [P3 E3]. destruct (up_down (at_branch b (lg1 seen) (lg0 seen)) _ P3) as [P4 E4].
      split; [apply joined_fits; assumption|]. rewrite joined_mine, joined_others, E2, E4, E1, E3. reflexivity.
  Qed.
  Lemma rand_gf st s x : fits s x -> fits s (rand_g st s x) /\ rand_f st s (rand_g st s x) = x.
  Proof.
    destruct st as [[b r] seen]. destruct s as [b'|]; intros F.
    - destruct (one_fits b' x F) as [q [-> Q]]. cbn [rand_f rand_g]. rewrite (sub_add q a Q). split; [split; [reflexivity|constructor; [apply draw_mod|constructor]]|reflexivity].
    - destruct (fits_joined b x F) as [EJ [P P']]. cbn [rand_f rand_g].
      destruct (down_up (at_branch b (lg0 seen) (lg1 seen)) _ P) as [P1 E1]. destruct (unlin_lin e 1 (d + r * e) r _ P1) as [[A B] E2].
      destruct (down_up (at_branch b (lg1 seen) (lg0 seen)) _ P') as [P3 E3]. destruct (unlin_lin (wo b) (yo b) (r * wb b) (r * yb b) _ P3) as [[C D] E4]. split.
      + split; [reflexivity|]. constructor; [exact A|]. constructor; [exact B|]. constructor; [exact C|]. constructor; [exact D|constructor].
      + rewrite <- !surjective_pairing, E2, E4, E1, E3. symmetry. exact EJ.
  Qed.

  Variable c : Z.
  Hypothesis DC : forall k, pow (k * d) = pow (k * (c - a * e)).
  Hypothesis DZ : ~ (order | d).
  Hypothesis SZ : ~ (order | w0 * y1 - y0 * w1).
  Lemma det_one r : det e 1 (d + r * e) r = false.
  Proof. apply det_false. replace (e * r - 1 * (d + r * e)) with (- d) by ring. rewrite Z.divide_opp_r. exact DZ. Qed.
  Lemma det_two b r : ~ (order | r) -> det (wo b) (yo b) (r * wb b) (r * yb b) = false.
  Proof.
    intros R. apply det_false. unfold at_branch. destruct (b =? 0).
    - replace (w1 * (r * y0) - y1 * (r * w0)) with (- (r * (w0 * y1 - y0 * w1))) by ring. rewrite Z.divide_opp_r, order_mult. tauto.
    - replace (w0 * (r * y1) - y0 * (r * w1)) with (r * (w0 * y1 - y0 * w1)) by ring. rewrite order_mult. tauto.
  Qed.
  Lemma rand_view l : forall b q r seen ds, shaped l ds -> (forall k, pow (k * r) = pow (k * (a + q))) -> key_first l \/ ~ (order | r) \/ l = [] ->
    zero_key l (walk rand_f rand_nx (b, r, seen) l ds) = false ->
    listened w0 y0 w1 y1 (pow a) (pow e) (pow c) M b q seen l ds = seen ++ nv w0 y0 w1 y1 l (walk rand_f rand_nx (b, r, seen) l ds).
  Proof.
    induction l as [|s l IH]; intros b q r seen ds H HR K ZK; inversion H as [|? x ? ds' F H' E1 E2]; subst; [symmetry; apply app_nil_r|]. fold (shaped l ds') in H'. destruct s as [b'|].
    - destruct (one_fits b' x F) as [q' [-> Q]]. cbn [walk rand_f rand_nx nv listened zero_key hd] in *. apply orb_false_iff in ZK. destruct ZK as [Z1 Z2].
      assert (EI : [(gmul CV (wb b') (gadd CV (pow a) (pow q')), gmul CV (yb b') (gadd CV (pow a) (pow q')))] = key_item b' ((q' + a) mod order)).
      { unfold DdhHear2.key_item. rewrite pow_add, !pow_mul, (Z.mul_comm _ (wb b')), (Z.mul_comm _ (yb b')), !pow_mulmod, (Z.add_comm q' a). reflexivity. }
      rewrite EI, (IH b' q' ((q' + a) mod order) _ ds' H'), <- app_assoc; [reflexivity| | |exact Z2].
      + intros k. rewrite pow_mulmod, (Z.add_comm q' a). reflexivity.
      + right. left. apply Z.eqb_neq in Z1. rewrite (draw_order _ (draw_mod _)). exact Z1.
    - destruct K as [[]|[K|K]]; [|discriminate K]. destruct (four_fits x F) as [i [j [s [t [-> [A [B [C D]]]]]]]].
      destruct (lin_pow _ _ _ _ (i, j) (det_one r)) as [U1 U2]. destruct (lin_pow _ _ _ _ (s, t) (det_two b r K)) as [W1 W2]. cbn [fst snd] in *.
      cbn [walk rand_f] in *. set (p := lin e 1 (d + r * e) r (i, j)) in *. set (p' := lin (wo b) (yo b) (r * wb b) (r * yb b) (s, t)) in *.
      assert (E1 : gadd CV (gmul CV i (pow e)) (pow j) = pow (fst p)) by (rewrite U1, pow_mul, pow_add, Z.mul_1_r; reflexivity).
      assert (E2 : gadd CV (gadd CV (gmul CV i (pow c)) (gmul CV j (pow a))) (gmul CV q (pow (fst p))) = pow (snd p)).
      { rewrite U2, <- E1, !pow_mul, !pow_add, !pow_mul, pow_add. replace (i * (d + r * e) + j * r) with (i * d + (i * e + j) * r) by ring.
        rewrite <- (pow_add (i * d)), DC, HR, pow_add. apply (f_equal pow). ring. }
      assert (E3 : pow (s * wo b + t * yo b) = pow (fst p')) by (rewrite W1; reflexivity).
      assert (E4 : gmul CV (s * wb b + t * yb b) (gadd CV (pow a) (pow q)) = pow (snd p')).
      { rewrite W2, pow_add, pow_mul, <- HR. apply (f_equal pow). ring. }
      cbn [listened]. rewrite E1, E2, E3, E4. clear E1 E2 E3 E4 U1 U2 W1 W2. clearbody p p'. revert ZK.
      assert (EI1 : gadd CV (pow (snd p)) (den CV (at_branch b (fst (M seen)) (snd (M seen)))) = pow (snd (up (at_branch b (lg0 seen) (lg1 seen)) p))).
      { cbn [snd up]. unfold at_branch. destruct (b =? 0); rewrite ?lg0_eq, ?lg1_eq, pow_mod; reflexivity. }
      assert (EI2 : gadd CV (pow (snd p')) (den CV (at_branch b (snd (M seen)) (fst (M seen)))) = pow (snd (up (at_branch b (lg1 seen) (lg0 seen)) p'))).
      { cbn [snd up]. unfold at_branch. destruct (b =? 0); rewrite ?lg0_eq, ?lg1_eq, pow_mod; reflexivity. }
      rewrite EI1, EI2. clear EI1 EI2. change (fst p) with (fst (up (at_branch b (lg0 seen) (lg1 seen)) p)). change (fst p') with (fst (up (at_branch b (lg1 seen) (lg0 seen)) p')).
      set (u := up (at_branch b (lg0 seen) (lg1 seen)) p). set (u' := up (at_branch b (lg1 seen) (lg0 seen)) p'). clearbody u u'.
      destruct (wboth w0 y0 w1 y1 b) as [[_ [_ [_ [_ EB]]]]|[_ [_ [_ [_ EB]]]]]; unfold joined, at_branch; rewrite EB; intros ZK.
      + cbn [nv]. cbn [rand_nx] in *. refine (eq_trans (IH b q r _ ds' H' HR (or_intror (or_introl K)) ZK) _). rewrite <- app_assoc. reflexivity.
      + cbn [nv]. cbn [rand_nx] in *. refine (eq_trans (IH b q r _ ds' H' HR (or_intror (or_introl K)) ZK) _). rewrite <- app_assoc. reflexivity.
  Qed.
End Talk.
