(** Many ElGamal encryptions under one key: proofs. *)
From Coq Require Import ZArith Znumtheory Bool List Lia.
From Verif Require Import Outcome FieldModel ZpField SpecField FieldProofs ECGroup ECOrder CurveParams CurveFacts EccModel EccProofs SpecEcc EccThms Emb RF DmeModel SpecDme DmeProofs OtModel OtProofs ElgamalModel SpecElgamal ElgamalProofs SpecCount CountMath SpecDdh SpecDdh2 SpecDdh3 DdhProofs DdhProofs2 DdhMany.
Import ListNotations.
Open Scope Z_scope.

Definition lists (n : nat) (rs : list Z) : Prop := length rs = n /\ Forall draw rs.

(** ** Dialogues *)
Section Conv.
  Context {D D' : Type}.
  Fixpoint conv {D} (f : D -> elt * elt) (M : list (elt * elt) -> point) (seen : list (elt * elt)) (ds : list D) : list (elt * elt) :=
    match ds with
    | [] => seen
    | d :: ds' => conv f M (seen ++ [(fst (f d), gadd CV (snd (f d)) (den CV (M seen)))]) ds'
    end.
  Lemma conv_ext (f g : D -> elt * elt) M ds : (forall d, f d = g d) -> forall seen, conv f M seen ds = conv g M seen ds.
  Proof. intros H. induction ds as [|d ds IH]; intros seen; cbn [conv]; [reflexivity|]. rewrite H. apply IH. Qed.
  Lemma conv_map (f : D' -> elt * elt) (h : D -> D') M ds : forall seen, conv f M seen (map h ds) = conv (fun d => f (h d)) M seen ds.
  Proof. induction ds as [|d ds IH]; intros seen; cbn [conv map]; [reflexivity|]. apply IH. Qed.
End Conv.

Lemma answered_conv X Y Z M ps : forall seen, answered X Y Z M seen ps = conv (fun p => (gadd CV (gmul CV (fst p) Y) (pow (snd p)), gadd CV (gmul CV (fst p) Z) (gmul CV (snd p) X))) M seen ps.
Proof. induction ps as [|[p q] ps IH]; intros seen; cbn [answered conv fst snd]; [reflexivity|]. apply IH. Qed.
Lemma answered_pow a b c M ps : forall seen, answered (pow a) (pow b) (pow c) M seen ps = conv (fun p => (pow (fst p * b + snd p), pow (fst p * c + snd p * a))) M seen ps.
Proof. intros seen. rewrite answered_conv. apply conv_ext. intros [p q]. cbn [fst snd]. rewrite !pow_mul, !pow_add. reflexivity. Qed.

(** the messages are lost when the second components are random *)
Section Shift.
  Variables (live : Z -> bool) (M : list (elt * elt) -> point).
  Hypothesis V : forall l, is_valid live (M l).
  Definition lg (l : list (elt * elt)) : Z := Z.of_nat (proj1_sig (log live (M l) (V l))).
  Lemma lg_eq l c : gadd CV (pow c) (den CV (M l)) = pow (c + lg l).
  Proof. unfold lg. destruct (log live (M l) (V l)) as [i EI]. cbn [proj1_sig]. rewrite EI. apply pow_add. Qed.
  Definition both (p : Z * Z) : elt * elt := (pow (fst p), pow (snd p)).
  Fixpoint sh (seen : list (elt * elt)) (ps : list (Z * Z)) : list (Z * Z) :=
    match ps with [] => [] | (u, v) :: ps' => let p := (u, (v + lg seen) mod order) in p :: sh (seen ++ [both p]) ps' end.
  Fixpoint unsh (seen : list (elt * elt)) (ps : list (Z * Z)) : list (Z * Z) :=
    match ps with [] => [] | (u, v) :: ps' => (u, (v - lg seen) mod order) :: unsh (seen ++ [both (u, v)]) ps' end.
  Lemma conv_sh ps : forall seen, conv both M seen ps = seen ++ map both (sh seen ps).
  Proof.
    induction ps as [|[u v] ps IH]; intros seen; cbn [conv sh map]; [symmetry; apply app_nil_r|]. rewrite IH.
    assert (E : (fst (both (u, v)), gadd CV (snd (both (u, v))) (den CV (M seen))) = both (u, (v + lg seen) mod order)).
    { unfold both. cbn [fst snd]. rewrite lg_eq, pow_mod. reflexivity. }
    rewrite E, <- app_assoc. reflexivity.
  Qed.
  Lemma sh_unsh n ps : pairs n ps -> forall seen, pairs n (sh seen ps) /\ unsh seen (sh seen ps) = ps.
  Proof.
    revert n. induction ps as [|[u v] ps IH]; intros n [L F] seen; [split; [split; [exact L|constructor]|reflexivity]|].
    apply Forall_cons_iff in F. destruct F as [[U W] F]. destruct n as [|n]; [discriminate L|].
    destruct (IH n (conj (eq_add_S _ _ L) F) (seen ++ [both (u, (v + lg seen) mod order)])) as [[L' F'] E]. cbn [sh unsh]. split.
    - split; [cbn [length]; lia|]. constructor; [split; [exact U|apply draw_mod]|exact F'].
    - rewrite E, (add_sub v (lg seen) W). reflexivity.
  Qed.
  Lemma unsh_sh n ps : pairs n ps -> forall seen, pairs n (unsh seen ps) /\ sh seen (unsh seen ps) = ps.
  Proof.
    revert n. induction ps as [|[u v] ps IH]; intros n [L F] seen; [split; [split; [exact L|constructor]|reflexivity]|].
    apply Forall_cons_iff in F. destruct F as [[U W] F]. destruct n as [|n]; [discriminate L|].
    destruct (IH n (conj (eq_add_S _ _ L) F) (seen ++ [both (u, v)])) as [[L' F'] E]. cbn [sh unsh]. split.
    - split; [cbn [length]; lia|]. constructor; [split; [exact U|apply draw_mod]|exact F'].
    - rewrite (sub_add v (lg seen) W), E. reflexivity.
  Qed.
End Shift.

(** lists of pairs, one by one *)
Lemma pairs_map f g n ps : (forall p, pairdraw p -> pairdraw (f p) /\ g (f p) = p) -> pairs n ps -> pairs n (map f ps) /\ map g (map f ps) = ps.
Proof.
  intros H [L F]. split; [split; [rewrite map_length; exact L|]|].
  - apply Forall_map. refine (Forall_impl _ _ F). intros p P. apply (H p P).
  - clear L. induction F as [|p ps P F IH]; [reflexivity|]. cbn [map]. rewrite IH, (proj2 (H p P)). reflexivity.
Qed.

Section Serve.
  Variables (dbg : bool) (live : Z -> bool) (E : elgamal).
  Hypothesis OK : elgamal_ok live E.
  Context {T : Type} (coin : T -> Prop) (K : Z).
  Hypothesis COIN : how_many coin K.
  Variable n : nat.
  Implicit Type A : T -> elt -> list (elt * elt) -> bool.
  Implicit Type M : T -> elt -> list (elt * elt) -> point.

  Lemma served_conv k pk (M0 : list (elt * elt) -> point) : pmulz dbg live CV (egen E) k = Ok pk -> (forall l, is_valid live (M0 l)) ->
    forall rs seen, served dbg live E pk M0 seen rs = Ok (conv (fun r => (pow r, pow (k * r))) M0 seen rs).
  Proof.
    intros EP V. induction rs as [|r rs IH]; intros seen; cbn [served conv]; [reflexivity|].
    destruct (eg_view dbg live E OK k r (M0 seen) (V seen)) as [pk' [c [EP' [EC [V1 [V2 V3]]]]]]. rewrite EP in EP'. apply Ok_inj in EP'. subst pk'.
    rewrite EC. cbn [bind fst snd]. unfold view. rewrite V2, V3. apply IH.
  Qed.
  Lemma served_random_map k pk : pmulz dbg live CV (egen E) k = Ok pk ->
    forall ps, served_random dbg live E pk ps = Ok (map (fun p => (pow (fst p), pow (k * fst p + snd p))) ps).
  Proof.
    intros EP. assert (OK' := OK). destruct OK' as [LE _]. induction ps as [|[r z] ps IH]; cbn [served_random map fst snd]; [reflexivity|].
    destruct (getRandomPoint_rf dbg live CV good_CV (eaddr E) z LE) as [P [EZ KP]]. rewrite EZ. cbn [bind].
    destruct (eg_view dbg live E OK k r P (rf_val live P _ KP)) as [pk' [c [EP' [EC [V1 [V2 V3]]]]]]. rewrite EP in EP'. apply Ok_inj in EP'. subst pk'.
    rewrite EC. cbn [bind]. rewrite IH. cbn [bind]. unfold view. rewrite V2, V3, (rf_pow live P z KP), pow_add. reflexivity.
  Qed.
  Lemma pk_view k : exists pk, pmulz dbg live CV (egen E) k = Ok pk /\ den CV pk = pow k.
  Proof.
    assert (OK' := OK). destruct OK' as [LE _]. destruct (getRandomPoint_rf dbg live CV good_CV (eaddr E) 0 LE) as [P [_ KP]].
    destruct (eg_view dbg live E OK k 0 P (rf_val live P _ KP)) as [pk [_ [EP [_ [V _]]]]]. exists pk. split; assumption.
  Qed.

  (** the games on exponents *)
  Definition plain M A (N : Z) : Prop :=
    how_many (fun '(t, k, rs) => (coin t /\ draw k /\ lists n rs) /\ A t (pow k) (conv (fun r => (pow r, pow (k * r))) (M t (pow k)) [] rs) = true) N.
  Definition noise A (N : Z) : Prop :=
    how_many (fun '(t, ps, k) => and_draw (and_pairs n coin) (t, ps, k) /\ A t (pow k) (map both ps) = true) N.
  Lemma plain_game M A N : (forall t X l, is_valid live (M t X l)) -> plain M A N <-> service_guess dbg live E n coin M A N.
  Proof.
    intros V. assert (X : forall z : T * Z * list Z,
      (let '(t, k, rs) := z in (coin t /\ draw k /\ lists n rs) /\ A t (pow k) (conv (fun r => (pow r, pow (k * r))) (M t (pow k)) [] rs) = true) <->
      (let '(t, k, rs) := z in coin t /\ draw k /\ (length rs = n /\ Forall draw rs) /\
        exists pk l, pmulz dbg live CV (egen E) k = Ok pk /\ served dbg live E pk (M t (den CV pk)) [] rs = Ok l /\ A t (den CV pk) l = true)).
    { intros [[t k] rs]. destruct (pk_view k) as [pk [EP EV]]. split.
      - intros [[C [Dk L]] EA]. split; [exact C|]. split; [exact Dk|]. split; [exact L|]. exists pk. eexists. split; [exact EP|]. rewrite EV. split; [|exact EA].
        apply served_conv; [exact EP|]. intros l. apply V.
      - intros [C [Dk [L [pk' [l [EP' [ES EA]]]]]]]. rewrite EP in EP'. apply Ok_inj in EP'. subst pk'. rewrite EV in ES, EA.
        rewrite (served_conv k pk (M t (pow k)) EP (fun l => V t _ l)) in ES. apply Ok_inj in ES. subst l. split; [|exact EA]. split; [exact C|]. split; [exact Dk|exact L]. }
    split; apply how_many_same; intros z; [|symmetry]; apply X.
  Qed.
  Lemma noise_game A N : noise A N <-> service_guess_random dbg live E n coin A N.
  Proof.
    set (to := fun (k : Z) (p : Z * Z) => (fst p, (snd p - k * fst p) mod order)). set (of := fun (k : Z) (p : Z * Z) => (fst p, (snd p + k * fst p) mod order)).
    assert (TO : forall k p, pairdraw p -> pairdraw (to k p) /\ of k (to k p) = p).
    { intros k [u v] [U W]. unfold to, of. cbn [fst snd] in *. split; [split; [exact U|apply draw_mod]|]. rewrite (sub_add v (k * u) W). reflexivity. }
    assert (OF : forall k p, pairdraw p -> pairdraw (of k p) /\ to k (of k p) = p).
    { intros k [u v] [U W]. unfold to, of. cbn [fst snd] in *. split; [split; [exact U|apply draw_mod]|]. rewrite (add_sub v (k * u) W). reflexivity. }
    set (P := fun '(t, ps, k) => and_draw (and_pairs n coin) (t, ps, k) /\ A t (pow k) (map both ps) = true).
    set (Q := fun '(t, ps, k) => and_draw (and_pairs n coin) (t, ps, k) /\
      exists pk l, pmulz dbg live CV (egen E) k = Ok pk /\ served_random dbg live E pk ps = Ok l /\ A t (den CV pk) l = true).
    assert (Q' : forall t ps k, Q (t, ps, k) <-> and_draw (and_pairs n coin) (t, ps, k) /\ A t (pow k) (map both (map (of k) ps)) = true).
    { intros t ps k. destruct (pk_view k) as [pk [EP EV]]. pose proof (served_random_map k pk EP ps) as ES.
      assert (X : map (fun p => (pow (fst p), pow (k * fst p + snd p))) ps = map both (map (of k) ps)).
      { rewrite map_map. apply map_ext. intros [u v]. unfold both, of. cbn [fst snd]. rewrite pow_mod, (Z.add_comm v). reflexivity. }
      rewrite X in ES. cbn [Q]. split.
      - intros [C [pk' [l [EP' [ES' EA]]]]]. rewrite EP in EP'. apply Ok_inj in EP'. subst pk'. rewrite ES in ES'. apply Ok_inj in ES'. subst l. rewrite EV in EA. split; assumption.
      - intros [C EA]. split; [exact C|]. exists pk. eexists. split; [exact EP|]. split; [exact ES|]. rewrite EV. exact EA. }
    set (f := fun z : T * list (Z * Z) * Z => let '(t, ps, k) := z in (t, map (to k) ps, k)). set (g := fun z : T * list (Z * Z) * Z => let '(t, ps, k) := z in (t, map (of k) ps, k)).
    assert (PQ : forall x, P x -> Q (f x) /\ g (f x) = x).
    { intros [[t ps] k] [[[C L] Dk] EA]. cbn [f g]. destruct (pairs_map (to k) (of k) n ps (TO k) L) as [L' EM]. rewrite EM. split; [|reflexivity].
      apply Q'. rewrite EM. split; [split; [split; [exact C|exact L']|exact Dk]|exact EA]. }
    assert (QP : forall x, Q x -> P (g x) /\ f (g x) = x).
    { intros [[t ps] k] H. apply Q' in H. destruct H as [[[C L] Dk] EA]. cbn [f g]. destruct (pairs_map (of k) (to k) n ps (OF k) L) as [L' EM]. rewrite EM. split; [|reflexivity].
      split; [split; [split; [exact C|exact L']|exact Dk]|exact EA]. }
    split; intros H; [exact (how_many_bij f g P Q N H PQ QP)|exact (how_many_bij g f Q P N H QP PQ)].
  Qed.
  Lemma plain_exists M A : exists N, plain M A N.
  Proof.
    pose proof (how_many_prod _ _ _ _ (and_draws _ _ COIN) (lists_count draw _ draws n)) as C.
    destruct (how_many_filter _ _ (fun '(t, k, rs) => A t (pow k) (conv (fun r => (pow r, pow (k * r))) (M t (pow k)) [] rs)) C) as [N H].
    exists N. refine (how_many_same _ _ _ _ H). intros [[t k] rs]. cbn. unfold lists. tauto.
  Qed.
  Lemma noise_exists A : exists N, noise A N.
  Proof.
    destruct (how_many_filter _ _ (fun '(t, ps, k) => A t (pow k) (map both ps)) (and_draws _ _ (and_pairs_count _ _ n COIN))) as [N H].
    exists N. refine (how_many_same _ _ _ _ H). intros [[t ps] k]. reflexivity.
  Qed.

  Lemma pow_congr i j : (i - j) mod order = 0 -> pow i = pow j.
  Proof. intros H. apply pow_eq. apply Z.mod_divide; [pose proof order_pos; lia|exact H]. Qed.

  (** the distinguisher on ab *)
  Lemma real_plain M A N : plain M A N -> ddh_real (and_pairs n coin) (with_messages M A) (N * order ^ Z.of_nat n * order).
  Proof.
    intros HN. pose proof (how_many_prod _ _ _ _ (how_many_prod _ _ _ _ HN (lists_count draw _ draws n)) draws) as X.
    set (to := fun (b : Z) (p : Z * Z) => ((fst p * b + snd p) mod order, fst p)). set (of := fun (b : Z) (p : Z * Z) => (snd p, (fst p - snd p * b) mod order)).
    assert (TO : forall b p, pairdraw p -> pairdraw (to b p) /\ of b (to b p) = p) by (intros b p; exact (to_of_real b KA p)).
    assert (OF : forall b p, pairdraw p -> pairdraw (of b p) /\ to b (of b p) = p) by (intros b p; exact (of_to_real b KA p)).
    assert (CE : forall t ps a b, with_messages M A (t, ps) (pow a) (pow b) (pow (a * b)) = A t (pow a) (conv (fun r => (pow r, pow (a * r))) (M t (pow a)) [] (map fst (map (to b) ps)))).
    { intros t ps a b. unfold with_messages. cbn [fst snd]. rewrite answered_pow, map_map, conv_map. f_equal. apply conv_ext. intros [p q]. unfold to. cbn [fst snd].
      rewrite pow_mod, pow_mulmod. do 2 f_equal. ring. }
    refine (how_many_bij (fun z : T * Z * list Z * list Z * Z => let '(t, k, rs, us, b) := z in (t, map (of b) (combine rs us), k, b))
      (fun z : T * list (Z * Z) * Z * Z => let '(t, ps, a, b) := z in (t, a, map fst (map (to b) ps), map snd (map (to b) ps), b)) _ _ _ X _ _).
    - intros [[[[t k] rs] us] b]. cbn [fst snd]. intros [[[[C [Dk [L F]]] EA] [L' F']] Db].
      assert (P : pairs n (combine rs us)).
      { split; [rewrite combine_length; lia|]. apply Forall_forall. intros [u v] I. rewrite Forall_forall in F, F'. split; [apply F, (in_combine_l _ _ _ _ I)|apply F', (in_combine_r _ _ _ _ I)]. }
      destruct (pairs_map (of b) (to b) n _ (OF b) P) as [P' EM]. 
      assert (Efst : map fst (combine rs us) = rs) by (clear - L L'; revert us n L L'; induction rs as [|r rs IH]; intros [|u us] [|n] L L'; try discriminate; [reflexivity|cbn; rewrite (IH us n); [reflexivity|cbn in L; lia|cbn in L'; lia]]).
      assert (Esnd : map snd (combine rs us) = us) by (clear - L L'; revert us n L L'; induction rs as [|r rs IH]; intros [|u us] [|n] L L'; try discriminate; [reflexivity|cbn; rewrite (IH us n); [reflexivity|cbn in L; lia|cbn in L'; lia]]).
      rewrite CE, EM, Efst, Esnd. split; [|reflexivity]. split; [split; [exact C|exact P']|]. split; [exact Dk|]. split; [exact Db|exact EA].
    - intros [[[t ps] a] b] [[C P] [Da [Db EA]]]. cbn [fst snd]. rewrite CE in EA. destruct (pairs_map (to b) (of b) n _ (TO b) P) as [[L F] EM].
      assert (EC : combine (map fst (map (to b) ps)) (map snd (map (to b) ps)) = map (to b) ps) by (generalize (map (to b) ps) as l; intros l; induction l as [|[x y] l IH]; [reflexivity|cbn; rewrite IH; reflexivity]).
      rewrite EC, EM. split; [|reflexivity]. split; [|exact Db]. split; [split; [split; [exact C|split; [exact Da|]]|exact EA]|].
      + split; [rewrite map_length; exact L|]. apply Forall_map. refine (Forall_impl _ _ F). intros p H. apply H.
      + split; [rewrite map_length; exact L|]. apply Forall_map. refine (Forall_impl _ _ F). intros p H. apply H.
  Qed.

  (** the distinguisher on another element *)
  Lemma random_noise M A R W : (forall t X l, is_valid live (M t X l)) -> ddh_real (and_pairs n coin) (with_messages M A) R -> noise A W ->
    ddh_random (and_pairs n coin) (with_messages M A) (R + W * order * (order - 1)).
  Proof.
    intros V HR HW. pose proof order_pos as OP. set (D := with_messages M A) in *. set (cp := and_pairs n coin) in *.
    assert (H1 : how_many (fun '(t, a, b, c) => (cp t /\ draw a /\ draw b /\ draw c /\ D t (pow a) (pow b) (pow c) = true) /\ (c - a * b) mod order = 0) R).
    { refine (how_many_bij (fun z : T * list (Z * Z) * Z * Z => let '(t, a, b) := z in (t, a, b, (a * b) mod order)) (fun z : T * list (Z * Z) * Z * Z * Z => fst z) _ _ _ HR _ _).
      - intros [[t a] b] [C [Da [Db EA]]]. cbn [fst]. split; [|reflexivity]. split.
        + split; [exact C|]. split; [exact Da|]. split; [exact Db|]. split; [apply draw_mod|]. rewrite pow_mod. exact EA.
        + rewrite Zminus_mod_idemp_l, Z.sub_diag. reflexivity.
      - intros [[[t a] b] c] [[C [Da [Db [Dc EA]]]] EZ]. cbn [fst]. split.
        + split; [exact C|]. split; [exact Da|]. split; [exact Db|]. rewrite <- (pow_congr _ _ EZ). exact EA.
        + f_equal. rewrite <- (Z.mod_small c order Dc). symmetry. apply Z.mod_divide in EZ; [|lia]. destruct EZ as [q EQ]. replace c with (a * b + q * order) by lia. apply Z_mod_plus_full. }
    pose proof (range_count 1 order ltac:(lia)) as DR. pose proof (how_many_prod _ _ _ _ (how_many_prod _ _ _ _ HW draws) DR) as X.
    set (dl := fun a b c => (c - a * b) mod order).
    set (to := fun (a b d : Z) (p : Z * Z) => let r := (fst p * b + snd p) mod order in (r, (scale d (fst p) + a * r) mod order)).
    set (of := fun (a b d : Z) (p : Z * Z) => let u := unscale d ((snd p - a * fst p) mod order) in (u, (fst p - u * b) mod order)).
    assert (TO : forall a b d p, draw d -> pairdraw p -> pairdraw (to a b d p) /\ of a b d (to a b d p) = p).
    { intros a b d [u v] Dd [U W']. cbn [fst snd] in *. unfold to, of. cbn [fst snd]. split; [split; apply draw_mod|]. destruct (scale_un d u Dd U) as [X3 Y3].
      rewrite (add_sub _ _ X3), Y3, (Z.add_comm (u * b) v), (add_sub v (u * b) W'). reflexivity. }
    assert (OF : forall a b d p, draw d -> pairdraw p -> pairdraw (of a b d p) /\ to a b d (of a b d p) = p).
    { intros a b d [s q] Dd [S Q]. cbn [fst snd] in *. unfold to, of. cbn [fst snd]. destruct (un_scale d ((q - a * s) mod order) Dd (draw_mod _)) as [X3 Y3].
      set (u := unscale d ((q - a * s) mod order)) in *. split; [split; [exact X3|apply draw_mod]|]. rewrite (Z.add_comm (u * b)), (sub_add s (u * b) S), Y3, (sub_add q (a * s) Q). reflexivity. }
    assert (CE : forall t ps a b c, dl a b c <> 0 -> D (t, ps) (pow a) (pow b) (pow c) = A t (pow a) (map both (sh live (M t (pow a)) (V t (pow a)) [] (map (to a b (dl a b c)) ps)))).
    { intros t ps a b c ND. unfold D, with_messages. cbn [fst snd]. rewrite answered_pow, <- (app_nil_l (map both _)), <- conv_sh, conv_map. f_equal. apply conv_ext. intros [p q]. unfold to, both. cbn [fst snd].
      rewrite !pow_mod. f_equal. rewrite <- (pow_add (scale _ _)), (pow_scale _ _ ND), pow_mulmod. unfold dl. rewrite (Z.mul_comm (_ mod order)), pow_mulmod, pow_add. apply (f_equal pow). ring. }
    assert (H2 : how_many (fun '(t, a, b, c) => (cp t /\ draw a /\ draw b /\ draw c /\ D t (pow a) (pow b) (pow c) = true) /\ (c - a * b) mod order <> 0) (W * order * (order - 1))).
    { refine (how_many_bij (fun z : T * list (Z * Z) * Z * Z * Z => let '(t, ps, a, b, d) := z in (t, map (of a b d) (unsh live (M t (pow a)) (V t (pow a)) [] ps), a, b, (d + a * b) mod order))
        (fun z : T * list (Z * Z) * Z * Z * Z => let '(t, ps, a, b, c) := z in (t, sh live (M t (pow a)) (V t (pow a)) [] (map (to a b (dl a b c)) ps), a, b, dl a b c)) _ _ _ X _ _).
      - intros [[[[t ps] a] b] d]. cbn [fst snd]. intros [[[[[C P] Da] EA] Db] Dd].
        assert (Dd' : draw d) by (unfold draw; lia).
        assert (ED : dl a b ((d + a * b) mod order) = d) by (apply add_sub, Dd').
        destruct (unsh_sh live (M t (pow a)) (V t (pow a)) n ps P []) as [P1 E1]. assert (OFD : forall p, pairdraw p -> pairdraw (of a b d p) /\ to a b d (of a b d p) = p) by (intros p; apply OF; exact Dd').
        destruct (pairs_map _ _ n _ OFD P1) as [P2 E2].
        rewrite CE by (rewrite ED; lia). rewrite ED, E2, E1. split; [|reflexivity]. split.
        + split; [split; [exact C|exact P2]|]. split; [exact Da|]. split; [exact Db|]. split; [apply draw_mod|exact EA].
        + change (dl a b ((d + a * b) mod order) <> 0). rewrite ED. lia.
      - intros [[[[t ps] a] b] c] [[[C P] [Da [Db [Dc EA]]]] ND]. cbn [fst snd]. rewrite (CE t ps a b c ND) in EA.
        assert (Dd' : draw (dl a b c)) by apply draw_mod.
        assert (TOD : forall p, pairdraw p -> pairdraw (to a b (dl a b c) p) /\ of a b (dl a b c) (to a b (dl a b c) p) = p) by (intros p; apply TO; exact Dd').
        destruct (pairs_map _ _ n _ TOD P) as [P1 E1]. destruct (sh_unsh live (M t (pow a)) (V t (pow a)) n _ P1 []) as [P2 E2].
        assert (EC : (dl a b c + a * b) mod order = c) by (apply sub_add, Dc). rewrite E2, E1, EC. split; [|reflexivity].
        split; [|change (dl a b c <> 0) in ND; unfold draw in Dd'; lia]. split; [|exact Db]. split; [|exact EA]. split; [split; [exact C|exact P2]|exact Da]. }
    refine (how_many_same _ _ _ _ (how_many_or _ _ _ _ H1 H2 _)).
    - intros [[[t a] b] c]. cbv beta iota. destruct (Z.eq_dec ((c - a * b) mod order) 0); tauto.
    - intros [[[t a] b] c] [_ E1] [_ E2]. exact (E2 E1).
  Qed.

  Lemma L_C113_random M A : (forall t X l, is_valid live (M t X l)) ->
    exists N W g, service_guess dbg live E n coin M A N /\ service_guess_random dbg live E n coin A W /\ ddh_gap (and_pairs n coin) (with_messages M A) g /\
      order * (order - 1) * (order ^ Z.of_nat n * N - W) = g.
  Proof.
    intros V. destruct (plain_exists M A) as [N HN]. destruct (noise_exists A) as [W HW]. pose proof (real_plain M A N HN) as HR. pose proof (random_noise M A _ W V HR HW) as HS.
    exists N, W. eexists. split; [apply plain_game; assumption|]. split; [apply noise_game; exact HW|]. split; [exists (N * order ^ Z.of_nat n * order); eexists; split; [exact HR|]; split; [exact HS|reflexivity]|]. ring.
  Qed.
  Lemma L_C113_cpa M0 M1 A : (forall t X l, is_valid live (M0 t X l)) -> (forall t X l, is_valid live (M1 t X l)) ->
    exists N0 N1 g0 g1, service_guess dbg live E n coin M0 A N0 /\ service_guess dbg live E n coin M1 A N1 /\
      ddh_gap (and_pairs n coin) (with_messages M0 A) g0 /\ ddh_gap (and_pairs n coin) (with_messages M1 A) g1 /\
      order ^ (Z.of_nat n + 1) * (order - 1) * (N0 - N1) = g0 - g1.
  Proof.
    intros V0 V1. destruct (L_C113_random M0 A V0) as [N0 [W0 [g0 [H0 [HW0 [G0 E0]]]]]]. destruct (L_C113_random M1 A V1) as [N1 [W1 [g1 [H1 [HW1 [G1 E1]]]]]].
    pose proof (how_many_unique _ _ _ HW0 HW1) as EW. subst W1. exists N0, N1, g0, g1. split; [exact H0|]. split; [exact H1|]. split; [exact G0|]. split; [exact G1|].
    rewrite <- E0, <- E1, Z.pow_add_r by lia. ring.
  Qed.
End Serve.
