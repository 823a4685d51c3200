(** Someone who listens to oblivious transfers: the bijections between the draws. *)
From Coq Require Import ZArith Znumtheory Bool List Lia.
From Verif Require Import Outcome FieldModel ZpField SpecField FieldProofs ECGroup ECOrder CurveParams CurveFacts EccModel EccProofs SpecEcc EccThms Emb RF DmeModel SpecDme DmeProofs OtModel OtProofs SpecCount CountMath SpecDdh SpecDdh2 SpecDdh3 SpecDdh4 DdhProofs DdhProofs2 DdhMany DdhServe DdhHear DdhCases.
Import ListNotations.
Open Scope Z_scope.

Lemma mod0_div x : x mod order = 0 <-> (order | x).
Proof. pose proof order_pos. apply Z.mod_divide. lia. Qed.
Lemma det_false a b c d : det a b c d = false <-> ~ (order | a * d - b * c).
Proof. unfold det. rewrite Z.eqb_neq, mod0_div. reflexivity. Qed.
Lemma det_true a b c d : det a b c d = true <-> (order | a * d - b * c).
Proof. unfold det. rewrite Z.eqb_eq. apply mod0_div. Qed.

(** two draws with a given combination *)
Definition solve (w y : Z) (p : Z * Z) : Z * Z := if det w y 0 1 then unlin w y 1 0 p else unlin w y 0 1 p.
Definition unsolve (w y : Z) (p : Z * Z) : Z * Z := if det w y 0 1 then lin w y 1 0 p else lin w y 0 1 p.
Lemma solve_un w y p : pairdraw p -> pairdraw (solve w y p) /\ unsolve w y (solve w y p) = p.
Proof. intros P. unfold solve, unsolve. destruct (det w y 0 1); apply unlin_lin, P. Qed.
Lemma unsolve_so w y p : pairdraw p -> pairdraw (unsolve w y p) /\ solve w y (unsolve w y p) = p.
Proof. intros P. unfold solve, unsolve. destruct (det w y 0 1); apply lin_unlin, P. Qed.
Lemma solve_pow w y p : pairdraw p -> ~ ((order | w) /\ (order | y)) -> pow (fst (solve w y p) * w + snd (solve w y p) * y) = pow (fst p).
Proof.
  intros P N. destruct (solve_un w y p P) as [_ E]. unfold solve, unsolve in *. destruct (det w y 0 1) eqn:D.
  - apply det_true in D. replace (w * 1 - y * 0) with w in D by ring.
    destruct (lin_pow w y 1 0 (unlin w y 1 0 p)) as [L _]; [|rewrite <- L, E; reflexivity].
    apply det_false. replace (w * 0 - y * 1) with (- y) by ring. rewrite Z.divide_opp_r. tauto.
  - destruct (lin_pow w y 0 1 (unlin w y 0 1 p) D) as [L _]. rewrite <- L, E. reflexivity.
Qed.

(** a pair of draws for either branch *)
Definition joined (b : Z) (p p' : Z * Z) : list Z := at_branch b [fst p; snd p; fst p'; snd p'] [fst p'; snd p'; fst p; snd p].
Definition mine (b : Z) (d : list Z) : Z * Z := match d with [i; j; s; t] => at_branch b (i, j) (s, t) | _ => (0, 0) end.
Definition others (b : Z) (d : list Z) : Z * Z := match d with [i; j; s; t] => at_branch b (s, t) (i, j) | _ => (0, 0) end.
Lemma joined_mine b p p' : mine b (joined b p p') = p.
Proof. destruct p, p'. unfold mine, joined, at_branch. destruct (b =? 0); reflexivity. Qed.
Lemma joined_others b p p' : others b (joined b p p') = p'.
Proof. destruct p, p'. unfold others, joined, at_branch. destruct (b =? 0); reflexivity. Qed.
Lemma joined_fits b p p' : pairdraw p -> pairdraw p' -> fits Pair (joined b p p').
Proof. intros [A B] [C D]. unfold joined, at_branch. destruct (b =? 0); (split; [reflexivity|]); repeat (constructor; [assumption|]); constructor. Qed.
Lemma four_fits d : fits Pair d -> exists i j s t, d = [i; j; s; t] /\ draw i /\ draw j /\ draw s /\ draw t.
Proof.
  intros [L F]. destruct d as [|i [|j [|s [|t [|? ?]]]]]; try discriminate L. exists i, j, s, t. split; [reflexivity|].
  repeat (apply Forall_cons_iff in F; destruct F as [? F]). repeat (split; [assumption|]). assumption.
Qed.
Lemma fits_joined b d : fits Pair d -> d = joined b (mine b d) (others b d) /\ pairdraw (mine b d) /\ pairdraw (others b d).
Proof.
  intros H. destruct (four_fits d H) as [i [j [s [t [-> [A [B [C D]]]]]]]]. unfold joined, mine, others, at_branch.
  destruct (b =? 0); (split; [reflexivity|]; split; split; assumption).
Qed.
Lemma one_fits b d : fits (Key b) d -> exists r, d = [r] /\ draw r.
Proof. intros [L F]. destruct d as [|r [|? ?]]; try discriminate L. exists r. split; [reflexivity|]. apply Forall_cons_iff in F. apply F. Qed.

Section Talk.
  Variables (live : Z -> bool) (w0 y0 w1 y1 : Z) (M : heard -> point * point).
  Hypothesis V : forall h, is_valid live (fst (M h)) /\ is_valid live (snd (M h)).
  Notation wb b := (at_branch b w0 w1).
  Notation yb b := (at_branch b y0 y1).
  Notation wo b := (at_branch b w1 w0).
  Notation yo b := (at_branch b y1 y0).

  Definition key_item (b r : Z) : list (elt * elt) := [(pow (r * wb b), pow (r * yb b))].
  (** the conversation of the model *)
  Fixpoint hv (b r : Z) (seen : heard) (l : list step) (ds : list (list Z)) : heard :=
    match l, ds with
    | Key b :: l', [r] :: ds' => hv b r (seen ++ [key_item b r]) l' ds'
    | Pair :: l', [s0; t0; s1; t1] :: ds' =>
        hv b r (seen ++ [[(pow (s0 * w0 + t0 * y0), gadd CV (pow (s0 * (r * wb b) + t0 * (r * yb b))) (den CV (fst (M seen))));
                          (pow (s1 * w1 + t1 * y1), gadd CV (pow (s1 * (r * wb b) + t1 * (r * yb b))) (den CV (snd (M seen))))]]) l' ds'
    | _, _ => seen
    end.
  (** and the one with random ciphertexts *)
  Fixpoint nv (l : list step) (ds : list (list Z)) : heard :=
    match l, ds with
    | Key b :: l', [r] :: ds' => key_item b r :: nv l' ds'
    | Pair :: l', [i0; j0; i1; j1] :: ds' => [(pow i0, pow j0); (pow i1, pow j1)] :: nv l' ds'
    | _, _ => []
    end.

  Lemma wboth b : (wb b = w0 /\ wo b = w1 /\ yb b = y0 /\ yo b = y1 /\ (b =? 0) = true) \/ (wb b = w1 /\ wo b = w0 /\ yb b = y1 /\ yo b = y0 /\ (b =? 0) = false).
  Proof. unfold at_branch. destruct (b =? 0); [left|right]; repeat split. Qed.

  (** ** The triple is a, e, ae *)
  Variables (a e : Z).
  Definition real_f (b : Z) (s : step) (d : list Z) : list Z :=
    match s, d with
    | Key _, [q] => [(q + a) mod order]
    | Pair, [i; j; s; t] => joined b (solve (wb b) (yb b) ((i * e + j) mod order, i)) (s, t)
    | _, _ => d
    end.
  Definition real_g (b : Z) (s : step) (d : list Z) : list Z :=
    match s, d with
    | Key _, [r] => [(r - a) mod order]
    | Pair, _ => let p := unsolve (wb b) (yb b) (mine b d) in let p' := others b d in [snd p; (fst p - snd p * e) mod order; fst p'; snd p']
    | _, _ => d
    end.
  Definition real_nx (b : Z) (s : step) (d : list Z) : Z := match s with Key b => b | Pair => b end.
  Lemma real_fg st s d : fits s d -> fits s (real_f st s d) /\ real_g st s (real_f st s d) = d.
  Proof.
    destruct s as [b|]; intros F.
    - destruct (one_fits b d F) as [q [-> Q]]. cbn [real_f real_g]. rewrite (add_sub q a Q). split; [split; [reflexivity|constructor; [apply draw_mod|constructor]]|reflexivity].
    - destruct (four_fits d F) as [i [j [s [t [-> [A [B [C D]]]]]]]]. cbn [real_f real_g].
      assert (P : pairdraw ((i * e + j) mod order, i)) by (split; [apply draw_mod|exact A]). destruct (solve_un (wb st) (yb st) _ P) as [P' E].
      split; [apply joined_fits; [exact P'|split; assumption]|]. rewrite joined_mine, joined_others, E. cbn [fst snd]. rewrite (Z.add_comm (i * e) j), (add_sub j (i * e) B). reflexivity.
  Qed.
  Lemma real_gf st s d : fits s d -> fits s (real_g st s d) /\ real_f st s (real_g st s d) = d.
  Proof.
    destruct s as [b|]; intros F.
    - destruct (one_fits b d F) as [q [-> Q]]. cbn [real_f real_g]. rewrite (sub_add q a Q). split; [split; [reflexivity|constructor; [apply draw_mod|constructor]]|reflexivity].
    - destruct (fits_joined st d F) as [EJ [P P']]. cbn [real_f real_g]. destruct (unsolve_so (wb st) (yb st) _ P) as [[A B] E]. split.
      + split; [reflexivity|]. destruct P' as [C D]. constructor; [exact B|]. constructor; [apply draw_mod|]. constructor; [exact C|]. constructor; [exact D|constructor].
      + set (p := unsolve (wb st) (yb st) (mine st d)) in *. rewrite (Z.add_comm (snd p * e)), (sub_add _ _ A), <- !surjective_pairing, E. symmetry. exact EJ.
  Qed.
  Hypothesis NZ : ~ ((order | w0) /\ (order | y0)) /\ ~ ((order | w1) /\ (order | y1)).
  Lemma real_view l : forall b q r seen ds, shaped l ds -> (forall k, pow (k * r) = pow (k * (a + q))) ->
    listened w0 y0 w1 y1 (pow a) (pow e) (pow (a * e)) M b q seen l ds = hv b r seen l (walk real_f real_nx b l ds).
  Proof.
    induction l as [|s l IH]; intros b q r seen ds H HR; inversion H as [|? d ? ds' F H' E1 E2]; subst; [reflexivity|]. fold (shaped l ds') in H'. destruct s as [b'|].
    - destruct (one_fits b' d F) as [q' [-> Q]]. cbn [walk real_f real_nx hv listened].
      rewrite (IH b' q' ((q' + a) mod order) _ ds' H') by (intros k; rewrite pow_mulmod, (Z.add_comm q' a); reflexivity). f_equal. f_equal. unfold key_item. do 2 f_equal.
      rewrite pow_add, !pow_mul, (Z.mul_comm _ (wb b')), (Z.mul_comm _ (yb b')), !pow_mulmod, (Z.add_comm q' a). reflexivity.
    - destruct (four_fits d F) as [i [j [s [t [-> [A [B [C D]]]]]]]].
      assert (P : pairdraw ((i * e + j) mod order, i)) by (split; [apply draw_mod|exact A]).
      assert (HS : pow (fst (solve (wb b) (yb b) ((i * e + j) mod order, i)) * wb b + snd (solve (wb b) (yb b) ((i * e + j) mod order, i)) * yb b) = pow (i * e + j)).
      { rewrite solve_pow; [cbn [fst]; apply pow_mod|exact P|]. destruct (wboth b) as [[-> [_ [-> _]]]|[-> [_ [-> _]]]]; apply NZ. }
      cbn [walk real_f real_nx listened]. set (p := solve (wb b) (yb b) ((i * e + j) mod order, i)) in *.
      assert (HR' : forall u v, pow u = pow v -> pow (u * r) = pow (v * (a + q))).
      { intros u v E. rewrite HR, (Z.mul_comm u), (Z.mul_comm v), <- !(pow_mul (a + q)), E. reflexivity. }
      assert (E1 : forall x, gadd CV (gadd CV (gadd CV (gmul CV i (pow (a * e))) (gmul CV j (pow a))) (gmul CV q (gadd CV (gmul CV i (pow e)) (pow j)))) x = gadd CV (pow (fst p * (r * wb b) + snd p * (r * yb b))) x).
      { intros x. f_equal. rewrite !pow_mul, !pow_add, !pow_mul, pow_add.
        replace (fst p * (r * wb b) + snd p * (r * yb b)) with ((fst p * wb b + snd p * yb b) * r) by ring. rewrite (HR' _ _ HS). apply (f_equal pow). ring. }
      assert (E2 : gmul CV (s * wb b + t * yb b) (gadd CV (pow a) (pow q)) = pow (s * (r * wb b) + t * (r * yb b))).
      { rewrite pow_add, pow_mul. replace (s * (r * wb b) + t * (r * yb b)) with ((s * wb b + t * yb b) * r) by ring. symmetry. apply HR. }
      assert (E3 : gadd CV (gmul CV i (pow e)) (pow j) = pow (fst p * wb b + snd p * yb b)) by (rewrite HS, pow_mul, pow_add; reflexivity).
      rewrite E2, E1, E3, (IH b q r _ ds' H' HR). clear. unfold joined, at_branch. destruct (b =? 0) eqn:EB; cbn [hv]; unfold at_branch; rewrite EB; reflexivity.
  Qed.
End Talk.
