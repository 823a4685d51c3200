(** Proofs about numbers as text: NUL, base 0, exceptions. *)
From Coq Require Import ZArith Bool List Ascii String Lia.
From Verif Require Import Outcome FieldModel ZpField SpecField CurveParams EccModel SpecEcc TextModel SpecText TextProofs.
Import ListNotations.
Open Scope Z_scope.

Lemma c_str_nul s s' : no_nul s -> c_str (s ++ "000"%char :: s') = s.
Proof.
  unfold no_nul. induction s as [|c s IH]; intros H; [reflexivity|]. cbn [app c_str]. destruct (Z.eqb_spec (code c) 0) as [E|E].
  - apply code_nul in E. exfalso. apply H. left. exact E.
  - rewrite IH; [reflexivity|]. intros I. apply H. right. exact I.
Qed.
Lemma c_str_idem s : c_str (c_str s) = c_str s.
Proof.
  induction s as [|c s IH]; [reflexivity|]. cbn [c_str]. destruct (code c =? 0) eqn:E; [reflexivity|]. cbn [c_str]. rewrite E, IH. reflexivity.
Qed.
Lemma set_str_c old s base : mpz_set_str old (c_str s) base = mpz_set_str old s base.
Proof. unfold mpz_set_str. rewrite c_str_idem. reflexivity. Qed.

Lemma L_C69_nul old base s s' : no_nul s -> mpz_set_str old (s ++ "000"%char :: s') base = mpz_set_str old s base.
Proof. intros H. rewrite <- set_str_c, (c_str_nul _ _ H). reflexivity. Qed.

Lemma L_C69_class base s : 2 <= base <= 62 -> no_nul s ->
  (forall v, mpz_class_str s base = Ok v <-> numeral base s v) /\ (mpz_class_str s base = Err Thrown <-> ~ exists v, numeral base s v).
Proof.
  intros B NN. destruct (L_C69_reads 0 base s B NN) as [H1 H2]. unfold mpz_class_str.
  destruct (mpz_set_str 0 s base) as [w [|]] eqn:E; cbn [fst snd].
  - split; [intros v; rewrite <- H1; split; [intros Q|intros Q]; [injection Q as ->; reflexivity|injection Q as ->; reflexivity]|].
    split; [discriminate|]. intros N. exfalso. apply N. exists w. apply H1. reflexivity.
  - assert (N : ~ exists v, numeral base s v) by (intros [v H]; apply H1 in H; discriminate H).
    split; [intros v; split; [discriminate|intros H; exfalso; apply N; exists v; exact H]|]. split; [intros _; exact N|reflexivity].
Qed.

Lemma L_C70_pointers C base sx sy c : pt_cstr C (Some sx) (Some sy) c base = Ok (pt_str C sx sy c base).
Proof. unfold pt_cstr, pt_str. rewrite !set_str_c. reflexivity. Qed.
Lemma L_C70_null C base sx sy c : sx = None \/ sy = None -> pt_cstr C sx sy c base = Err Thrown.
Proof. intros [-> | ->]; [|destruct sx]; reflexivity. Qed.

(** ** Base 0 *)
Lemma read_tab base acc s : base <= 36 -> read_digits 0 base acc s = read_digits base base acc s.
Proof.
  intros B. revert acc. induction s as [|c s IH]; intros acc; [reflexivity|]. cbn [read_digits]. destruct (is_space c); [apply IH|].
  rewrite (digit_value_low base c B), (digit_value_low 0 c ltac:(lia)). destruct (base <=? digit_value 36 c); [reflexivity|apply IH].
Qed.

Lemma find_base_spec c s b s2 : digit_value 0 c < 10 -> find_base 0 (c :: s) = (b, s2) -> (b = 16 \/ b = 2 \/ b = 8 \/ b = 10) /\ prefixed (c :: s) b s2.
Proof.
  intros D. unfold find_base. cbn [Z.eqb]. destruct (Z.eqb_spec (code c) 48) as [E|E].
  - assert (EC : c = "0"%char) by (unfold code in E; assert (Q : N_of_ascii c = 48%N) by lia; rewrite <- (ascii_N_embedding c), Q; reflexivity). subst c.
    destruct s as [|x s]; [intros H; injection H as <- <-; split; [tauto|constructor]|].
    assert (CX : forall m, code x = m -> x = chr m) by (intros m H; unfold chr; rewrite <- H; unfold code; rewrite N2Z.id, ascii_N_embedding; reflexivity).
    destruct (Z.eqb_spec (code x) 120) as [X|X]; cbn [orb].
    { intros H; injection H as <- <-. split; [tauto|]. constructor. left. exact (CX _ X). }
    destruct (Z.eqb_spec (code x) 88) as [X1|X1].
    { intros H; injection H as <- <-. split; [tauto|]. constructor. right. exact (CX _ X1). }
    destruct (Z.eqb_spec (code x) 98) as [X2|X2]; cbn [orb].
    { intros H; injection H as <- <-. split; [tauto|]. constructor. left. exact (CX _ X2). }
    destruct (Z.eqb_spec (code x) 66) as [X3|X3].
    { intros H; injection H as <- <-. split; [tauto|]. constructor. right. exact (CX _ X3). }
    intros H; injection H as <- <-. split; [tauto|constructor].
  - intros H; injection H as <- <-. split; [tauto|]. rewrite (digit_value_low 0 c ltac:(lia)) in D. rewrite <- (digit_value_low 10 c ltac:(lia)) in D.
    destruct (digit_dec 10 c ltac:(lia)) as [[d [Hd Ed]]|Hd]; [|lia]. apply (prefix_none c d); [exact Hd|]. intros ->.
    apply E. assert (Q : forallb (fun c => implb (digit_value 10 c =? 0) (code c =? 48)) chars = true) by (vm_compute; reflexivity).
    pose proof (forall_chars _ Q c) as H. cbv beta in H. rewrite Ed in H. cbn in H. apply Z.eqb_eq, H.
Qed.

(** what a prefixed string starts with *)
Lemma prefixed_head s1 b s2 : prefixed s1 b s2 -> exists c s, s1 = c :: s /\ digit_value 0 c < 10 /\ is_space c = false /\ code c <> 45.
Proof.
  intros [c s _|c s _|s|c d s D N]; (eexists; eexists; split; [reflexivity|]); try (split; [reflexivity|]; split; [reflexivity|discriminate]).
  pose proof (proj1 (digit_iff 10 c d ltac:(lia)) D) as [E L]. split; [rewrite (digit_value_low 0 c ltac:(lia)), <- (digit_value_low 10 c ltac:(lia)), E; lia|].
  split.
  - destruct (is_space c) eqn:S; [|reflexivity]. pose proof (space_not_digit 10 c ltac:(lia) S). lia.
  - intros M. destruct (minus_not_digit 10 c ltac:(lia) M). lia.
Qed.

(** a string with two readings would have two prefixes: octal excludes the others as x and b are no digits *)
Lemma find_base_spaced s1 b s2 ds : prefixed s1 b s2 -> spaced b s2 ds -> find_base 0 s1 = (b, s2).
Proof.
  intros [c s [-> | ->]|c s [-> | ->]|s|c d s D N] H; try reflexivity.
  - unfold find_base. cbn [Z.eqb]. change (code "0" =? 48) with true. cbv iota. destruct s as [|x s]; [reflexivity|].
    assert (X : forall m, In m [120; 88; 98; 66] -> (code x =? m) = false).
    { intros m I. apply Z.eqb_neq. intros E. inversion H as [|? ? ? S _|? d ? ? D _]; subst.
      - apply space_iff in S. unfold is_space in S. cbn [In] in I. rewrite orb_true_iff, andb_true_iff in S. lia.
      - apply (digit_iff 8 x d ltac:(lia)) in D. unfold digit_value in D. cbn [In] in I.
        destruct D as [D L]. revert D. destruct I as [I|[I|[I|[I|[]]]]]; rewrite <- I; cbn; intros; lia. }
    rewrite !X by (cbn; tauto). reflexivity.
  - unfold find_base. cbn [Z.eqb]. destruct (Z.eqb_spec (code c) 48) as [E|E]; [|reflexivity].
    apply (digit_iff 10 c d ltac:(lia)) in D. destruct (zero_value 10 c E) as [V _]. lia.
Qed.

Lemma set_str0 old (neg : bool) c s sp : no_nul (sp ++ (if neg then txt "-" else []) ++ c :: s) ->
  Forall space sp -> (neg = false -> is_space c = false /\ code c <> 45) ->
  mpz_set_str old (sp ++ (if neg then txt "-" else []) ++ c :: s) 0 =
    (if 10 <=? digit_value 0 c then (old, false) else
     let '(b, s2) := find_base 0 (c :: s) in
     match read_digits 0 b 0 (skip (fun c => (code c =? 48) || is_space c) s2) with None => (old, false) | Some v => (if neg then - v else v, true) end).
Proof.
  intros NN HS HN. unfold mpz_set_str. rewrite (c_str_id _ NN). cbn [Z.ltb Z.compare]. destruct neg.
  - change (txt "-" ++ c :: s) with ("-"%char :: c :: s). rewrite skip_app; [|exact HS|reflexivity]. reflexivity.
  - destruct (HN eq_refl) as [S M]. cbn [app]. rewrite skip_app by assumption. rewrite (proj2 (Z.eqb_neq _ _) M). reflexivity.
Qed.

Lemma set_str0_numeral old s v : no_nul s -> numeral0 s v -> mpz_set_str old s 0 = (v, true).
Proof.
  intros NN [sp [neg [s1 [b [s2 [ds [-> [HS [PF [SP ->]]]]]]]]]].
  destruct (prefixed_head _ _ _ PF) as [c [s [-> [DC [S M]]]]].
  rewrite set_str0; [|exact NN|exact HS|intros _; split; [exact S|exact M]].
  rewrite (proj2 (Z.leb_gt _ _) DC). rewrite (find_base_spaced _ _ _ _ PF SP).
  assert (B : 2 <= b <= 36) by (destruct PF; lia).
  rewrite (read_tab b) by lia. rewrite read_skip by lia.
  pose proof (read_digits_spec b 0 s2 ltac:(lia)) as H0. destruct (read_digits b b 0 s2) as [v|].
  - destruct H0 as [ds' [H1 E]]. rewrite (spaced_fun b _ _ _ ltac:(lia) H1 SP) in E. rewrite E. f_equal. destruct neg; ring.
  - exfalso. apply H0. exists ds. exact SP.
Qed.
Lemma set_str0_result old s : no_nul s -> (exists v, numeral0 s v /\ mpz_set_str old s 0 = (v, true)) \/ mpz_set_str old s 0 = (old, false).
Proof.
  intros NN. destruct (skip_split s) as [sp [Es [HS HC]]]. remember (skip is_space s) as r eqn:Er.
  assert (K : forall (neg : bool) c s', s = sp ++ (if neg then txt "-" else []) ++ c :: s' -> (neg = false -> is_space c = false /\ code c <> 45) ->
    (exists v, numeral0 s v /\ mpz_set_str old s 0 = (v, true)) \/ mpz_set_str old s 0 = (old, false)).
  { intros neg c s' E N. pose proof NN as NN'. rewrite E in NN'. rewrite E. rewrite set_str0 by assumption.
    destruct (Z.leb_spec 10 (digit_value 0 c)) as [L|L]; [right; reflexivity|].
    destruct (find_base 0 (c :: s')) as [b s2] eqn:FB. destruct (find_base_spec _ _ _ _ L FB) as [Hb PF].
    rewrite (read_tab b) by lia. rewrite read_skip by lia.
    pose proof (read_digits_spec b 0 s2 ltac:(lia)) as H0. destruct (read_digits b b 0 s2) as [v|]; [|right; reflexivity].
    destruct H0 as [ds [SP EV]]. left. eexists. split; [|reflexivity]. exists sp, neg, (c :: s'), b, s2, ds.
    split; [reflexivity|]. split; [exact HS|]. split; [exact PF|]. split; [exact SP|]. rewrite EV. destruct neg; ring. }
  destruct r as [|c r].
  - right. unfold mpz_set_str. rewrite (c_str_id _ NN), <- Er. reflexivity.
  - destruct (Z.eqb_spec (code c) 45) as [E|E].
    + pose proof (proj1 (code_minus c) E) as Ec. subst c. destruct r as [|c r].
      * right. unfold mpz_set_str. rewrite (c_str_id _ NN), <- Er. reflexivity.
      * apply (K true c r); [exact Es|discriminate].
    + apply (K false c r); [exact Es|]. intros _. split; [exact HC|exact E].
Qed.
Lemma L_C69_base0 old s : no_nul s ->
  (forall v, mpz_set_str old s 0 = (v, true) <-> numeral0 s v) /\ (mpz_set_str old s 0 = (old, false) <-> ~ exists v, numeral0 s v).
Proof.
  intros NN. destruct (set_str0_result old s NN) as [[w [H E]]|E].
  - split.
    + intros v. split; [|apply set_str0_numeral, NN]. rewrite E. intros Q. injection Q as <-. exact H.
    + rewrite E. split; [discriminate|]. intros N. exfalso. apply N. exists w. exact H.
  - split.
    + intros v. split; [rewrite E; discriminate|apply set_str0_numeral, NN].
    + split; [|intros _; exact E]. intros _ [v H]. rewrite (set_str0_numeral old s v NN H) in E. discriminate E.
Qed.
