(** Proofs about numbers as text. *)
From Coq Require Import ZArith Bool List Ascii String Lia.
From Verif Require Import Outcome FieldModel ZpField SpecField CurveParams EccModel SpecEcc TextModel SpecText.
Import ListNotations.
Open Scope Z_scope.

(** ** Characters *)
Definition chars : list ascii := map (fun n => ascii_of_nat n) (seq 0 256).
Lemma all_chars c : In c chars.
Proof.
  unfold chars. apply in_map_iff. exists (nat_of_ascii c). split; [apply ascii_nat_embedding|].
  apply in_seq. pose proof (nat_ascii_bounded c). lia.
Qed.
Lemma forall_chars (f : ascii -> bool) : forallb f chars = true -> forall c, f c = true.
Proof. intros H c. apply (proj1 (forallb_forall f chars) H c (all_chars c)). Qed.

Definition nth_is (l : list ascii) (d : nat) (c : ascii) : bool :=
  match nth_error l d with Some x => Ascii.eqb x c | None => false end.
Lemma nth_is_spec l d c : nth_is l d c = true <-> nth_error l d = Some c.
Proof.
  unfold nth_is. destruct (nth_error l d) as [x|]; [|split; discriminate].
  rewrite Ascii.eqb_eq. split; congruence.
Qed.

(** the value of a character in each alphabet *)
Definition val_ok (base : Z) (ls : list (list ascii)) (c : ascii) : bool :=
  let v := digit_value base c in
  (if v =? 255 then true else (0 <=? v) && (v <? 62) && existsb (fun l => nth_is l (Z.to_nat v) c) ls) &&
  forallb (fun d => implb (existsb (fun l => nth_is l d c) ls) (v =? Z.of_nat d)) (seq 0 63).
Lemma digits_low : forallb (val_ok 36 [lower; upper]) chars = true.
Proof. vm_compute. reflexivity. Qed.
Lemma digits_mixed : forallb (val_ok 37 [mixed]) chars = true.
Proof. vm_compute. reflexivity. Qed.

Lemma digit_value_low base c : base <= 36 -> digit_value base c = digit_value 36 c.
Proof. intros H. unfold digit_value. rewrite (proj2 (Z.leb_le base 36) H). reflexivity. Qed.
Lemma digit_value_mixed base c : 36 < base -> digit_value base c = digit_value 37 c.
Proof. intros H. unfold digit_value. rewrite (proj2 (Z.leb_gt base 36) H). reflexivity. Qed.

Lemma val_ok_spec base ls c : val_ok base ls c = true ->
  (forall d, (d < 63)%nat -> existsb (fun l => nth_is l d c) ls = true -> digit_value base c = Z.of_nat d) /\
  (digit_value base c = 255 \/ 0 <= digit_value base c < 62 /\ existsb (fun l => nth_is l (Z.to_nat (digit_value base c)) c) ls = true).
Proof.
  unfold val_ok. intros H. apply andb_prop in H as [H1 H2]. split.
  - intros d Hd He. rewrite forallb_forall in H2. specialize (H2 d). rewrite He in H2. cbn [implb] in H2.
    apply Z.eqb_eq, H2, in_seq. lia.
  - destruct (Z.eqb_spec (digit_value base c) 255); [left; assumption|right].
    apply andb_prop in H1 as [H1 H3]. apply andb_prop in H1 as [H0 H1]. split; [lia|exact H3].
Qed.

(** digit_value computes the relation [digit] *)
Lemma digit_iff base c d : 2 <= base <= 62 -> (digit base c d <-> digit_value base c = Z.of_nat d /\ Z.of_nat d < base).
Proof.
  intros B. unfold digit. destruct (Z.le_gt_cases base 36) as [L|L].
  - rewrite (digit_value_low base c L). destruct (val_ok_spec _ _ _ (forall_chars _ digits_low c)) as [H1 H2]. split.
    + intros [Hd [[_ H]|[H _]]]; [|lia]. split; [|exact Hd]. apply H1; [lia|]. cbn [existsb].
      rewrite !orb_true_iff, !nth_is_spec. destruct H as [H|H]; [left|right; left]; exact H.
    + intros [E Hd]. split; [exact Hd|left]. split; [exact L|]. destruct H2 as [H2|[_ H2]]; [lia|].
      rewrite E, Nat2Z.id in H2. cbn [existsb] in H2. rewrite !orb_true_iff, !nth_is_spec in H2.
      destruct H2 as [H2|[H2|H2]]; [left; exact H2|right; exact H2|discriminate].
  - rewrite (digit_value_mixed base c L). destruct (val_ok_spec _ _ _ (forall_chars _ digits_mixed c)) as [H1 H2]. split.
    + intros [Hd [[H _]|[_ H]]]; [lia|]. split; [|exact Hd]. apply H1; [lia|]. cbn [existsb].
      rewrite orb_true_iff, nth_is_spec. left; exact H.
    + intros [E Hd]. split; [exact Hd|right]. split; [exact L|]. destruct H2 as [H2|[_ H2]]; [lia|].
      rewrite E, Nat2Z.id in H2. cbn [existsb] in H2. rewrite orb_true_iff, nth_is_spec in H2.
      destruct H2 as [H2|H2]; [exact H2|discriminate].
Qed.
Lemma digit_nonneg base c : 0 <= digit_value base c.
Proof.
  unfold digit_value. cbv zeta. destruct ((48 <=? code c) && (code c <=? 57)) eqn:E1; [lia|].
  destruct ((65 <=? code c) && (code c <=? 90)) eqn:E2; [lia|].
  destruct ((97 <=? code c) && (code c <=? 122)) eqn:E3; [|lia]. destruct (base <=? 36); lia.
Qed.

Lemma digit_dec base c : 2 <= base <= 62 -> (exists d, digit base c d /\ digit_value base c = Z.of_nat d) \/ base <= digit_value base c.
Proof.
  intros B. destruct (Z.le_gt_cases base (digit_value base c)) as [L|L]; [right; exact L|left].
  pose proof (digit_nonneg base c). exists (Z.to_nat (digit_value base c)). rewrite Z2Nat.id by assumption. split; [|reflexivity].
  apply digit_iff; [exact B|]. rewrite Z2Nat.id by assumption. split; [reflexivity|exact L].
Qed.

Lemma space_iff c : is_space c = true <-> space c.
Proof.
  assert (H : forallb (fun c => Bool.eqb (is_space c) (existsb (Ascii.eqb c) [" "; "009"; "010"; "011"; "012"; "013"]%char)) chars = true)
    by (vm_compute; reflexivity).
  pose proof (forall_chars _ H c) as E. cbv beta in E. apply eqb_prop in E. rewrite E, existsb_exists. unfold space. split.
  - intros [x [I Ex]]. apply Ascii.eqb_eq in Ex. subst x. exact I.
  - intros I. exists c. split; [exact I|apply Ascii.eqb_refl].
Qed.
Lemma space_not_digit base c : 2 <= base <= 62 -> is_space c = true -> base <= digit_value base c.
Proof.
  intros B S. assert (H : forallb (fun c => implb (is_space c) ((digit_value 36 c =? 255) && (digit_value 37 c =? 255))) chars = true)
    by (vm_compute; reflexivity).
  pose proof (forall_chars _ H c) as E. cbv beta in E. rewrite S in E. cbn [implb] in E. apply andb_prop in E as [E1 E2].
  destruct (Z.le_gt_cases base 36) as [L|L]; [rewrite (digit_value_low base c L)|rewrite (digit_value_mixed base c L)]; lia.
Qed.
Lemma minus_not_digit base c : 2 <= base <= 62 -> code c = 45 -> base <= digit_value base c /\ is_space c = false.
Proof.
  intros B S. unfold digit_value, is_space. rewrite S. cbn [Z.leb Z.compare Pos.compare Pos.compare_cont andb Z.eqb Pos.eqb orb]. split; [lia|reflexivity].
Qed.
Lemma code_minus c : code c = 45 <-> c = "-"%char.
Proof.
  split; [|intros ->; reflexivity]. intros H. unfold code in H.
  assert (E : N_of_ascii c = 45%N) by lia. rewrite <- (ascii_N_embedding c), E. reflexivity.
Qed.
Lemma code_nul c : code c = 0 <-> c = "000"%char.
Proof.
  split; [|intros ->; reflexivity]. intros H. unfold code in H.
  assert (E : N_of_ascii c = 0%N) by lia. rewrite <- (ascii_N_embedding c), E. reflexivity.
Qed.
Lemma zero_value base c : code c = 48 -> digit_value base c = 0 /\ is_space c = false.
Proof. intros H. unfold digit_value, is_space. rewrite H. split; reflexivity. Qed.

(** ** Reading *)
Lemma c_str_id s : no_nul s -> c_str s = s.
Proof.
  unfold no_nul. induction s as [|c s IH]; [reflexivity|]. intros H. cbn [c_str]. destruct (Z.eqb_spec (code c) 0) as [E|E].
  - apply code_nul in E. exfalso. apply H. left. exact E.
  - rewrite IH; [reflexivity|]. intros I. apply H. right. exact I.
Qed.

Lemma positional_snoc base ds acc : fold_left (fun a d => a * base + Z.of_nat d) ds acc = acc * base ^ Z.of_nat (List.length ds) + positional base ds.
Proof.
  revert acc; induction ds as [|d ds IH]; intros acc; cbn [fold_left positional List.length].
  - rewrite Z.pow_0_r. lia.
  - rewrite IH, Nat2Z.inj_succ, Z.pow_succ_r by lia. ring.
Qed.

Lemma read_digits_spec base acc s : 2 <= base <= 62 ->
  match read_digits base base acc s with
  | Some v => exists ds, spaced base s ds /\ v = acc * base ^ Z.of_nat (List.length ds) + positional base ds
  | None => ~ exists ds, spaced base s ds
  end.
Proof.
  intros B. revert acc; induction s as [|c s IH]; intros acc; cbn [read_digits].
  - exists []. split; [constructor|]. cbn. lia.
  - destruct (is_space c) eqn:S.
    + specialize (IH acc). pose proof (proj1 (space_iff c) S) as S'. destruct (read_digits base base acc s) as [v|].
      * destruct IH as [ds [H E]]. exists ds. split; [constructor; assumption|exact E].
      * intros [ds H]. inversion H; subst.
        -- apply IH. eexists; eassumption.
        -- apply (digit_iff _ _ _ B) in H2. pose proof (space_not_digit base c B S). lia.
    + destruct (Z.leb_spec base (digit_value base c)) as [L|L].
      * intros [ds H]. inversion H; subst.
        -- apply space_iff in H2. congruence.
        -- apply (digit_iff _ _ _ B) in H2. lia.
      * destruct (digit_dec base c B) as [[d [Hd Ed]]|D]; [|lia].
        specialize (IH (acc * base + digit_value base c)). destruct (read_digits base base _ s) as [v|].
        -- destruct IH as [ds [H E]]. exists (d :: ds). split; [constructor 3; assumption|].
           cbn [List.length positional]. rewrite Nat2Z.inj_succ, Z.pow_succ_r by lia. rewrite E, Ed. ring.
        -- intros [ds H]. inversion H; subst.
           ++ apply space_iff in H2. congruence.
           ++ apply IH. eexists; eassumption.
Qed.

(** leading zeros and white space do not matter *)
Lemma read_skip base s : 2 <= base <= 62 ->
  read_digits base base 0 (skip (fun c => (code c =? 48) || is_space c) s) = read_digits base base 0 s.
Proof.
  intros B. induction s as [|c s IH]; [reflexivity|]. cbn [skip].
  destruct (Z.eqb_spec (code c) 48) as [E|E]; cbn [orb].
  - destruct (zero_value base c E) as [V S]. rewrite IH. cbn [read_digits]. rewrite V, S.
    destruct (Z.leb_spec base 0); [lia|]. reflexivity.
  - destruct (is_space c) eqn:S; [|reflexivity]. rewrite IH. cbn [read_digits]. rewrite S. reflexivity.
Qed.

Lemma spaced_fun base s ds ds' : 2 <= base <= 62 -> spaced base s ds -> spaced base s ds' -> ds = ds'.
Proof.
  intros B H; revert ds'. induction H as [|c s ds S H IH|c d s ds D H IH]; intros ds' H'; inversion H'; subst.
  - reflexivity.
  - apply IH; assumption.
  - apply (digit_iff _ _ _ B) in H2. apply space_iff in S. pose proof (space_not_digit base c B S). lia.
  - apply (digit_iff _ _ _ B) in D. apply space_iff in H2. pose proof (space_not_digit base c B H2). lia.
  - f_equal; [|apply IH; assumption]. apply (digit_iff _ _ _ B) in D, H2. lia.
Qed.

Lemma skip_app sp c s : Forall space sp -> is_space c = false -> skip is_space (sp ++ c :: s) = c :: s.
Proof.
  induction 1 as [|x sp H HF IH]; intros S; cbn [app skip].
  - rewrite S. reflexivity.
  - apply space_iff in H. rewrite H. apply IH, S.
Qed.
Lemma skip_split s : exists sp, s = sp ++ skip is_space s /\ Forall space sp /\
  match skip is_space s with [] => True | c :: _ => is_space c = false end.
Proof.
  induction s as [|c s [sp [E [H1 H2]]]]; [exists []; repeat split; constructor|]. cbn [skip]. destruct (is_space c) eqn:S.
  - exists (c :: sp). cbn [app]. rewrite <- E. split; [reflexivity|]. split; [|exact H2]. constructor; [apply space_iff, S|exact H1].
  - exists []. split; [reflexivity|]. split; [constructor|exact S].
Qed.

(** the sign and the first digit *)
Lemma set_str_digits old base (neg : bool) c s sp : 2 <= base <= 62 -> no_nul (sp ++ (if neg then txt "-" else []) ++ c :: s) ->
  Forall space sp -> (neg = false -> is_space c = false /\ code c <> 45) ->
  mpz_set_str old (sp ++ (if neg then txt "-" else []) ++ c :: s) base =
    (if base <=? digit_value base c then (old, false) else
     match read_digits base base 0 (c :: s) with None => (old, false) | Some v => (if neg then - v else v, true) end).
Proof.
  intros B NN HS HN. unfold mpz_set_str. rewrite (c_str_id _ NN). destruct (Z.ltb_spec 62 base); [lia|].
  destruct (Z.eqb_spec base 0) as [E0|E0]; [lia|]. unfold find_base. rewrite (proj2 (Z.eqb_neq base 0) E0).
  destruct neg.
  - change (txt "-" ++ c :: s) with ("-"%char :: c :: s). rewrite skip_app; [|exact HS|reflexivity].
    change (code "-" =? 45) with true. cbv iota beta. destruct (base <=? digit_value base c); [reflexivity|].
    rewrite read_skip by exact B. reflexivity.
  - destruct (HN eq_refl) as [S M]. cbn [app]. rewrite skip_app by assumption.
    rewrite (proj2 (Z.eqb_neq _ _) M). cbv iota beta. destruct (base <=? digit_value base c); [reflexivity|].
    rewrite read_skip by exact B. reflexivity.
Qed.

Lemma set_str_numeral old base s v : 2 <= base <= 62 -> no_nul s -> numeral base s v -> mpz_set_str old s base = (v, true).
Proof.
  intros B NN [sp [neg [c [s' [d [ds [-> [HS [HD [HR ->]]]]]]]]]].
  pose proof (proj1 (digit_iff _ _ _ B) HD) as [Ed Ld].
  rewrite set_str_digits; try assumption.
  - destruct (Z.leb_spec base (digit_value base c)); [lia|].
    pose proof (read_digits_spec base 0 (c :: s') B) as H0. assert (SP : spaced base (c :: s') (d :: ds)) by (constructor 3; assumption).
    destruct (read_digits base base 0 (c :: s')) as [v|].
    + destruct H0 as [ds' [H1 E]]. rewrite (spaced_fun _ _ _ _ B H1 SP) in E. rewrite E. f_equal. destruct neg; ring.
    + exfalso. apply H0. eexists; exact SP.
  - intros _. split.
    + destruct (is_space c) eqn:S; [|reflexivity]. pose proof (space_not_digit base c B S). lia.
    + intros M. destruct (minus_not_digit base c B M). lia.
Qed.

Lemma set_str_not old base s : 2 <= base <= 62 -> no_nul s -> ~ (exists v, numeral base s v) -> mpz_set_str old s base = (old, false).
Proof.
  intros B NN H. destruct (skip_split s) as [sp [Es [HS HC]]]. remember (skip is_space s) as r eqn:Er.
  assert (K : forall (neg : bool) c s', s = sp ++ (if neg then txt "-" else []) ++ c :: s' -> (neg = false -> is_space c = false /\ code c <> 45) ->
    mpz_set_str old s base = (old, false)).
  { intros neg c s' E N. rewrite E in NN |- *. rewrite set_str_digits by assumption.
    destruct (Z.leb_spec base (digit_value base c)) as [L|L]; [reflexivity|].
    pose proof (read_digits_spec base 0 (c :: s') B) as H0. destruct (read_digits base base 0 (c :: s')) as [v|]; [|reflexivity].
    exfalso. destruct H0 as [ds [H1 E1]]. inversion H1; subst.
    - apply space_iff in H3. pose proof (space_not_digit base c B H3). lia.
    - apply H. eexists. exists sp, neg, c, s', d, ds0. repeat (split; [reflexivity || assumption|]). reflexivity. }
  destruct r as [|c r].
  - unfold mpz_set_str. rewrite (c_str_id _ NN), <- Er. destruct (62 <? base); reflexivity.
  - destruct (Z.eq_dec (code c) 45) as [M|M].
    + apply code_minus in M. subst c. destruct r as [|c r].
      * unfold mpz_set_str. rewrite (c_str_id _ NN), <- Er. destruct (62 <? base); reflexivity.
      * apply (K true c r); [exact Es|discriminate].
    + apply (K false c r); [exact Es|]. intros _. split; [exact HC|exact M].
Qed.

Lemma L_C69_reads old base s : 2 <= base <= 62 -> no_nul s ->
  (forall v, mpz_set_str old s base = (v, true) <-> numeral base s v) /\
  (mpz_set_str old s base = (old, false) <-> ~ exists v, numeral base s v).
Proof.
  intros B NN. split.
  - intros v. split; [|apply set_str_numeral; assumption]. intros E.
    destruct (mpz_set_str old s base) as [v' ok] eqn:E1. injection E as -> ->.
    destruct (skip_split s) as [sp [Es [HS HC]]]. remember (skip is_space s) as r eqn:Er.
    assert (K : forall (neg : bool) c s', s = sp ++ (if neg then txt "-" else []) ++ c :: s' -> (neg = false -> is_space c = false /\ code c <> 45) ->
      numeral base s v).
    { intros neg c s' E N. rewrite E in NN, E1 |- *. rewrite set_str_digits in E1 by assumption.
      destruct (Z.leb_spec base (digit_value base c)) as [L|L]; [discriminate|].
      pose proof (read_digits_spec base 0 (c :: s') B) as H0. destruct (read_digits base base 0 (c :: s')) as [v'|]; [|discriminate].
      injection E1 as E1. destruct H0 as [ds [H1 E2]]. inversion H1; subst.
      - apply space_iff in H2. pose proof (space_not_digit base c B H2). lia.
      - exists sp, neg, c, s', d, ds0. repeat (split; [reflexivity || assumption|]). destruct neg; ring. }
    destruct r as [|c r].
    + unfold mpz_set_str in E1. rewrite (c_str_id _ NN), <- Er in E1. destruct (62 <? base); discriminate.
    + destruct (Z.eq_dec (code c) 45) as [M|M].
      * apply code_minus in M. subst c. destruct r as [|c r].
        -- unfold mpz_set_str in E1. rewrite (c_str_id _ NN), <- Er in E1. destruct (62 <? base); discriminate.
        -- apply (K true c r); [exact Es|discriminate].
      * apply (K false c r); [exact Es|]. intros _. split; [exact HC|exact M].
  - split; [|apply set_str_not; assumption]. intros E [v N]. rewrite (set_str_numeral old base s v B NN N) in E. discriminate.
Qed.

(** ** Writing *)
Lemma low_spec base fuel v : 2 <= base -> 0 <= v < 2 ^ Z.of_nat fuel ->
  fold_right (fun d a => d + base * a) 0 (low_digits fuel base v) = v /\
  Forall (fun d => 0 <= d < base) (low_digits fuel base v).
Proof.
  intros B. revert v; induction fuel as [|f IH]; intros v Hv; cbn [low_digits].
  - cbn in Hv. split; [cbn; lia|constructor].
  - destruct (Z.eqb_spec v 0) as [E|E]; [subst v; split; [reflexivity|constructor]|].
    rewrite Nat2Z.inj_succ, Z.pow_succ_r in Hv by lia.
    destruct (IH (v / base)) as [H1 H2].
    { split; [apply Z.div_pos; lia|]. apply Z.div_lt_upper_bound; [lia|]. nia. }
    cbn [fold_right]. rewrite H1. pose proof (Z.div_mod v base ltac:(lia)). split; [lia|].
    constructor; [apply Z.mod_pos_bound; lia|exact H2].
Qed.

Lemma positional_app base ds d : positional base (ds ++ [d]) = positional base ds * base + Z.of_nat d.
Proof.
  pose proof (positional_snoc base (ds ++ [d]) 0) as H. rewrite fold_left_app in H. cbn [fold_left] in H.
  rewrite (positional_snoc base ds 0) in H. lia.
Qed.
Lemma positional_rev base l : Forall (fun d => 0 <= d < base) l ->
  positional base (map Z.to_nat (rev l)) = fold_right (fun d a => d + base * a) 0 l.
Proof.
  induction 1 as [|d l H HF IH]; [reflexivity|]. cbn [rev fold_right]. rewrite map_app. cbn [map].
  rewrite positional_app, IH, Z2Nat.id by lia. ring.
Qed.

Lemma digit_char_digit base d : 2 <= base <= 62 -> 0 <= d < base -> digit base (digit_char base d) (Z.to_nat d).
Proof.
  intros B D. unfold digit. rewrite Z2Nat.id by lia. split; [lia|]. destruct (Z.le_gt_cases base 36) as [L|L].
  - left. split; [exact L|left].
    assert (H : forallb (fun k => nth_is lower k (digit_char 36 (Z.of_nat k))) (seq 0 36) = true) by (vm_compute; reflexivity).
    rewrite forallb_forall in H. specialize (H (Z.to_nat d)). rewrite Z2Nat.id, nth_is_spec in H by lia.
    replace (digit_char base d) with (digit_char 36 d); [apply H, in_seq; lia|].
    unfold digit_char. rewrite (proj2 (Z.leb_le base 36) L). reflexivity.
  - right. split; [exact L|].
    assert (H : forallb (fun k => nth_is mixed k (digit_char 62 (Z.of_nat k))) (seq 0 62) = true) by (vm_compute; reflexivity).
    rewrite forallb_forall in H. specialize (H (Z.to_nat d)). rewrite Z2Nat.id, nth_is_spec in H by lia.
    replace (digit_char base d) with (digit_char 62 d); [apply H, in_seq; lia|].
    unfold digit_char. rewrite (proj2 (Z.leb_gt base 36) L). reflexivity.
Qed.
Lemma spaced_map base l : 2 <= base <= 62 -> Forall (fun d => 0 <= d < base) l ->
  spaced base (map (digit_char base) l) (map Z.to_nat l).
Proof. intros B. induction 1; cbn [map]; [constructor|]. constructor 3; [apply digit_char_digit; assumption|assumption]. Qed.

Lemma digits_of base v : 2 <= base -> v <> 0 ->
  let l := rev (low_digits (Z.to_nat (Z.log2 (Z.abs v)) + 1) base (Z.abs v)) in
  l <> [] /\ Forall (fun d => 0 <= d < base) l /\ positional base (map Z.to_nat l) = Z.abs v.
Proof.
  intros B N l. destruct (low_spec base (Z.to_nat (Z.log2 (Z.abs v)) + 1) (Z.abs v) B) as [H1 H2].
  { split; [lia|]. rewrite Nat2Z.inj_add, Z2Nat.id by apply Z.log2_nonneg. apply Z.log2_spec. lia. }
  split; [|split].
  - intros E. assert (E' : low_digits (Z.to_nat (Z.log2 (Z.abs v)) + 1) base (Z.abs v) = []).
    { rewrite <- (rev_involutive (low_digits _ _ _)). fold l. rewrite E. reflexivity. }
    rewrite E' in H1. cbn in H1. lia.
  - apply Forall_rev. exact H2.
  - unfold l. rewrite positional_rev by exact H2. exact H1.
Qed.

Lemma digit_not_nul base c d : 2 <= base <= 62 -> digit base c d -> c <> "000"%char.
Proof.
  intros B H E. subst c. apply (digit_iff _ _ _ B) in H. 
  assert (V : digit_value base "000" = 255) by (unfold digit_value; cbn; destruct (base <=? 36); reflexivity). lia.
Qed.

Lemma get_str_numeral base v : 2 <= base <= 62 -> numeral base (get_str base v) v /\ no_nul (get_str base v).
Proof.
  intros B. unfold get_str. destruct (Z.eqb_spec v 0) as [E|E].
  - subst v. cbn [Z.ltb Z.compare app]. assert (D : digit base "0" 0).
    { split; [cbn; lia|]. destruct (Z.le_gt_cases base 36); [left|right]; split; try assumption; [left|]; reflexivity. }
    split.
    + exists [], false, "0"%char, [], 0%nat, []. split; [reflexivity|]. split; [constructor|]. split; [exact D|].
      split; [constructor|]. reflexivity.
    + cbn. intros [H|[]]. discriminate.
  - destruct (digits_of base v ltac:(lia) E) as [N [HF P]]. set (l := rev _) in *. clearbody l.
    destruct l as [|d l]; [contradiction|]. inversion HF as [|? ? Hd Hl]; subst. split.
    + exists [], (v <? 0), (digit_char base d), (map (digit_char base) l), (Z.to_nat d), (map Z.to_nat l).
      split; [destruct (v <? 0); reflexivity|]. split; [constructor|]. split; [apply digit_char_digit; assumption|].
      split; [apply spaced_map; assumption|]. change (Z.to_nat d :: map Z.to_nat l) with (map Z.to_nat (d :: l)). rewrite P.
      destruct (Z.ltb_spec v 0); lia.
    + unfold no_nul. rewrite in_app_iff. intros [H|H].
      * destruct (v <? 0); [|exact H]. cbn in H. destruct H as [H|[]]. discriminate.
      * apply in_map_iff in H as [x [Ex Hx]]. rewrite Forall_forall in HF.
        apply (digit_not_nul base _ _ B (digit_char_digit base x B (HF x Hx)) Ex).
Qed.

Lemma L_C69_roundtrip old base v : 2 <= base <= 62 -> mpz_set_str old (get_str base v) base = (v, true).
Proof. intros B. destruct (get_str_numeral base v B). apply set_str_numeral; assumption. Qed.

(** the loop of operator* reads the digits from the end *)
Lemma size_log2 p : (Z.to_nat (Z.log2 (Zpos p)) + 1)%nat = Pos.size_nat p.
Proof.
  assert (S : forall p, Pos.to_nat (Pos.size p) = Pos.size_nat p).
  { clear p. induction p as [p IH|p IH|]; cbn [Pos.size Pos.size_nat]; rewrite ?Pos2Nat.inj_succ, ?IH; reflexivity. }
  destruct p as [p|p|]; cbn [Z.log2 Pos.size_nat]; rewrite ?Z2Nat.inj_pos, ?S; [lia|lia|reflexivity].
Qed.
Lemma low_bits p fuel : (Pos.size_nat p <= fuel)%nat -> low_digits fuel 2 (Zpos p) = map Z.b2z (pbits p).
Proof.
  revert fuel; induction p as [p IH|p IH|]; intros [|f] H; cbn [Pos.size_nat] in H; try lia; cbn [low_digits pbits map].
  - replace (Z.pos p~1 / 2) with (Z.pos p) by (apply Z.div_unique with 1; lia).
    replace (Z.pos p~1 mod 2) with 1 by (apply Z.mod_unique with (Z.pos p); lia). cbn [Z.eqb]. rewrite IH by lia. reflexivity.
  - replace (Z.pos p~0 / 2) with (Z.pos p) by (apply Z.div_unique with 0; lia).
    replace (Z.pos p~0 mod 2) with 0 by (apply Z.mod_unique with (Z.pos p); lia). cbn [Z.eqb]. rewrite IH by lia. reflexivity.
  - cbn. destruct f; reflexivity.
Qed.
Lemma L_C69_bits v : map (Ascii.eqb "1") (rev (get_str 2 v)) = zbits v.
Proof.
  assert (K : forall p, map (Ascii.eqb "1") (rev (map (digit_char 2) (rev (low_digits (Z.to_nat (Z.log2 (Z.pos p)) + 1) 2 (Z.pos p))))) = pbits p).
  { intros p. rewrite size_log2, low_bits by lia. rewrite <- map_rev, rev_involutive, !map_map.
    rewrite <- (map_id (pbits p)) at 2. apply map_ext. intros [|]; reflexivity. }
  destruct v as [|p|p]; [reflexivity| |].
  - apply K.
  - unfold get_str. cbn [Z.ltb Z.compare Z.eqb Z.abs]. rewrite rev_app_distr, map_app, K. reflexivity.
Qed.

(** ** Points from strings *)
Section Points.
  Variable C : cparams.
  Lemma L_C70_valid base sx sy X Y c : 2 <= base <= 62 -> no_nul sx -> no_nul sy -> numeral base sx X -> numeral base sy Y ->
    pt_str C sx sy c base = pt_z C X Y c.
  Proof.
    intros B NX NY HX HY. unfold pt_str. rewrite (set_str_numeral _ _ _ _ B NX HX). cbn [fst].
    rewrite (set_str_numeral _ _ _ _ B NY HY). reflexivity.
  Qed.
  Lemma L_C70_bad_x base sx sy Y c : 2 <= base <= 62 -> no_nul sx -> no_nul sy -> ~ (exists X, numeral base sx X) -> numeral base sy Y ->
    pt_str C sx sy c base = pt_z C 0 Y c.
  Proof.
    intros B NX NY HX HY. unfold pt_str. rewrite (set_str_not _ _ _ B NX HX). cbn [fst].
    rewrite (set_str_numeral _ _ _ _ B NY HY). reflexivity.
  Qed.
  Lemma L_C70_bad_y base sx sy X c : 2 <= base <= 62 -> no_nul sx -> no_nul sy -> numeral base sx X -> ~ (exists Y, numeral base sy Y) ->
    pt_str C sx sy c base = pt_z C X X c.
  Proof.
    intros B NX NY HX HY. unfold pt_str. rewrite (set_str_numeral _ _ _ _ B NX HX). cbn [fst].
    rewrite (set_str_not _ _ _ B NY HY). reflexivity.
  Qed.
  Lemma L_C70_cstr base sx sy c : no_nul sx -> no_nul sy -> pt_cstr C (Some sx) (Some sy) c base = Ok (pt_str C sx sy c base).
  Proof. intros NX NY. unfold pt_cstr. rewrite !c_str_id by assumption. reflexivity. Qed.
End Points.

(** ** Printing *)
Definition is_num (c : ascii) : bool := (48 <=? code c) && (code c <=? 57) || (code c =? 45).
Lemma digit10_num c d : digit 10 c d -> is_num c = true.
Proof.
  intros H. apply digit_iff in H; [|lia]. destruct H as [H1 H2].
  assert (K : forallb (fun c => (10 <=? digit_value 10 c) || is_num c) chars = true) by (vm_compute; reflexivity).
  pose proof (forall_chars _ K c) as E. cbv beta in E. destruct (Z.leb_spec 10 (digit_value 10 c)); [lia|exact E].
Qed.
Lemma show_num v : Forall (fun c => is_num c = true) (show_z v).
Proof.
  unfold show_z, get_str. apply Forall_app. split; [destruct (v <? 0); repeat constructor|].
  destruct (Z.eqb_spec v 0) as [E|E]; [repeat constructor|].
  destruct (digits_of 10 v ltac:(lia) E) as [_ [HF _]]. apply Forall_forall. intros c H. apply in_map_iff in H as [x [<- Hx]].
  rewrite Forall_forall in HF. eapply digit10_num, digit_char_digit; [lia|apply HF, Hx].
Qed.
Lemma show_z_inj v w : show_z v = show_z w -> v = w.
Proof.
  intros H. pose proof (L_C69_roundtrip 0 10 v ltac:(lia)) as A. pose proof (L_C69_roundtrip 0 10 w ltac:(lia)) as B.
  unfold show_z in H. rewrite H, B in A. injection A as ->. reflexivity.
Qed.

(** a printed number ends where a character occurs that is none of a number's *)
Lemma split_num (a b : text) c x c' y : Forall (fun c => is_num c = true) a -> Forall (fun c => is_num c = true) b ->
  is_num c = false -> is_num c' = false -> a ++ c :: x = b ++ c' :: y -> a = b /\ c :: x = c' :: y.
Proof.
  intros Ha. revert b; induction Ha as [|u a Hu Ha IH]; intros b Hb Hc Hc' E; destruct Hb as [|w b Hw Hb]; cbn [app] in E.
  - split; [reflexivity|exact E].
  - exfalso. injection E as E1 _. subst. congruence.
  - exfalso. injection E as E1 _. subst. congruence.
  - injection E as -> E. destruct (IH b Hb Hc Hc' E) as [-> E']. split; [reflexivity|exact E'].
Qed.
Lemma split_z v w c x y : is_num c = false -> show_z v ++ c :: x = show_z w ++ c :: y -> v = w /\ x = y.
Proof.
  intros Hc E. destruct (split_num _ _ _ _ _ _ (show_num v) (show_num w) Hc Hc E) as [E1 E2].
  split; [apply show_z_inj, E1|]. injection E2 as E2. exact E2.
Qed.
Lemma split_txt (s : string) c t v w x y : txt s = c :: t -> is_num c = false ->
  show_z v ++ txt s ++ x = show_z w ++ txt s ++ y -> v = w /\ x = y.
Proof.
  intros E Hc H. rewrite E in H. cbn [app] in H. destruct (split_z _ _ _ _ _ Hc H) as [E1 E2].
  split; [exact E1|]. apply app_inv_head in E2. exact E2.
Qed.

Lemma L_C71_field a b : show_fe a = show_fe b -> a = b.
Proof.
  destruct a as [u p], b as [v q]. unfold show_fe. cbn [fval fmod]. intros H.
  destruct (split_txt "  mod " " "%char (txt " mod ") u v (show_z p) (show_z q) eq_refl eq_refl H) as [-> E].
  apply show_z_inj in E. subst q. reflexivity.
Qed.

Lemma show_pt_inj P Q : show_pt P = show_pt Q <->
  pinf P = true /\ pinf Q = true \/ pinf P = false /\ pinf Q = false /\ fval (px P) = fval (px Q) /\ fval (py P) = fval (py Q).
Proof.
  unfold show_pt. destruct (pinf P), (pinf Q); split.
  - left; split; reflexivity.
  - reflexivity.
  - intros H. exfalso. change (txt "(inf, inf)") with (txt "(" ++ txt "inf, inf)") in H. apply app_inv_head in H.
    pose proof (show_num (fval (px Q))) as N. destruct (show_z (fval (px Q))) as [|c t].
    + cbn in H. discriminate.
    + cbn in H. injection H as H _. inversion N; subst. discriminate.
  - intros [[_ H]|[H _]]; discriminate.
  - intros H. exfalso. change (txt "(inf, inf)") with (txt "(" ++ txt "inf, inf)") in H. apply app_inv_head in H.
    pose proof (show_num (fval (px P))) as N. destruct (show_z (fval (px P))) as [|c t].
    + cbn in H. discriminate.
    + cbn in H. injection H as H _. inversion N; subst. discriminate.
  - intros [[H _]|[_ [H _]]]; discriminate.
  - intros H. right. split; [reflexivity|]. split; [reflexivity|]. apply app_inv_head in H.
    destruct (split_txt "," ","%char [] _ _ _ _ eq_refl eq_refl H) as [E1 E2].
    split; [exact E1|]. change (txt ")") with (")"%char :: []) in E2.
    apply (split_z _ _ ")"%char [] [] eq_refl) in E2. apply E2.
  - intros [[H _]|[_ [_ [-> ->]]]]; [discriminate|reflexivity].
Qed.

Lemma L_C71_curve C D : show_curve C = show_curve D ->
  c_prime C = c_prime D /\ c_a C = c_a D /\ c_b C = c_b D /\ c_order C = c_order D /\ c_cofactor C = c_cofactor D.
Proof.
  unfold show_curve. intros H. apply app_inv_head in H.
  destruct (split_txt ", a=" ","%char (txt " a=") _ _ _ _ eq_refl eq_refl H) as [E1 H1].
  destruct (split_txt ", b=" ","%char (txt " b=") _ _ _ _ eq_refl eq_refl H1) as [E2 H2].
  destruct (split_txt ", n=" ","%char (txt " n=") _ _ _ _ eq_refl eq_refl H2) as [E3 H3].
  destruct (split_txt ", cof=" ","%char (txt " cof=") _ _ _ _ eq_refl eq_refl H3) as [E4 H4].
  apply (split_z _ _ ")"%char [] [] eq_refl) in H4. destruct H4. repeat (split; [assumption|]). assumption.
Qed.

Lemma L_C71_curve_eq C D : show_curve C = show_curve D <-> curve_eq C D = true.
Proof.
  unfold curve_eq. rewrite !andb_true_iff, !Z.eqb_eq. split.
  - intros H. destruct (L_C71_curve C D H) as [E1 [E2 [E3 [E4 E5]]]]. repeat (split; [|assumption]). assumption.
  - intros [[[[E1 E2] E3] E4] E5]. unfold show_curve. rewrite E1, E2, E3, E4, E5. reflexivity.
Qed.

Lemma some_pair {A : Type} (x y u v : A) : Some (x, y) = Some (u, v) -> x = u /\ y = v.
Proof. intros H. injection H as -> ->. split; reflexivity. Qed.

Section Valid.
  Variables (live : Z -> bool) (k : cname).
  Notation C := (params k).
  Lemma prime_field : c_prime C = fieldp C /\ 0 < fieldp C.
  Proof. destruct k; split; reflexivity. Qed.

  Lemma valid_canon P : valid live C P -> pinf P = false -> canon (fieldp C) (px P) /\ canon (fieldp C) (py P).
  Proof. intros [-> | [_ [A [B _]]]] H; [discriminate|]. split; assumption. Qed.

  Lemma mk_val_eq x y : canon (fieldp C) x -> canon (fieldp C) y -> mk (c_prime C) (fval x) = mk (c_prime C) (fval y) -> fval x = fval y.
  Proof.
    intros [_ A] [_ B] E. destruct prime_field as [Ep _]. rewrite Ep in E. apply mk_eq_inv in E.
    rewrite !Z.mod_small in E by assumption. exact E.
  Qed.

  Lemma L_C71_point P Q : valid live C P -> valid live C Q -> (show_pt P = show_pt Q <-> den C P = den C Q).
  Proof.
    intros VP VQ. rewrite show_pt_inj. unfold den. pose proof (valid_canon P VP) as KP. pose proof (valid_canon Q VQ) as KQ.
    destruct (pinf P), (pinf Q); split; intros H; try discriminate; try reflexivity.
    - left; split; reflexivity.
    - destruct H as [[_ H]|[H _]]; discriminate.
    - destruct H as [[H _]|[_ [H _]]]; discriminate.
    - destruct H as [[H _]|[_ [_ [-> ->]]]]; [discriminate|reflexivity].
    - right. split; [reflexivity|]. split; [reflexivity|]. destruct (KP eq_refl) as [A B], (KQ eq_refl) as [A' B'].
      apply some_pair in H as [E1 E2]. split; apply mk_val_eq; assumption.
  Qed.

  Lemma L_C70_roundtrip base P : 2 <= base <= 62 -> finite_valid live C P ->
    pt_str C (get_str base (fval (px P))) (get_str base (fval (py P))) (pcur P) base = P.
  Proof.
    intros B [I [[Mx Rx] [[My Ry] _]]]. destruct (get_str_numeral base (fval (px P)) B) as [NX ZX].
    destruct (get_str_numeral base (fval (py P)) B) as [NY ZY].
    rewrite (L_C70_valid C base _ _ _ _ _ B ZX ZY NX NY). destruct P as [[x mx] [y my] i c]. cbn in *. subst.
    unfold pt_z, fe_new. rewrite !Z.mod_small by assumption. reflexivity.
  Qed.
End Valid.

Lemma L_C69_literals : built_secp256r1 = Ok secp256r1 /\ built_bn254 = Ok bn254.
Proof. split; vm_compute; reflexivity. Qed.
