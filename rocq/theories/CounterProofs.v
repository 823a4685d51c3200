(** Proofs about correctDecryption. *)
From Coq Require Import ZArith Bool List Lia.
From Verif Require Import Outcome FieldModel EccModel OpprfModel CounterModel.
Import ListNotations.
Open Scope Z_scope.

Lemma checks_from l : forall a, 0 <= a < 2 ^ 31 ->
  decryption_checks a l = if a + Z.of_nat (length l) <? 2 ^ 31 then
      Ok (map (fun k => ((a + Z.of_nat k) mod 4 =? 0)) (seq 0 (length l)), a + Z.of_nat (length l))
    else Err SignedOverflow.
Proof.
  induction l as [|[C P] l IH]; intros a A; cbn [decryption_checks length].
  - cbn [seq map]. change (Z.of_nat 0) with 0. rewrite Z.add_0_r. destruct (Z.ltb_spec a (2 ^ 31)); [reflexivity|lia].
  - unfold correctDecryption. destruct (Z.eqb_spec a (2 ^ 31 - 1)) as [->|N].
    + cbn [bind]. destruct (Z.ltb_spec (2 ^ 31 - 1 + Z.of_nat (S (length l))) (2 ^ 31)); [lia|reflexivity].
    + cbn [bind fst snd]. rewrite IH by lia. rewrite Nat2Z.inj_succ.
      replace (a + 1 + Z.of_nat (length l)) with (a + Z.succ (Z.of_nat (length l))) by lia.
      destruct (a + Z.succ (Z.of_nat (length l)) <? 2 ^ 31); [|reflexivity]. cbn [bind fst snd seq map].
      rewrite negb_involutive, Z.rem_mod_nonneg by lia. change (Z.of_nat 0) with 0. rewrite Z.add_0_r.
      rewrite <- seq_shift, map_map. do 3 f_equal. apply map_ext. intros k. do 2 f_equal. lia.
Qed.

Lemma L_C98_calls l : Z.of_nat (length l) < 2 ^ 31 ->
  exists a, decryption_checks 0 l = Ok (map (fun k => (Z.of_nat k mod 4 =? 0)) (seq 0 (length l)), a).
Proof.
  intros L. rewrite checks_from by lia. rewrite Z.add_0_l. destruct (Z.ltb_spec (Z.of_nat (length l)) (2 ^ 31)); [|lia]. eexists. reflexivity.
Qed.
Lemma L_C98_overflow l : 2 ^ 31 <= Z.of_nat (length l) -> decryption_checks 0 l = Err SignedOverflow.
Proof. intros L. rewrite checks_from by lia. rewrite Z.add_0_l. destruct (Z.ltb_spec (Z.of_nat (length l)) (2 ^ 31)); [lia|reflexivity]. Qed.
Lemma L_C98_blind l l' : length l = length l' -> decryption_checks 0 l = decryption_checks 0 l'.
Proof. intros L. rewrite !checks_from by lia. rewrite L. reflexivity. Qed.
Lemma L_C98_refuted (C : client) (P : point) : ~ exists f : client * point -> bool, forall l rs a, decryption_checks 0 l = Ok (rs, a) -> rs = map f l.
Proof.
  intros [f H]. specialize (H [(C, P); (C, P)] [true; false] 2 eq_refl). cbn [map] in H. congruence.
Qed.
