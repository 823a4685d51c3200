(** Field objects of a class of prime modulus as embedded residues; used by all protocol proofs. *)
From Coq Require Import ZArith Znumtheory Bool List Lia Field.
From Verif Require Import Outcome FieldModel ZpField SpecField FieldProofs.
Import ListNotations.
Open Scope Z_scope.

Section Emb.
  Variables (dbg : bool) (q : Z).
  Hypothesis Hq : prime q.
  Let HF := field_Fp q Hq.
  Add Field EmbField : HF.

  Definition em (z : Fp q) : fe := mkfe (val q z) q.

  Lemma em_canon z : canon q (em z).
  Proof. split; cbn; [reflexivity|apply val_range; exact Hq]. Qed.
  Lemma em_new z : fe_new q z = em (mk q z).
  Proof. reflexivity. Qed.
  Lemma em_default : fe_default q = em (f0 q).
  Proof. unfold fe_default, em. f_equal. Qed.
  Lemma em_surj x : canon q x -> x = em (mk q (fval x)).
  Proof. intros Hx. rewrite <- em_new, canon_new_val; [reflexivity|exact Hx]. Qed.
  Lemma em_inj x y : em x = em y -> x = y.
  Proof. intros E. injection E as E. apply val_inj, E. Qed.
  Lemma em_val z : fval (em z) = val q z.
  Proof. reflexivity. Qed.
  Lemma em_add x y : fe_add dbg q (em x) (em y) = Ok (em (fadd q x y)).
  Proof. rewrite fe_add_ok by (apply (q_pos q Hq) || apply em_canon). reflexivity. Qed.
  Lemma em_add_eq x y : fe_add_eq dbg (em x) (em y) = Ok (em (fadd q x y)).
  Proof. rewrite (fe_add_eq_ok dbg q) by (apply (q_pos q Hq) || apply em_canon). reflexivity. Qed.
  Lemma em_sub x y : fe_sub dbg q (em x) (em y) = Ok (em (fsub q x y)).
  Proof. rewrite fe_sub_ok by (apply (q_pos q Hq) || apply em_canon). reflexivity. Qed.
  Lemma em_sub_eq x y : fe_sub_eq dbg (em x) (em y) = Ok (em (fsub q x y)).
  Proof. rewrite (fe_sub_eq_ok dbg q) by (apply (q_pos q Hq) || apply em_canon). reflexivity. Qed.
  Lemma em_mul x y : fe_mul dbg q (em x) (em y) = Ok (em (fmul q x y)).
  Proof. rewrite fe_mul_ok by (apply (q_pos q Hq) || apply em_canon). reflexivity. Qed.
  Lemma em_mul_eq x y : fe_mul_eq dbg (em x) (em y) = Ok (em (fmul q x y)).
  Proof. rewrite (fe_mul_eq_ok dbg q) by (apply (q_pos q Hq) || apply em_canon). reflexivity. Qed.
  Lemma em_mulz x a : fe_mulz q (em x) a = Ok (em (fmul q x (mk q a))).
  Proof.
    rewrite fe_mulz_ok by (apply (q_pos q Hq) || apply em_canon). rewrite em_new.
    rewrite <- (mk_val q x) at 2. rewrite mk_mul. reflexivity.
  Qed.
  Lemma em_neg x : fe_neg q (em x) = Ok (em (fopp q x)).
  Proof. rewrite fe_neg_ok by (apply (q_pos q Hq) || apply em_canon). reflexivity. Qed.
  Lemma em_invert x : x <> f0 q -> fe_invert q (em x) = Ok (em (finv q x)).
  Proof.
    intros N. destruct (fe_invert_rep q Hq (em x) (em_canon x)) as [i [E [Hi M]]].
    { cbn. intros Z0. apply N. rewrite <- (mk_val q x), Z0. reflexivity. }
    rewrite E. f_equal. rewrite (em_surj i Hi). f_equal. rewrite M. cbn. rewrite mk_val. reflexivity.
  Qed.
  Lemma em_invert0 : fe_invert q (em (f0 q)) = Err NoInverse.
  Proof.
    apply (fe_invert_zero q (q_pos q Hq) Hq); [apply em_canon|]. apply Z.mod_0_l. pose proof (q_pos q Hq); lia.
  Qed.
  Lemma em_div x y : y <> f0 q -> fe_div dbg q (em x) (em y) = Ok (em (fdiv q x y)).
  Proof.
    intros N. unfold fe_div. rewrite (assert_same dbg q) by apply em_canon. cbn [bind].
    rewrite (em_invert y N). cbn [bind]. apply em_mul.
  Qed.
  Lemma em_div0 x : fe_div dbg q (em x) (em (f0 q)) = Err NoInverse.
  Proof.
    unfold fe_div. rewrite (assert_same dbg q) by apply em_canon. cbn [bind]. rewrite em_invert0. reflexivity.
  Qed.
  Lemma em_eq x y : fe_eq (em x) (em y) = if eqFp q x y then true else false.
  Proof.
    destruct (eqFp q x y) as [->|N]; [apply fe_eq_refl|].
    destruct (fe_eq (em x) (em y)) eqn:E; [|reflexivity].
    apply (fe_eq_spec q) in E; try apply em_canon. apply em_inj in E. contradiction.
  Qed.
End Emb.

Ltac em_step dbg q Hq :=
  repeat (first [rewrite (em_add dbg q Hq) | rewrite (em_add_eq dbg q Hq) | rewrite (em_sub dbg q Hq)
    | rewrite (em_sub_eq dbg q Hq) | rewrite (em_mul dbg q Hq) | rewrite (em_mul_eq dbg q Hq)
    | rewrite (em_mulz q Hq) | rewrite (em_neg q Hq) | rewrite em_new | rewrite (em_default q)]; cbn [bind]).
