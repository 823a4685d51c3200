(** What the proofs need to know about a curve instantiation, established for both curves. *)
From Coq Require Import ZArith Znumtheory List Lia Bool.
From Verif Require Import Primes FastMod ZpField ECGroup ECOrder NoRoot ECCert CurveParams Cert_secp256r1 Cert_bn254.
Open Scope Z_scope.

Definition gen_pt (C : cparams) : ept (c_prime C) := Some (mk (c_prime C) (c_gx C), mk (c_prime C) (c_gy C)).

Record good (C : cparams) : Prop := {
  g_fieldp : fieldp C = c_prime C;
  g_fieldn : fieldn C = c_order C;
  g_prime : prime (c_prime C);
  g_p34 : c_prime C mod 4 = 3;
  g_order : prime (c_order C);
  g_arange : 0 <= c_a C < c_prime C;
  g_brange : 0 < c_b C < c_prime C;
  g_gxrange : 0 <= c_gx C < c_prime C;
  g_gyrange : 0 <= c_gy C < c_prime C;
  g_noroot : forall x, (x * x * x + c_a C * x + c_b C) mod c_prime C <> 0;
  g_on : eon (c_prime C) (c_a C) (c_b C) (gen_pt C);
  g_ord : ezmul (c_prime C) (c_a C) (c_order C) (gen_pt C) = None;
  g_big : 2 * c_prime C + 1 < 3 * c_order C;
  g_small : c_order C < c_prime C }.

Section Build.
  Variable C : cparams.
  Variables (d t : Z) (chain : list step).
  Let p := c_prime C.

  Definition residue_ok : bool :=
    (p mod 3 =? 1) && Z.odd p && ((27 * (d * d) - (27 * (c_b C * c_b C) + 4 * (c_a C * c_a C * c_a C))) mod p =? 0) &&
    ((2 * t + c_b C - d) mod p =? 0) && negb (d mod p =? 0) && (0 <? t) && (t <? p) && (0 <? (p - 1) / 3) &&
    negb (zpowm t ((p - 1) / 3) p =? 1).

  Definition param_ok : bool :=
    (fieldp C =? p) && (fieldn C =? c_order C) && (p mod 4 =? 3) &&
    (0 <=? c_a C) && (c_a C <? p) && (0 <? c_b C) && (c_b C <? p) &&
    (0 <=? c_gx C) && (c_gx C <? p) && (0 <? c_gy C) && (c_gy C <? p) &&
    ((c_gy C * c_gy C - (c_gx C * c_gx C * c_gx C + c_a C * c_gx C + c_b C)) mod p =? 0) &&
    (2 * p + 1 <? 3 * c_order C) && (c_order C <? p).

  Definition chain_ok : bool :=
    match run p (c_a C) (c_gx C) (c_gy C) 270 (16 * (p * p)) chain 1 (c_gx C) (c_gy C) with
    | Some (k, x, y) => (k =? c_order C - 1) && (x =? c_gx C) && (y =? p - c_gy C)
    | None => false
    end.

  Lemma build : prime p -> prime (c_order C) -> param_ok = true -> residue_ok = true -> chain_ok = true -> good C.
  Proof.
    intros Hp Hn. unfold param_ok, residue_ok.
    rewrite !andb_true_iff, !negb_true_iff, !Z.eqb_eq, !Z.ltb_lt, !Z.leb_le, !Z.eqb_neq.
    intros [[[[[[[[[[[[[P1 P2] P3] P4] P5] P6] P7] P8] P9] P10] P11] P12] P13] P14].
    intros [[[[[[[[R1 R2] R3] R4] R5] R6] R7] R8] R9] CH.
    rewrite zpowm_spec in R9 by (assumption || lia).
    assert (NR : forall x, (x * x * x + c_a C * x + c_b C) mod p <> 0).
    { apply (no_root_crit p Hp _ _ d t); try assumption.
      rewrite Z.mod_small by lia. lia. }
    assert (N : nice p (c_a C) (c_b C)) by (split; assumption).
    assert (On : eon p (c_a C) (c_b C) (gen_pt C)).
    { unfold eon, gen_pt, on. fold p. rewrite !mk_mul, !mk_add. apply mk_sub_0.
      apply mk_0_iff; [assumption|]. apply Z.mod_divide; [lia|assumption]. }
    assert (O1 : ezmul p (c_a C) (c_order C) (gen_pt C) = None).
    { unfold chain_ok in CH.
      destruct (run p (c_a C) (c_gx C) (c_gy C) 270 (16 * (p * p)) chain 1 (c_gx C) (c_gy C)) as [[[k x] y]|] eqn:ER; [|discriminate].
      rewrite !andb_true_iff, !Z.eqb_eq in CH. destruct CH as [[-> ->] ->].
      assert (E1 : ezmul p (c_a C) (c_order C - 1) (gen_pt C) = Some (mk p (c_gx C), mk p (p - c_gy C))).
      { eapply (run_spec p (c_a C) (c_b C) (c_gx C) (c_gy C) 270 N (16 * (p * p))); [| |exact On| | |exact ER].
        - exists (16 * p). ring.
        - split; assumption.
        - split; assumption.
        - rewrite ezmul_1. reflexivity. }
      replace (c_order C) with ((c_order C - 1) + 1) by ring.
      rewrite (ezmul_add p (c_a C) (c_b C) N), E1, ezmul_1 by assumption.
      replace (Some (mk p (c_gx C), mk p (p - c_gy C))) with (eneg p (gen_pt C)).
      - apply (eadd_neg_l p (c_a C) (c_b C) N). assumption.
      - unfold eneg, gen_pt, neg. fold p. rewrite mk_opp. do 2 f_equal. apply mk_eq.
        rewrite <- (Z_mod_plus_full (- c_gy C) 1 p). f_equal. ring. }
    split; try assumption; try (split; assumption); split; lia.
  Qed.
End Build.

Theorem good_secp256r1 : good secp256r1.
Proof.
  apply (build secp256r1 secp256r1_d secp256r1_t secp256r1_chain).
  - exact prime_secp256r1_p.
  - exact prime_secp256r1_n.
  - vm_compute; reflexivity.
  - vm_compute; reflexivity.
  - vm_compute; reflexivity.
Qed.

Theorem good_bn254 : good bn254.
Proof.
  apply (build bn254 bn254_d bn254_t bn254_chain).
  - exact prime_bn254_p.
  - exact prime_bn254_n.
  - vm_compute; reflexivity.
  - vm_compute; reflexivity.
  - vm_compute; reflexivity.
Qed.
