(** A concrete count for the example of Prop_Ddh3. *)
From Coq Require Import ZArith Znumtheory Bool List Lia.
From Verif Require Import Outcome FieldModel ZpField SpecField FieldProofs ECGroup ECOrder CurveParams CurveFacts EccModel EccProofs SpecEcc EccThms Emb RF DmeModel SpecDme DmeProofs OtModel OtProofs ElgamalModel SpecElgamal ElgamalProofs SpecCount CountMath SpecDdh SpecDdh2 SpecDdh3 DdhProofs DdhProofs2 DdhMany DdhServe DdhCases.
Import ListNotations.
Open Scope Z_scope.

(** the point at infinity first, then the generator if the first ciphertext was infinite; or the point at infinity twice *)
Definition second_gen (a : Z) (t : unit) (X : elt) (seen : list (elt * elt)) : point :=
  match seen with [(U, W)] => if is_inf U && is_inf W then gen CV a else pt_inf CV | _ => pt_inf CV end.
Definition all_inf (t : unit) (X : elt) (l : list (elt * elt)) : bool := forallb (fun c => is_inf (fst c) && is_inf (snd c)) l.

Lemma case_service dbg live a : live a = true ->
  service_guess dbg live (eg_new a) 2 no_coin (second_gen a) all_inf 0 /\ service_guess dbg live (eg_new a) 2 no_coin (fun _ _ _ => pt_inf CV) all_inf order.
Proof.
  intros La. pose proof (eg_new_ok live a La) as OK. pose proof (rf_inf live CV good_CV) as RI. pose proof (rf_gen live CV good_CV a La) as RG.
  pose proof (rf_val live _ _ RI) as VI. pose proof (rf_val live _ _ RG) as VG.
  change (f0 (fieldn CV)) with (mk (fieldn CV) 0) in RI. change (f1 (fieldn CV)) with (mk (fieldn CV) 1) in RG. apply (rf_pow live) in RI, RG.
  assert (Z0 : (order | 0)) by (exists 0; reflexivity). pose proof draw_0 as D0. split.
  - apply plain_game; [exact OK| |].
    + intros t X l. unfold second_gen. destruct l as [|[U W] [|? ?]]; [exact VI| |exact VI]. destruct (is_inf U && is_inf W); [exact VG|exact VI].
    + apply none. intros [[t k] rs] [[_ [_ [L F]]] EA]. destruct rs as [|r [|s [|? ?]]]; try discriminate L. apply Forall_cons_iff in F. destruct F as [R F]. apply Forall_cons_iff in F. destruct F as [S _].
      revert EA. cbn [conv app fst snd second_gen]. rewrite RI, pow_add, Z.add_0_r. unfold all_inf. cbn [forallb fst snd].
      destruct (is_inf (pow r) && is_inf (pow (k * r))); [|discriminate]. rewrite RG, pow_add, andb_true_r, andb_true_l, andb_true_iff, !is_inf_pow, (draw_order s S). intros [-> H]. rewrite Z.mul_0_r in H.
      pose proof prime_order as [P _]. apply Z.divide_pos_le in H; lia.
  - apply plain_game; [exact OK|intros; exact VI|].
    refine (how_many_bij (fun z : unit * Z => (fst z, snd z, [0; 0])) (fun z : unit * Z * list Z => fst z) _ _ _ (how_many_same _ _ _ (fun z => iff_refl _) (eq_ind _ (fun m => how_many (and_draw no_coin) m) (and_draws _ _ no_coins) _ (Z.mul_1_l order))) _ _).
    + intros [t k] [_ Dk]. cbn [fst snd]. split; [|reflexivity]. split; [split; [exact I|]; split; [exact Dk|]; split; [reflexivity|]; constructor; [exact D0|]; constructor; [exact D0|constructor]|].
      cbn [conv app fst snd]. rewrite RI, pow_add, Z.add_0_r, Z.mul_0_r. unfold all_inf. cbn [forallb fst snd]. rewrite (proj2 (is_inf_pow 0) Z0). reflexivity.
    + intros [[t k] rs] [[C [Dk [L F]]] EA]. cbn [fst snd]. split; [split; [exact C|exact Dk]|]. f_equal.
      destruct rs as [|r [|s [|? ?]]]; try discriminate L. apply Forall_cons_iff in F. destruct F as [R F]. apply Forall_cons_iff in F. destruct F as [S _].
      revert EA. cbn [conv app fst snd]. unfold all_inf. cbn [forallb fst snd]. rewrite !andb_true_iff, !is_inf_pow, (draw_order s S), (draw_order r R). intros [[-> _] [[-> _] _]]. reflexivity.
Qed.
