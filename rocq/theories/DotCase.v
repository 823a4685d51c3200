(** Three senders with the same sums but other messages. *)
From Coq Require Import ZArith Znumtheory Bool List Lia.
From Verif Require Import Outcome FieldModel ZpField SpecField FieldProofs ECGroup ECOrder CurveParams CurveFacts EccModel EccProofs SpecEcc EccThms Emb RF DmeModel SpecDme DmeProofs OtModel OtProofs SpecOt AesModel OpprfModel SpecOpprf OpprfProofs SpecCount CountMath SpecDdh SpecDdh2 SpecDdh3 SpecDdh4 DdhProofs DdhCases DdhMany DdhMany2 DdhHear5 SpecCheat CheatProofs CheatProofs2 CheatCase SpecIdeal IdealProofs IdealProofs2 ComposeProofs ComposeCase SpecDot DotProofs DotProofs2.
Import ListNotations.
Open Scope Z_scope.

(** a sender with these messages *)
Definition speaks (O : otsndr) (m0 m1 : point) : sender := mksender O m0 m1 0 0 0 0.

Lemma total_more P l : total (P :: l) = gadd CV (den CV P) (total l).
Proof. reflexivity. Qed.
Lemma total_none : total [] = pow 0.
Proof. reflexivity. Qed.
Lemma none_is : den CV (pt_inf CV) = pow 0.
Proof. reflexivity. Qed.

Section Case.
  Variables (dbg : bool) (live : Z -> bool).
  Lemma mult_pow P z : multiple live P z -> den CV P = pow z.
  Proof. intros [_ E]. exact E. Qed.
  Notation sndr c2 D := (otsndr_new (dme_new_crs c2 (dcrs D))).
  Lemma case125 c c2 : live c = true -> live c2 = true ->
    exists D P Q R f N, dme_new_random dbg live c 1 2 3 4 = Ok D /\
      getRandomPoint dbg live CV (Some c) 7 = Ok P /\ getRandomPoint dbg live CV (Some c) 14 = Ok Q /\ getRandomPoint dbg live CV (Some c2) 3 = Ok R /\
      let O := sndr c2 D in let G := gen CV c2 in
      let xs := [speaks O G G; speaks O G R; speaks O G (pt_inf CV)] in let xs' := [speaks O R R; speaks O (pt_inf CV) R; speaks O (pt_inf CV) R] in
      hidden dbg live O (mkpk P Q) 1 /\
      (forall ds, length ds = 3%nat -> exists cs, gathered dbg live (mkpk P Q) xs ds = Ok cs /\ f (map view cs) = den CV R) /\
      let A := fun v => if ept_dec (c_prime CV) (f v) (den CV R) then true else false in
      0 < N /\ told dbg live (mkpk P Q) xs A N /\ told dbg live (mkpk P Q) xs' A N.
  Proof.
    intros LC LC2. destruct (case117 dbg live c c2 LC LC2) as [D [D' [P [Q [ED [_ [EP [EQ [SK [_ [R0 [H1 _]]]]]]]]]]]].
    destruct (randP_m dbg live c2 3 LC2) as [R [ER MR]]. pose proof (proj1 MR) as VR. pose proof (mult_pow R 3 MR) as DR. destruct (gen_valid live c2 LC2) as [VG EG]. pose proof (inf_valid live) as VI.
    destruct (string_like dbg live c c2 LC LC2 1 2 3 4) as [D'' [ED' HD]]. rewrite ED in ED'. apply Ok_inj in ED'. subst D''.
    set (O := sndr c2 D) in *. set (G := gen CV c2) in *. set (xs := [speaks O G G; speaks O G R; speaks O G (pt_inf CV)]). set (xs' := [speaks O R R; speaks O (pt_inf CV) R; speaks O (pt_inf CV) R]).
    assert (OK : dme_ok live (sdme O)) by (apply (like_ok live _ _ _ _ _ _ HD); cbn [In]; intros z [<-|[<-|[<-|[<-|[]]]]]; lia).
    assert (SO : forall m0 m1, is_valid live m0 -> is_valid live m1 -> sender_ok live (sdme O) (speaks O m0 m1)).
    { intros m0 m1 V0 V1. split; [exact OK|]. split; [split; [reflexivity|split; [reflexivity|split; reflexivity]]|]. split; [exact V0|exact V1]. }
    assert (F : Forall (sender_ok live (sdme O)) xs) by (constructor; [exact (SO _ _ VG VG)|constructor; [exact (SO _ _ VG VR)|constructor; [exact (SO _ _ VG VI)|constructor]]]).
    assert (F' : Forall (sender_ok live (sdme O)) xs') by (constructor; [exact (SO _ _ VR VR)|constructor; [exact (SO _ _ VI VR)|constructor; [exact (SO _ _ VI VR)|constructor]]]).
    assert (T : total (map (snd_msg 0) xs) = den CV R).
    { change (map (snd_msg 0) xs) with [G; G; G]. rewrite !total_more, total_none, EG, DR, !pow_add. apply (f_equal pow). reflexivity. }
    assert (T' : total (map (snd_msg 0) xs') = den CV R).
    { change (map (snd_msg 0) xs') with [R; pt_inf CV; pt_inf CV]. rewrite !total_more, total_none, DR, none_is, !pow_add. apply (f_equal pow). reflexivity. }
    destruct (L_C125_revealed dbg live O (mkpk P Q) 0 OK (proj1 SK) (or_introl eq_refl) R0) as [f HF].
    assert (RUN : forall ds, length ds = 3%nat -> exists cs, gathered dbg live (mkpk P Q) xs ds = Ok cs /\ f (map view cs) = den CV R).
    { intros ds L. destruct (HF xs ds ltac:(discriminate) L F) as [cs [E X]]. exists cs. split; [exact E|]. rewrite X. exact T. }
    set (A := fun v => if ept_dec (c_prime CV) (f v) (den CV R) then true else false).
    destruct (L_C125_sums dbg live O (mkpk P Q) xs xs' A OK (proj1 SK) ltac:(discriminate) eq_refl F F') as [N [C1 C2]].
    { intros b [-> | ->]; [right; rewrite T, T'; reflexivity|left; exact H1]. }
    exists D, P, Q, R, f, N. split; [exact ED|]. split; [exact EP|]. split; [exact EQ|]. split; [exact ER|]. cbv zeta. split; [exact H1|]. split; [exact RUN|]. split; [|split; [exact C1|exact C2]].
    destruct C1 as [l [_ [IN LN]]]. destruct (RUN [(0, 0, 0, 0); (0, 0, 0, 0); (0, 0, 0, 0)] eq_refl) as [cs [E X]].
    assert (Z0 : four (0, 0, 0, 0)) by (split; [apply small_draw; lia|split; [apply small_draw; lia|split; apply small_draw; lia]]).
    assert (I : In [(0, 0, 0, 0); (0, 0, 0, 0); (0, 0, 0, 0)] l).
    { apply IN. split; [reflexivity|]. split; [constructor; [exact Z0|constructor; [exact Z0|constructor; [exact Z0|constructor]]]|]. exists cs. split; [exact E|]. unfold A. rewrite X. destruct (ept_dec (c_prime CV) (den CV R) (den CV R)) as [_|Y]; [reflexivity|destruct (Y eq_refl)]. }
    destruct l as [|q l]; [destruct I|]. cbn [length] in LN. lia.
  Qed.
End Case.
