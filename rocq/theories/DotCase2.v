(** Two honest senders and one that is not. *)
From Coq Require Import ZArith Znumtheory Bool List Lia.
From Verif Require Import Outcome FieldModel ZpField SpecField FieldProofs ECGroup ECOrder CurveParams CurveFacts EccModel EccProofs SpecEcc EccThms Emb RF DmeModel SpecDme DmeProofs OtModel OtProofs SpecOt AesModel OpprfModel SpecOpprf OpprfProofs SpecCount CountMath SpecDdh SpecDdh2 SpecDdh3 SpecDdh4 DdhProofs DdhCases DdhMany DdhMany2 DdhHear5 SpecCheat CheatProofs CheatProofs2 CheatCase SpecIdeal IdealProofs IdealProofs2 ComposeProofs ComposeCase SpecDot DotProofs DotProofs2 DotCase SpecDot2 DotProofs3.
Import ListNotations.
Open Scope Z_scope.

Lemma total_two P Q a b : den CV P = pow a -> den CV Q = pow b -> total [P; Q] = pow (a + b).
Proof. intros A B. rewrite !total_more, total_none, A, B, !pow_add. apply (f_equal pow). ring. Qed.
Lemma total_single P a : den CV P = pow a -> total [P] = den CV P.
Proof. intros A. rewrite total_more, total_none, A, pow_add. apply (f_equal pow). ring. Qed.

Section Case.
  Variables (dbg : bool) (live : Z -> bool).
  Notation sndr c2 D := (otsndr_new (dme_new_crs c2 (dcrs D))).
  Lemma case127 c c2 : live c = true -> live c2 = true ->
    exists D P Q R, dme_new_random dbg live c 1 2 3 4 = Ok D /\
      getRandomPoint dbg live CV (Some c) 7 = Ok P /\ getRandomPoint dbg live CV (Some c) 14 = Ok Q /\ getRandomPoint dbg live CV (Some c2) 3 = Ok R /\
      let O := sndr c2 D in let G := gen CV c2 in let us := [[mkct G R; mkct R G]] in
      let xs := [speaks O G G; speaks O R G] in let xs' := [speaks O R R; speaks O G (pt_inf CV)] in
      let v0 := (fun l : list (elt * elt) => snd (nth 0 l (None, None))) in
      hidden dbg live O (mkpk P Q) 1 /\ weight 0 us = (den CV G, den CV R) /\ weight 1 us = (den CV R, den CV G) /\
      exists cs cs' N, gathered dbg live (mkpk P Q) xs [(5, 0, 0, 0); (6, 0, 0, 0)] = Ok cs /\
        gathered_among dbg live us [] (mkpk P Q) xs [(5, 0, 0, 0); (6, 0, 0, 0)] = Ok cs' /\ map view cs' = moved (den CV G, den CV R) (den CV R, den CV G) (map view cs) /\
        let A := fun v => if ept_dec (c_prime CV) (v0 v) (v0 (map view cs')) then true else false in
        0 < N /\ told_among dbg live us [] (mkpk P Q) xs A N /\ told_among dbg live us [] (mkpk P Q) xs' A N.
  Proof.
    intros LC LC2. destruct (case117 dbg live c c2 LC LC2) as [D [D' [P [Q [ED [_ [EP [EQ [SK [_ [R0 [H1 _]]]]]]]]]]]].
    destruct (randP_m dbg live c2 3 LC2) as [R [ER MR]]. pose proof (proj1 MR) as VR. pose proof (mult_pow live R 3 MR) as DR. destruct (gen_valid live c2 LC2) as [VG EG]. pose proof (inf_valid live) as VI.
    destruct (string_like dbg live c c2 LC LC2 1 2 3 4) as [D'' [ED' HD]]. rewrite ED in ED'. apply Ok_inj in ED'. subst D''.
    set (O := sndr c2 D) in *. set (G := gen CV c2) in *. set (xs := [speaks O G G; speaks O R G]). set (xs' := [speaks O R R; speaks O G (pt_inf CV)]). set (us := [[mkct G R; mkct R G]]).
    assert (OK : dme_ok live (sdme O)) by (apply (like_ok live _ _ _ _ _ _ HD); cbn [In]; intros z [<-|[<-|[<-|[<-|[]]]]]; lia).
    assert (SO : forall m0 m1, is_valid live m0 -> is_valid live m1 -> sender_ok live (sdme O) (speaks O m0 m1)).
    { intros m0 m1 V0 V1. split; [exact OK|]. split; [split; [reflexivity|split; [reflexivity|split; reflexivity]]|]. split; [exact V0|exact V1]. }
    assert (F : Forall (sender_ok live (sdme O)) xs) by (constructor; [exact (SO _ _ VG VG)|constructor; [exact (SO _ _ VR VG)|constructor]]).
    assert (F' : Forall (sender_ok live (sdme O)) xs') by (constructor; [exact (SO _ _ VR VR)|constructor; [exact (SO _ _ VG VI)|constructor]]).
    assert (T : total (map (snd_msg 0) xs) = total (map (snd_msg 0) xs')).
    { change (map (snd_msg 0) xs) with [G; R]. change (map (snd_msg 0) xs') with [R; G]. rewrite (total_two G R 1 3 EG DR), (total_two R G 3 1 DR EG). apply (f_equal pow). reflexivity. }
    assert (W0 : weight 0 us = (den CV G, den CV R)).
    { unfold weight, us. cbn [map nth cu cmv]. rewrite (total_single G 1 EG), (total_single R 3 DR). reflexivity. }
    assert (W1 : weight 1 us = (den CV R, den CV G)).
    { unfold weight, us. cbn [map nth cu cmv]. rewrite (total_single G 1 EG), (total_single R 3 DR). reflexivity. }
    assert (FU : Forall (well_formed live) us).
    { constructor; [|constructor]. exists (mkct G R), (mkct R G), []. split; [reflexivity|]. split; split; [exact VG|exact VR|exact VR|exact VG]. }
    exists D, P, Q, R. split; [exact ED|]. split; [exact EP|]. split; [exact EQ|]. split; [exact ER|]. cbv zeta. split; [exact H1|]. split; [exact W0|]. split; [exact W1|].
    destruct (L_C127_moved dbg live (sdme O) (mkpk P Q) us [] xs [(5, 0, 0, 0); (6, 0, 0, 0)] OK (proj1 SK) FU (Forall_nil _) ltac:(discriminate) eq_refl F) as [cs [cs' [E [E' V]]]].
    rewrite app_nil_r, W0, W1 in V.
    set (A := fun v : list (elt * elt) => if ept_dec (c_prime CV) (snd (nth 0 v (None, None))) (snd (nth 0 (map view cs') (None, None))) then true else false).
    destruct (L_C127_sums dbg live O (mkpk P Q) us [] xs xs' A OK (proj1 SK) FU (Forall_nil _) ltac:(discriminate) eq_refl F F') as [N [C1 C2]].
    { intros b [-> | ->]; [right; exact T|left; exact H1]. }
    exists cs, cs', N. split; [exact E|]. split; [exact E'|]. split; [exact V|]. split; [|split; [exact C1|exact C2]].
    destruct C1 as [l [_ [IN LN]]].
    assert (Z5 : forall z, 0 <= z < 10 -> four (z, 0, 0, 0)) by (intros z Z; split; [apply small_draw; lia|split; [apply small_draw; lia|split; apply small_draw; lia]]).
    assert (I : In [(5, 0, 0, 0); (6, 0, 0, 0)] l).
    { apply IN. split; [reflexivity|]. split; [constructor; [apply Z5; lia|constructor; [apply Z5; lia|constructor]]|]. exists cs'. split; [exact E'|]. unfold A.
      destruct (ept_dec (c_prime CV) (snd (nth 0 (map view cs') (None, None))) (snd (nth 0 (map view cs') (None, None)))) as [_|Y]; [reflexivity|destruct (Y eq_refl)]. }
    destruct l as [|q l]; [destruct I|]. cbn [length] in LN. lia.
  Qed.
End Case.
