(** Oblivious transfers with a cheating receiver: the messages that are not asked for, the infinite key, and a concrete case. *)
From Coq Require Import ZArith Znumtheory Bool List Lia.
From Verif Require Import Outcome FieldModel ZpField SpecField FieldProofs ECGroup ECOrder CurveParams CurveFacts EccModel EccProofs SpecEcc EccThms Emb RF DmeModel SpecDme DmeProofs OtModel OtProofs SpecCount CountMath SpecDdh SpecDdh2 SpecDdh3 SpecDdh4 DdhProofs DdhProofs2 DdhCases DdhMany DdhMany2 DdhHear DdhHear5 SpecCheat CheatProofs CheatProofs2 SpecIdeal IdealProofs.
Import ListNotations.
Open Scope Z_scope.

Section Ideal.
  Variables (dbg : bool) (live : Z -> bool).
  Notation sender c2 D := (otsndr_new (dme_new_crs c2 (dcrs D))).

  Lemma L_C119_ideal c c2 r1 r2 r3 r4 D K M A n : live c = true -> live c2 = true -> dme_new dbg live c messy r1 r2 r3 r4 = Ok D -> ~ (order | r1 - r2) ->
    (forall h, some_key live (K h)) -> (forall h, is_valid live (message_of (M h) 0) /\ is_valid live (message_of (M h) 1)) ->
    exists N, counted (fun ds => transfers dbg live (sender c2 D) K M ds []) n A N /\ counted (fun ds => simulated dbg live D (sender c2 D) K M ds []) n A N.
  Proof. intros LC LC2 ED N12 HK HM. exact (both_worlds dbg live c c2 r1 r2 r3 r4 D K M LC LC2 ED N12 HK HM A n (sender c2 D) (sender c2 D) [] eq_refl eq_refl). Qed.

  Lemma unasked D K M M' : (forall h b, FindMessy dbg live D (K h) = Ok b -> message_of (M h) (1 - b) = message_of (M' h) (1 - b)) ->
    forall ds S h, simulated dbg live D S K M ds h = simulated dbg live D S K M' ds h.
  Proof.
    intros H. induction ds as [|[[[s0 t0] s1] t1] l IH]; intros S h; [reflexivity|]. cbn [simulated]. destruct (FindMessy dbg live D (K h)) as [b|f] eqn:E; [|reflexivity]. cbn [bind].
    rewrite (H h b E). destruct (encMsgs dbg live S (K h) _ _ s0 t0 s1 t1) as [x|f]; [|reflexivity]. cbn [bind]. apply IH.
  Qed.
  Lemma L_C119_messages c c2 r1 r2 r3 r4 D K M M' A n : live c = true -> live c2 = true -> dme_new dbg live c messy r1 r2 r3 r4 = Ok D -> ~ (order | r1 - r2) ->
    (forall h, some_key live (K h)) -> (forall h, is_valid live (message_of (M h) 0) /\ is_valid live (message_of (M h) 1)) -> (forall h, is_valid live (message_of (M' h) 0) /\ is_valid live (message_of (M' h) 1)) ->
    (forall h b, FindMessy dbg live D (K h) = Ok b -> message_of (M h) (1 - b) = message_of (M' h) (1 - b)) ->
    exists N, counted (fun ds => transfers dbg live (sender c2 D) K M ds []) n A N /\ counted (fun ds => transfers dbg live (sender c2 D) K M' ds []) n A N.
  Proof.
    intros LC LC2 ED N12 HK HM HM' H. destruct (L_C119_ideal c c2 r1 r2 r3 r4 D K M A n LC LC2 ED N12 HK HM) as [N [C1 C2]].
    destruct (L_C119_ideal c c2 r1 r2 r3 r4 D K M' A n LC LC2 ED N12 HK HM') as [N' [C1' C2']]. exists N. split; [exact C1|].
    assert (X : counted (fun ds => simulated dbg live D (sender c2 D) K M' ds []) n A N).
    { unfold counted in C2 |- *. refine (how_many_same _ _ _ _ C2). intros ds. rewrite (unasked D K M M' H). reflexivity. }
    rewrite (how_many_unique _ _ _ X C2'). exact C1'.
  Qed.

  (** ** The key of two infinities *)
  Definition second_is (g : elt) (h : seen) : bool := match h with [[_; (_, v)]] => if ept_dec (c_prime CV) v g then true else false | _ => false end.
  Lemma singles (P : Z * Z * Z * Z -> Prop) N : how_many (fun q => four q /\ P q) N -> how_many (fun ds => length ds = 1%nat /\ Forall four ds /\ match ds with [q] => P q | _ => False end) N.
  Proof.
    intros H. refine (how_many_map (fun q => [q]) _ _ _ H _ _); [intros x y _ _ E; congruence|]. intros ds. split.
    - intros [L [F X]]. destruct ds as [|q [|q' l]]; try destruct X. exists q. split; [|reflexivity]. split; [exact (Forall_inv F)|exact X].
    - intros [q [[Q X] <-]]. split; [reflexivity|]. split; [constructor; [exact Q|constructor]|exact X].
  Qed.
  Lemma inf_step S d a0 a1 b0 b1 m0 m1 s0 t0 s1 t1 : dlike live (sdme S) d a0 a1 b0 b1 -> is_valid live m0 -> is_valid live m1 ->
    exists S' u0 u1, encMsgs dbg live S pkey_default m0 m1 s0 t0 s1 t1 = Ok (S', [u0; u1]) /\ map view [u0; u1] = [(pow (s0 * a0 + t0 * b0), den CV m0); (pow (s1 * a1 + t1 * b1), den CV m1)].
  Proof.
    intros HD V0 V1. assert (HX : DdhMany2.like live (pt_inf CV) 0) by (right; split; [reflexivity|apply Z.divide_0_r]).
    unfold encMsgs. destruct (enc_like dbg live _ d _ _ _ _ pkey_default 0 0 0 m0 s0 t0 HD HX HX V0 (or_introl eq_refl)) as [u0 [-> E0]].
    destruct (enc_like dbg live _ d _ _ _ _ pkey_default 0 0 1 m1 s1 t1 HD HX HX V1 (or_intror eq_refl)) as [u1 [-> E1]]. cbn [bind app]. do 3 eexists. split; [reflexivity|].
    cbn [map]. rewrite E0, E1, !Z.mul_0_r. reflexivity.
  Qed.
  Lemma inf_not_gen : den CV (pt_inf CV) <> pow 1.
  Proof. intros X. assert (X' : pow 0 = pow 1) by (rewrite <- X; reflexivity). apply pow_eq in X'. apply order_one. apply Z.divide_opp_r. exact X'. Qed.
  Lemma L_C119_infinite c c2 r1 r2 r3 r4 D : live c = true -> live c2 = true -> dme_new dbg live c messy r1 r2 r3 r4 = Ok D ->
    exists M A, (forall h, is_valid live (message_of (M h) 0) /\ is_valid live (message_of (M h) 1)) /\
      counted (fun ds => transfers dbg live (sender c2 D) (fun _ => pkey_default) M ds []) 1 A (order ^ 4) /\
      counted (fun ds => simulated dbg live D (sender c2 D) (fun _ => pkey_default) M ds []) 1 A 0.
  Proof.
    intros LC LC2 ED. destruct (gen_valid live c LC) as [VG EG].
    destruct (new_messy_rf dbg live c r1 r2 r3 r4 LC) as [D' [E [T0 [T1 K]]]]. rewrite ED in E. apply Ok_inj in E. subst D'.
    assert (K' : drf live D c (ZpField.mk (fieldn CV) r3) (ZpField.mk (fieldn CV) r4) (ZpField.mk (fieldn CV) (r1 * r3)) (ZpField.mk (fieldn CV) (r2 * r4))) by (rewrite <- !mk_mul; exact K).
    pose proof (moved_like live D c c2 _ _ _ _ LC2 K') as HD.
    assert (EF : FindMessy dbg live D pkey_default = Ok 1).
    { destruct (L_C29_infinity dbg live c r1 r2 r3 r4 (gen CV c) 0 0 LC VG) as [D' [ct [E [_ [EF _]]]]]. rewrite ED in E. apply Ok_inj in E. subst D'. exact EF. }
    exists (fun _ => (gen CV c, gen CV c)), (second_is (pow 1)). split; [intros h; split; exact VG|]. unfold counted. split.
    - replace (order ^ 4) with (order * order * order * order) by ring.
      refine (how_many_same _ _ _ _ (singles (fun _ => True) _ (how_many_same _ _ _ _ (four_count live)))); [|intros q; tauto].
      intros ds. split; intros [L [F X]]; (split; [exact L|]; split; [exact F|]).
      + destruct ds as [|[[[s0 t0] s1] t1] [|q' l]]; try destruct X. cbn [transfers message_of Z.eqb fst snd].
        destruct (inf_step (sender c2 D) c2 _ _ _ _ (gen CV c) (gen CV c) s0 t0 s1 t1 HD VG VG) as [S' [u0 [u1 [-> EV]]]].
        cbn [bind fst snd]. eexists. split; [reflexivity|]. rewrite EV. cbn [app second_is]. rewrite EG. destruct (ept_dec (c_prime CV) (pow 1) (pow 1)) as [_|Y]; [reflexivity|destruct (Y eq_refl)].
      + destruct ds as [|q [|q' l]]; [discriminate L|exact I|discriminate L].
    - apply how_many_none. intros ds [L [F [h [E EA]]]]. destruct ds as [|[[[s0 t0] s1] t1] [|q' l]]; [discriminate L| |discriminate L].
      cbn [simulated] in E. rewrite EF in E. cbn [bind Z.eqb Z.sub Z.add Z.opp Z.pos_sub message_of fst snd] in E.
      destruct (inf_step (sender c2 D) c2 _ _ _ _ (gen CV c) (pt_inf CV) s0 t0 s1 t1 HD VG (inf_valid live)) as [S' [u0 [u1 [Q EV]]]]. change (1 =? 0) with false in E. cbv iota in E.
      change (message_of (gen CV c, gen CV c) (1 - 1)) with (gen CV c) in E. rewrite Q in E. cbn [bind fst snd] in E. apply Ok_inj in E. subst h. rewrite EV in EA. cbn [app second_is] in EA.
      destruct (ept_dec (c_prime CV) (den CV (pt_inf CV)) (pow 1)) as [X|_]; [exact (inf_not_gen X)|discriminate EA].
  Qed.
End Ideal.
