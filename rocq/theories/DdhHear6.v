(** Someone who listens to oblivious transfers: the messages matter only for coins that can occur. *)
From Coq Require Import ZArith Znumtheory Bool List Lia.
From Verif Require Import Outcome FieldModel ZpField SpecField FieldProofs ECGroup ECOrder CurveParams CurveFacts EccModel EccProofs SpecEcc EccThms Emb RF DmeModel SpecDme DmeProofs OtModel OtProofs SpecCount CountMath SpecDdh SpecDdh2 SpecDdh3 SpecDdh4 DdhProofs DdhProofs2 DdhHear5 DdhCases.
Import ListNotations.
Open Scope Z_scope.

(** coins by number *)
Section Numbered.
  Context {T : Type} (coin : T -> Prop) (xs : list T) (t0 : T).
  Hypothesis ND : NoDup xs.
  Hypothesis IN : forall t, In t xs <-> coin t.
  Definition nthc (i : nat) : T := nth i xs t0.
  Definition ncoin (i : nat) : Prop := (i < length xs)%nat.
  Lemma ncoins : how_many ncoin (Z.of_nat (length xs)).
  Proof. exists (seq 0 (length xs)). split; [apply seq_NoDup|]. split; [|rewrite seq_length; reflexivity]. intros i. rewrite in_seq. unfold ncoin. lia. Qed.
  Lemma nthc_coin i : ncoin i -> coin (nthc i).
  Proof. intros H. apply IN, nth_In, H. Qed.
  Lemma nthc_inj i j : ncoin i -> ncoin j -> nthc i = nthc j -> i = j.
  Proof. intros H H'. apply (proj1 (NoDup_nth xs t0) ND i j H H'). Qed.
  Lemma nthc_all t : coin t -> exists i, ncoin i /\ nthc i = t.
  Proof. intros H. apply IN in H. destruct (In_nth _ _ t0 H) as [i [L E]]. exists i. split; assumption. Qed.

  Lemma number_6 (Q : T -> Z -> Z -> Z -> Z -> list (list Z) -> Prop) (Q' : nat -> Z -> Z -> Z -> Z -> list (list Z) -> Prop) N :
    (forall t a b c d s, Q t a b c d s -> coin t) -> (forall i a b c d s, Q' i a b c d s -> ncoin i) -> (forall i a b c d s, ncoin i -> Q' i a b c d s <-> Q (nthc i) a b c d s) ->
    how_many (fun '(i, a, b, c, d, s) => Q' i a b c d s) N -> how_many (fun '(t, a, b, c, d, s) => Q t a b c d s) N.
  Proof.
    intros C C' S H. refine (how_many_map (fun z : nat * Z * Z * Z * Z * list (list Z) => let '(i, a, b, c, d, s) := z in (nthc i, a, b, c, d, s)) _ _ N H _ _).
    - intros [[[[[i a] b] c] d] s] [[[[[i' a'] b'] c'] d'] s'] HX HY E. injection E as E <- <- <- <- <-. rewrite (nthc_inj i i' (C' _ _ _ _ _ _ HX) (C' _ _ _ _ _ _ HY) E). reflexivity.
    - intros [[[[[t a] b] c] d] s]. split.
      + intros HZ. destruct (nthc_all t (C _ _ _ _ _ _ HZ)) as [i [NI <-]]. exists (i, a, b, c, d, s). split; [apply S; [exact NI|exact HZ]|reflexivity].
      + intros [[[[[[i a'] b'] c'] d'] s'] [HX E]]. injection E as <- <- <- <- <- <-. apply S; [exact (C' _ _ _ _ _ _ HX)|exact HX].
  Qed.
  Notation tup X := (X * Z * Z * Z * Z * list (list Z))%type.
  Definition renum (z : tup nat) : tup T := let '(i, a, b, c, d, s) := z in (nthc i, a, b, c, d, s).
  Definition first6 {X} (z : tup X) : X := let '(t, _, _, _, _, _) := z in t.
  Lemma renum_inj z z' : ncoin (first6 z) -> ncoin (first6 z') -> renum z = renum z' -> z = z'.
  Proof. destruct z as [[[[[i a] b] c] d] s], z' as [[[[[i' a'] b'] c'] d'] s']. cbn [first6 renum]. intros H H' E. injection E as E <- <- <- <- <-. rewrite (nthc_inj i i' H H' E). reflexivity. Qed.
  Lemma renum_all (z : tup T) : coin (first6 z) -> exists z', ncoin (first6 z') /\ renum z' = z.
  Proof. destruct z as [[[[[t a] b] c] d] s]. cbn [first6]. intros H. destruct (nthc_all t H) as [i [NI <-]]. exists (i, a, b, c, d, s). split; [exact NI|reflexivity]. Qed.
  Lemma number_gap (P : tup T -> Prop) (P' : tup nat -> Prop) D D' g : (forall z, P z -> coin (first6 z)) -> (forall z, P' z -> ncoin (first6 z)) -> (forall z, ncoin (first6 z) -> P' z <-> P (renum z)) ->
    (forall z X Y W, ncoin (first6 z) -> D' z X Y W = D (renum z) X Y W) -> ddh_gap P' D' g -> ddh_gap P D g.
  Proof.
    intros C C' S ED [R [S' [HR [HS ->]]]]. exists R, S'. split; [|split; [|reflexivity]].
    - refine (how_many_map (fun z : tup nat * Z * Z => let '(t, a, b) := z in (renum t, a, b)) _ _ R HR _ _).
      + intros [[z a] b] [[z' a'] b'] [HX _] [HY _] E. injection E as E <- <-. rewrite (renum_inj z z' (C' _ HX) (C' _ HY) E). reflexivity.
      + intros [[z a] b]. split.
        * intros [HP [Da [Db E]]]. destruct (renum_all z (C _ HP)) as [z' [NI <-]]. exists (z', a, b). split; [|reflexivity]. split; [apply S; [exact NI|exact HP]|]. rewrite (ED _ _ _ _ NI). tauto.
        * intros [[[z' a'] b'] [[HP [Da [Db E]]] EZ]]. injection EZ as <- <- <-. pose proof (C' _ HP) as NI. split; [apply S; [exact NI|exact HP]|]. rewrite (ED _ _ _ _ NI) in E. tauto.
    - refine (how_many_map (fun z : tup nat * Z * Z * Z => let '(t, a, b, c) := z in (renum t, a, b, c)) _ _ S' HS _ _).
      + intros [[[z a] b] c] [[[z' a'] b'] c'] [HX _] [HY _] E. injection E as E <- <- <-. rewrite (renum_inj z z' (C' _ HX) (C' _ HY) E). reflexivity.
      + intros [[[z a] b] c]. split.
        * intros [HP [Da [Db [Dc E]]]]. destruct (renum_all z (C _ HP)) as [z' [NI <-]]. exists (z', a, b, c). split; [|reflexivity]. split; [apply S; [exact NI|exact HP]|]. rewrite (ED _ _ _ _ NI). tauto.
        * intros [[[[z' a'] b'] c'] [[HP [Da [Db [Dc E]]]] EZ]]. injection EZ as <- <- <- <-. pose proof (C' _ HP) as NI. split; [apply S; [exact NI|exact HP]|]. rewrite (ED _ _ _ _ NI) in E. tauto.
  Qed.
End Numbered.

Lemma L_C114_silent dbg live c c1 c2 : live c = true -> live c1 = true -> live c2 = true ->
  forall (T : Type) (coin : T -> Prop) K, how_many coin K -> forall l M A, key_first l -> good_steps l -> (forall t k h, coin t -> is_valid live (fst (M t k h)) /\ is_valid live (snd (M t k h))) ->
  exists N W g, overheard_guess dbg live c c1 c2 l coin M A N /\ silent_guess dbg live c c1 l coin A W /\
    ddh_gap (and_steps l (and_draw (and_draw (and_draw (and_draw coin))))) (with_string l M A) g /\
    Z.abs (order ^ 3 * (N - W) - g) <= (4 + Z.of_nat (keys_in l)) * K * order ^ (Z.of_nat (needs l) + 6).
Proof.
  intros L L1 L2 T coin K H l M A F G V. destruct H as [xs [ND [IN EK]]]. destruct xs as [|t0 xs'].
  - assert (NC : forall t, ~ coin t) by (intros t C; apply IN in C; exact C). exists 0, 0, 0.
    split; [apply none; intros [[[[[t r1] r2] r3] r4] ds] [C _]; exact (NC t C)|]. split; [apply none; intros [[[[[t r1] r2] r3] r4] ds] [C _]; exact (NC t C)|].
    split; [|cbn in EK; rewrite <- EK, Z.mul_0_r; cbn; lia].
    exists 0, 0. split; [|split; [|ring]].
    + apply none. intros [[[[[[[t w0] y0] w1] y1] ds] a] b] [[[[[[C _] _] _] _] _] _]. exact (NC t C).
    + apply none. intros [[[[[[[[t w0] y0] w1] y1] ds] a] b] x] [[[[[[C _] _] _] _] _] _]. exact (NC t C).
  - set (xs := t0 :: xs') in *. set (f := nthc xs t0). set (nc := ncoin xs). pose proof (ncoins xs) as HC.
    set (M' := fun i k h => if (i <? length xs)%nat then M (f i) k h else (pt_inf CV, pt_inf CV)).
    assert (EM : forall i k h, nc i -> M' i k h = M (f i) k h) by (intros i k h NI; unfold M'; rewrite (proj2 (Nat.ltb_lt _ _) NI); reflexivity).
    assert (NCC : forall i, nc i -> coin (f i)) by (intros i NI; exact (nthc_coin coin xs t0 IN i NI)).
    assert (V' : forall i k h, is_valid live (fst (M' i k h)) /\ is_valid live (snd (M' i k h))).
    { intros i k h. unfold M'. destruct (i <? length xs)%nat eqn:E; [apply V, NCC, Nat.ltb_lt, E|]. split; left; reflexivity. }
    destruct (hear_all dbg live c c1 c2 L L1 L2 nat nc _ HC l M' (fun i => A (f i)) F G V') as [N [W [g [HN [HW [HG B]]]]]]. rewrite EK in B.
    exists N, W, g. split; [|split; [|split; [|exact B]]].
    + refine (number_6 coin xs t0 ND IN _ _ N _ _ _ HN).
      * intros t r1 r2 r3 r4 ds [C _]. exact C.
      * intros i r1 r2 r3 r4 ds [C _]. exact C.
      * intros i r1 r2 r3 r4 ds NI. fold f.
        assert (EO : forall D, overheard dbg live (otrecv_new (dme_new_crs c1 (dcrs D))) (otsndr_new (dme_new_crs c2 (dcrs D))) pkey_default (M' i (crs_view (dcrs D))) [] l ds =
          overheard dbg live (otrecv_new (dme_new_crs c1 (dcrs D))) (otsndr_new (dme_new_crs c2 (dcrs D))) pkey_default (M (f i) (crs_view (dcrs D))) [] l ds).
        { intros D. unfold M'. rewrite (proj2 (Nat.ltb_lt _ _) NI). reflexivity. }
        split; intros [C [D1 [D2 [D3 [D4 [SH [D [h [ED [EH EA]]]]]]]]]]; (split; [first [exact NI|exact (NCC i NI)]|]); (split; [exact D1|]); (split; [exact D2|]); (split; [exact D3|]); (split; [exact D4|]); (split; [exact SH|]);
          exists D, h; (split; [exact ED|]); (split; [|exact EA]); [rewrite <- EO|rewrite EO]; exact EH.
    + refine (number_6 coin xs t0 ND IN _ _ W _ _ _ HW).
      * intros t r1 r2 r3 r4 ds [C _]. exact C.
      * intros i r1 r2 r3 r4 ds [C _]. exact C.
      * intros i r1 r2 r3 r4 ds NI. fold f. pose proof (NCC i NI). tauto.
    + refine (number_gap coin xs t0 ND IN _ _ _ _ g _ _ _ _ HG).
      * intros [[[[[t w0] y0] w1] y1] ds] [[[[[C _] _] _] _] _]. exact C.
      * intros [[[[[t w0] y0] w1] y1] ds] [[[[[C _] _] _] _] _]. exact C.
      * intros [[[[[i w0] y0] w1] y1] ds] NI. cbn [first6 renum] in *. fold f. pose proof (NCC i NI). cbn. tauto.
      * intros [[[[[i w0] y0] w1] y1] ds] X Y W' NI. cbn [first6 renum with_string] in *. fold f. unfold M'. rewrite (proj2 (Nat.ltb_lt _ _) NI). reflexivity.
Qed.
Lemma L_C114_messages dbg live c c1 c2 : live c = true -> live c1 = true -> live c2 = true ->
  forall (T : Type) (coin : T -> Prop) K, how_many coin K -> forall l M0 M1 A, key_first l -> good_steps l ->
  (forall t k h, coin t -> is_valid live (fst (M0 t k h)) /\ is_valid live (snd (M0 t k h))) -> (forall t k h, coin t -> is_valid live (fst (M1 t k h)) /\ is_valid live (snd (M1 t k h))) ->
  exists N0 N1 g0 g1, overheard_guess dbg live c c1 c2 l coin M0 A N0 /\ overheard_guess dbg live c c1 c2 l coin M1 A N1 /\
    ddh_gap (and_steps l (and_draw (and_draw (and_draw (and_draw coin))))) (with_string l M0 A) g0 /\
    ddh_gap (and_steps l (and_draw (and_draw (and_draw (and_draw coin))))) (with_string l M1 A) g1 /\
    Z.abs (order ^ 3 * (N0 - N1) - (g0 - g1)) <= 2 * (4 + Z.of_nat (keys_in l)) * K * order ^ (Z.of_nat (needs l) + 6).
Proof.
  intros L L1 L2 T coin K H l M0 M1 A F G V0 V1.
  destruct (L_C114_silent dbg live c c1 c2 L L1 L2 T coin K H l M0 A F G V0) as [N0 [W [g0 [HN0 [HW [HG0 B0]]]]]].
  destruct (L_C114_silent dbg live c c1 c2 L L1 L2 T coin K H l M1 A F G V1) as [N1 [W' [g1 [HN1 [HW' [HG1 B1]]]]]].
  pose proof (how_many_unique _ _ _ HW HW') as EW. subst W'. exists N0, N1, g0, g1. repeat (split; [assumption|]). lia.
Qed.
