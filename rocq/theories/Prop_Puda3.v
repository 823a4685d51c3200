(** Property C94: what the aggregator of private data aggregation (src/puda) learns over any number of timestamps, together with any of
    the users. [views] are the views of one setup at several timestamps; [J] are the users whose keys are known. *)
From Coq Require Import ZArith Znumtheory Bool List Lia.
From Verif Require Import Outcome FieldModel CurveParams EccModel DmeModel SpecDme SpecOt PudaModel SpecPuda SpecPuda2 SpecPuda3 PudaProofs2 PudaProofs3.
Import ListNotations.
Open Scope Z_scope.

(** C94. Other messages fit what is seen, with the same keys of the users in [J], exactly when there is a shift for every user, none for
    those in [J], with sum 0, such that the messages of a user at time t differ by t times the shift of the user. *)
Theorem C94_leak : forall dbg live (J : nat -> Prop) c1 c2 rh ra ds hist hist' vs, live c1 = true -> live c2 = true -> ~ (order | rh) ->
  Forall draws ds -> complete (length ds) hist -> complete (length ds) hist' -> map fst hist' = map fst hist ->
  views dbg live c1 c2 rh ra ds hist = Ok vs ->
  ((exists sh, length sh = length ds /\ (order | sumz sh) /\ (forall i, J i -> (order | nth i sh 0)) /\ Forall2 (shifted sh) hist hist') <->
   exists ds' vs', length ds' = length ds /\ Forall draws ds' /\ keys_known J ds ds' /\
     views dbg live c1 c2 rh ra ds' hist' = Ok vs' /\ Forall2 same_view vs vs').
Proof. exact L_C94. Qed.
Print Assumptions C94_leak.

(** The keys are then determined by the messages, if one of the timestamps is not 0. *)
Theorem C94_unique : forall dbg live c1 c2 rh ra hist t ds ds' vs vs', live c1 = true -> live c2 = true -> ~ (order | rh) ->
  Forall draws ds -> Forall draws ds' -> length ds' = length ds -> complete (length ds) hist -> In t (map fst hist) -> int32 t -> t <> 0 ->
  views dbg live c1 c2 rh ra ds hist = Ok vs -> views dbg live c1 c2 rh ra ds' hist = Ok vs' -> Forall2 same_view vs vs' -> ds' = ds.
Proof. exact L_C94_unique. Qed.
Print Assumptions C94_unique.

(** One timestamp: the aggregator and the users in [J] learn the sum of the messages of the others and nothing else. *)
Theorem C94_coalition : forall dbg live (J : nat -> Prop) c1 c2 rh ra ds ms t v ms', live c1 = true -> live c2 = true -> Forall draws ds ->
  length ds = length ms -> length ms' = length ms -> ~ (order | rh) -> int32 t -> t <> 0 -> view dbg live c1 c2 rh ra ds ms t = Ok v ->
  (((order | sumz ms - sumz ms') /\ forall i, J i -> (order | nth i ms 0 - nth i ms' 0)) <->
   exists! ds', length ds' = length ms' /\ Forall draws ds' /\ keys_known J ds ds' /\
     exists v', view dbg live c1 c2 rh ra ds' ms' t = Ok v' /\ same_view v v').
Proof. exact L_C94_coalition. Qed.
Print Assumptions C94_coalition.

(** such views exist *)
Theorem C94_views : forall dbg live c1 c2 rh ra ds hist, live c1 = true -> live c2 = true -> complete (length ds) hist ->
  exists vs, views dbg live c1 c2 rh ra ds hist = Ok vs.
Proof. exact L_C94_total. Qed.
Print Assumptions C94_views.

(** Three users at the times 7 and 14; the third is with the aggregator. Shifts 1 and -1 give readings that look the same; a reading of the
    third user that is changed, or one reading of the first that is changed alone, does not. *)
Example C94_case : forall dbg live, live 1 = true -> live 2 = true -> let J := fun i => i = 2%nat in let ds := [(3, 4); (5, 6); (7, 8)] in
  exists vs, views dbg live 1 2 11 12 ds [(7, [100; 200; 300]); (14, [1000; 2000; 3000])] = Ok vs /\
    (exists ds' vs', keys_known J ds ds' /\ views dbg live 1 2 11 12 ds' [(7, [93; 207; 300]); (14, [986; 2014; 3000])] = Ok vs' /\ Forall2 same_view vs vs') /\
    (forall ds' vs', length ds' = 3%nat -> Forall draws ds' -> keys_known J ds ds' ->
       views dbg live 1 2 11 12 ds' [(7, [93; 200; 307]); (14, [986; 2000; 3014])] = Ok vs' -> ~ Forall2 same_view vs vs') /\
    (forall ds' vs', length ds' = 3%nat -> Forall draws ds' -> keys_known J ds ds' ->
       views dbg live 1 2 11 12 ds' [(7, [101; 199; 300]); (14, [1000; 2000; 3000])] = Ok vs' -> ~ Forall2 same_view vs vs').
Proof.
  intros dbg live L1 L2 J ds. pose (H := [(7, [100; 200; 300]); (14, [1000; 2000; 3000])]).
  assert (CH : complete (length ds) H) by (repeat constructor). destruct (L_C94_total dbg live 1 2 11 12 ds H L1 L2 CH) as [vs V]. exists vs. split; [exact V|].
  pose proof (fun h CH' TS => L_C94 dbg live J 1 2 11 12 ds H h vs L1 L2 h11 d3 CH CH' TS V) as T. split; [|split].
  - destruct (T [(7, [93; 207; 300]); (14, [986; 2014; 3000])]) as [A _]; [repeat constructor|reflexivity|].
    destruct A as [ds' [vs' [_ [_ [K [V' S]]]]]]; [|exists ds', vs'; split; [exact K|split; [exact V'|exact S]]].
    exists [1; -1; 0]. split; [reflexivity|]. split; [exists 0; reflexivity|]. split; [intros i ->; exists 0; reflexivity|].
    repeat constructor; intros i I; do 3 (destruct i as [|i]; [exists 0; reflexivity|]); cbn in I; lia.
  - intros ds' vs' Q D K V' S. destruct (T [(7, [93; 200; 307]); (14, [986; 2000; 3014])]) as [_ A]; [repeat constructor|reflexivity|].
    destruct A as [sh [LS [_ [KJ F]]]]; [exists ds', vs'; split; [exact Q|split; [exact D|split; [exact K|split; [exact V'|exact S]]]]|].
    inversion F as [|? ? ? ? [_ F1] _]; subst. specialize (F1 2%nat ltac:(rewrite LS; cbn; lia)). specialize (KJ 2%nat eq_refl). cbn [fst snd nth] in F1.
    assert (B : (order | 300 - 307)). { replace (300 - 307) with ((300 - 307 - 7 * nth 2 sh 0) + 7 * nth 2 sh 0) by ring. apply Z.divide_add_r; [exact F1|apply Z.divide_mul_r; exact KJ]. }
    revert B. apply DmeProofs.ndiv. vm_compute. split; reflexivity.
  - intros ds' vs' Q D K V' S. destruct (T [(7, [101; 199; 300]); (14, [1000; 2000; 3000])]) as [_ A]; [repeat constructor|reflexivity|].
    destruct A as [sh [LS [_ [KJ F]]]]; [exists ds', vs'; split; [exact Q|split; [exact D|split; [exact K|split; [exact V'|exact S]]]]|].
    inversion F as [|? ? ? ? [_ F1] F2]; subst. inversion F2 as [|? ? ? ? [_ F3] _]; subst. specialize (F1 0%nat ltac:(rewrite LS; cbn; lia)). specialize (F3 0%nat ltac:(rewrite LS; cbn; lia)). cbn [fst snd nth] in F1, F3.
    assert (B : (order | -2)). { replace (-2) with (2 * (100 - 101 - 7 * nth 0 sh 0) - (1000 - 1000 - 14 * nth 0 sh 0)) by ring. apply Z.divide_sub_r; [apply Z.divide_mul_r; exact F1|exact F3]. }
    revert B. apply DmeProofs.ndiv. vm_compute. split; reflexivity.
Qed.

(** One timestamp, the first of three users with the aggregator: 100, 200, 300 looks as 100, 500, 0, and not as 99, 501, 0. *)
Example C94_case_coalition : forall dbg live, live 1 = true -> live 2 = true -> let J := fun i => i = 0%nat in let ds := [(3, 4); (5, 6); (7, 8)] in
  exists v, view dbg live 1 2 11 12 ds [100; 200; 300] 7 = Ok v /\
    (exists ds' v', keys_known J ds ds' /\ view dbg live 1 2 11 12 ds' [100; 500; 0] 7 = Ok v' /\ same_view v v') /\
    ~ (exists ds' v', length ds' = 3%nat /\ Forall draws ds' /\ keys_known J ds ds' /\ view dbg live 1 2 11 12 ds' [99; 501; 0] 7 = Ok v' /\ same_view v v').
Proof.
  intros dbg live L1 L2 J ds. destruct (L_C85_total dbg live 1 2 11 12 ds [100; 200; 300] 7 L1 L2 eq_refl) as [v E]. exists v. split; [exact E|].
  assert (I7 : int32 7) by (split; vm_compute; [discriminate|reflexivity]).
  pose proof (fun ms' Q' => L_C94_coalition dbg live J 1 2 11 12 ds [100; 200; 300] 7 v ms' L1 L2 d3 eq_refl Q' h11 I7 ltac:(discriminate) E) as T. split.
  - destruct (T [100; 500; 0] eq_refl) as [A _]. destruct A as [ds' [[_ [_ [K [v' [V' S]]]]] _]]; [split; [exists 0; reflexivity|intros i ->; exists 0; reflexivity]|].
    exists ds', v'. split; [exact K|]. split; [exact V'|exact S].
  - intros [ds' [v' [Q [D [K [V' S]]]]]]. pose proof (fun hist' CH' TS => L_C94 dbg live J 1 2 11 12 ds [(7, [100; 200; 300])] hist' [v] L1 L2 h11 d3 ltac:(repeat constructor) CH' TS) as U.
    destruct (U [(7, [99; 501; 0])]) as [_ A]; [repeat constructor|reflexivity|unfold views; cbn [mapM fst snd]; rewrite E; reflexivity|].
    destruct A as [sh [LS [_ [KJ F]]]]; [exists ds', [v']; split; [exact Q|split; [exact D|split; [exact K|split; [unfold views; cbn [mapM fst snd]; rewrite V'; reflexivity|constructor; [exact S|constructor]]]]]|].
    inversion F as [|? ? ? ? [_ F1] _]; subst. specialize (F1 0%nat ltac:(rewrite LS; cbn; lia)). specialize (KJ 0%nat eq_refl). cbn [fst snd nth] in F1.
    assert (B : (order | 1)). { replace 1 with ((100 - 99 - 7 * nth 0 sh 0) + 7 * nth 0 sh 0) by ring. apply Z.divide_add_r; [exact F1|apply Z.divide_mul_r; exact KJ]. }
    revert B. apply DmeProofs.ndiv. vm_compute. split; reflexivity.
Qed.
