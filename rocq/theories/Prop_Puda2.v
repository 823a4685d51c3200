(** Properties C85 and C86: what the aggregator of private data aggregation (src/puda) learns. *)
From Coq Require Import ZArith Znumtheory Bool List Lia.
From Verif Require Import Outcome FieldModel ECGroup ECOrder CurveParams EccModel SpecEcc DmeModel SpecDme SpecOt PudaModel SpecPuda SpecPuda2 PudaProofs PudaProofs2.
Import ListNotations.
Open Scope Z_scope.

(** C85: the aggregator's keys and the ciphertexts and tags of one timestamp fit other messages exactly when those have
    the same sum, and then with exactly one choice of the users' keys. *)
Theorem C85_only_sum : forall dbg live c1 c2 rh ra ds ms t v ms',
  live c1 = true -> live c2 = true -> length ds = length ms -> length ms' = length ms ->
  ~ (order | rh) -> int32 t -> t <> 0 -> view dbg live c1 c2 rh ra ds ms t = Ok v ->
  ((order | sumz ms - sumz ms') <->
   exists! ds', length ds' = length ms' /\ Forall draws ds' /\
     exists v', view dbg live c1 c2 rh ra ds' ms' t = Ok v' /\ same_view v v').
Proof. exact L_C85. Qed.
Print Assumptions C85_only_sum.

(** Without conditions on the parameters, the timestamp or the draws: what is seen determines the sum. *)
Theorem C85_reveals_sum : forall dbg live c1 c2 rh ra ds ms ds' ms' t v v',
  live c1 = true -> live c2 = true -> length ds = length ms -> length ds' = length ms' ->
  view dbg live c1 c2 rh ra ds ms t = Ok v -> view dbg live c1 c2 rh ra ds' ms' t = Ok v' -> same_view v v' ->
  (order | sumz ms - sumz ms').
Proof. exact L_C85_reveals. Qed.
Print Assumptions C85_reveals_sum.

(** such views exist *)
Theorem C85_view : forall dbg live c1 c2 rh ra ds ms t, live c1 = true -> live c2 = true -> length ds = length ms ->
  exists v, view dbg live c1 c2 rh ra ds ms t = Ok v.
Proof. exact L_C85_total. Qed.
Print Assumptions C85_view.

(** readings 100, 200, 300 look the same as 600, 0, 0, and not as 600, 0, 1 *)
Example C85_case : forall dbg live, live 1 = true -> live 2 = true ->
  exists v, view dbg live 1 2 11 12 [(3, 4); (5, 6); (7, 8)] [100; 200; 300] 7 = Ok v /\
    (exists ds' v', view dbg live 1 2 11 12 ds' [600; 0; 0] 7 = Ok v' /\ same_view v v') /\
    (forall ds' v', length ds' = 3%nat -> view dbg live 1 2 11 12 ds' [600; 0; 1] 7 = Ok v' -> ~ same_view v v').
Proof.
  intros dbg live L1 L2. destruct (L_C85_total dbg live 1 2 11 12 [(3, 4); (5, 6); (7, 8)] [100; 200; 300] 7 L1 L2 eq_refl) as [v E].
  exists v. split; [exact E|].
  assert (N11 : ~ (order | 11)) by (apply DmeProofs.ndiv; split; vm_compute; reflexivity).
  assert (I7 : int32 7) by (split; vm_compute; [discriminate|reflexivity]). split.
  - destruct (L_C85 dbg live 1 2 11 12 [(3, 4); (5, 6); (7, 8)] [100; 200; 300] 7 v [600; 0; 0] L1 L2 eq_refl eq_refl N11 I7 ltac:(discriminate) E) as [A _].
    destruct A as [ds' [[_ [_ [v' [E' S]]]] _]]; [exists 0; reflexivity|]. exists ds', v'. split; [exact E'|exact S].
  - intros ds' v' Q E' S.
    pose proof (L_C85_reveals dbg live 1 2 11 12 [(3, 4); (5, 6); (7, 8)] [100; 200; 300] ds' [600; 0; 1] 7 v v' L1 L2 eq_refl Q E E' S) as B.
    apply Z.divide_opp_r in B. revert B. apply DmeProofs.ndiv. split; vm_compute; reflexivity.
Qed.

(** C86: two ciphertexts of a user at two timestamps give, without any key, the multiple t2*m1 - t1*m2 of the generator. *)
Theorem C86_relation : forall dbg live pp rh ek m1 t1 c1 m2 t2 c2,
  multiple live (ppg1 pp) 1 -> multiple live (pphash pp) rh -> scal ek ->
  PEnc dbg live pp ek m1 t1 = Ok c1 -> PEnc dbg live pp ek m2 t2 = Ok c2 ->
  exists R, cross dbg live c1 c2 t1 t2 = Ok R /\ multiple live R (t2 * m1 - t1 * m2).
Proof. exact L_C86. Qed.
Print Assumptions C86_relation.

(** Guesses that agree with it lie on a line through the messages. *)
Theorem C86_guesses : forall live t1 t2 m1 m2 R x1 x2, int32 t1 -> int32 t2 -> t1 <> 0 \/ t2 <> 0 ->
  u16 m1 -> u16 m2 -> u16 x1 -> u16 x2 -> multiple live R (t2 * m1 - t1 * m2) ->
  (den CV R = gmul CV (t2 * x1 - t1 * x2) (ggen CV) <->
   exists j, x1 = m1 + j * (t1 / Z.gcd t1 t2) /\ x2 = m2 + j * (t2 / Z.gcd t1 t2)).
Proof. exact L_C86_guess. Qed.
Print Assumptions C86_guesses.

(** When the timestamps are coprime and one is 65536 or more only the messages themselves agree. *)
Theorem C86_determined : forall live t1 t2 m1 m2 R x1 x2, int32 t1 -> int32 t2 -> Z.gcd t1 t2 = 1 ->
  65536 <= Z.abs t1 \/ 65536 <= Z.abs t2 -> u16 m1 -> u16 m2 -> u16 x1 -> u16 x2 ->
  multiple live R (t2 * m1 - t1 * m2) ->
  (den CV R = gmul CV (t2 * x1 - t1 * x2) (ggen CV) <-> x1 = m1 /\ x2 = m2).
Proof. exact L_C86_determined. Qed.
Print Assumptions C86_determined.

(** The two ciphertexts hold nothing else: messages fit them exactly when the combination is the same, under one key. *)
Theorem C86_nothing_else : forall dbg live pp rh ek m1 t1 c1 m2 t2 c2 x1 x2,
  multiple live (ppg1 pp) 1 -> multiple live (pphash pp) rh -> scal ek ->
  ~ (order | rh) -> int32 t1 -> t1 <> 0 -> int32 t2 -> t2 <> 0 -> u16 m1 -> u16 m2 -> u16 x1 -> u16 x2 ->
  PEnc dbg live pp ek m1 t1 = Ok c1 -> PEnc dbg live pp ek m2 t2 = Ok c2 ->
  (t2 * m1 - t1 * m2 = t2 * x1 - t1 * x2 <->
   exists! ek', scal ek' /\ exists c1' c2', PEnc dbg live pp ek' x1 t1 = Ok c1' /\ PEnc dbg live pp ek' x2 t2 = Ok c2' /\
     same_point c1' c1 /\ same_point c2' c2).
Proof. exact L_C86_fits. Qed.
Print Assumptions C86_nothing_else.

(** two readings a second apart in Unix time: the ciphertexts alone give both *)
Example C86_case : forall dbg live, live 1 = true -> live 2 = true ->
  exists pp c1 c2 R, PEnc dbg live pp (mkfe 5 FIELD_n) 40000 1700000000 = Ok c1 /\ PEnc dbg live pp (mkfe 5 FIELD_n) 12 1700000001 = Ok c2 /\
    cross dbg live c1 c2 1700000000 1700000001 = Ok R /\
    forall x1 x2, u16 x1 -> u16 x2 ->
      (den CV R = gmul CV (1700000001 * x1 - 1700000000 * x2) (ggen CV) <-> x1 = 40000 /\ x2 = 12).
Proof.
  intros dbg live L1 L2.
  destruct (L_puda dbg live 1 2 11 12 [] [] 1 L1 L2 eq_refl) as [o [_ [_ [_ [_ [_ [_ [_ [G1 [_ [H _]]]]]]]]]]].
  assert (S : scal (mkfe 5 FIELD_n)) by (split; [reflexivity|split; vm_compute; [discriminate|reflexivity]]).
  destruct (L_C40_total dbg live (o_pp o) 11 (mkfe 5 FIELD_n) 40000 1700000000 G1 H S) as [c1 E1].
  destruct (L_C40_total dbg live (o_pp o) 11 (mkfe 5 FIELD_n) 12 1700000001 G1 H S) as [c2 E2].
  destruct (L_C86 dbg live (o_pp o) 11 _ _ _ _ _ _ _ G1 H S E1 E2) as [R [ER KR]].
  exists (o_pp o), c1, c2, R. split; [exact E1|]. split; [exact E2|]. split; [exact ER|].
  assert (I1 : int32 1700000000) by (split; vm_compute; [discriminate|reflexivity]).
  assert (I2 : int32 1700000001) by (split; vm_compute; [discriminate|reflexivity]).
  assert (U1 : u16 40000) by (split; vm_compute; [discriminate|reflexivity]).
  assert (U2 : u16 12) by (split; vm_compute; [discriminate|reflexivity]).
  assert (B : 65536 <= Z.abs 1700000000) by (vm_compute; discriminate).
  intros x1 x2 X1 X2.
  exact (L_C86_determined live 1700000000 1700000001 40000 12 R x1 x2 I1 I2 eq_refl (or_introl B) U1 U2 X1 X2 KR).
Qed.
