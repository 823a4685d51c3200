(** C99: the number of multiplications of a client of the oblivious PRF tells the server about its input. *)
From Coq Require Import ZArith Bool List.
From Verif Require Import Outcome FieldModel CurveParams EccModel SpecEcc DmeModel SpecDme OtModel SpecOt AesModel SpecAes OpprfModel SpecOpprf SpecOpprf2 SpecOpprf4 OpprfCase OpprfCase2 OpprfCase3 OpprfCase4 TraceModel SpecTrace TraceModel2 SpecTrace3 TraceProofs3 Prop_Aes.
Import ListNotations.
Open Scope Z_scope.

(** In every round but the first, a client that finds its key in the ciphertext of index p calls operator* p + 2 times:
    once for each of the ciphertexts it opened and once for the share of the point. No hypothesis is made on the points,
    the ciphertexts or the keys. *)
Theorem C99_count : forall dbg live e iv C round c C' p, round <> BITS ->
  first_row dbg live e iv (otr C) (key C) (oc c) = Ok p -> runOTRound_end dbg live e iv C round c = Ok C' ->
  occurrences Multiply (fst (runOTRound_end_t dbg live e iv C round c)) = Z.of_nat p + 2.
Proof. exact L_C99_count. Qed.
Print Assumptions C99_count.

(** Over a whole conversation the server, who chose the shuffles, reads from these fifteen numbers how the prefixes of the
    client's input compare with those of its threshold. *)
Theorem C99_server : forall dbg live e iv S C d a x, aes_ready e iv -> server_ready live S a -> client_ready live C x ->
  same_crs (dcrs (sdme (ots S))) (dcrs (rdme (otr C))) ->
  good_draws dbg live e iv (dcrs (rdme (otr C))) (sdme (ots S)) (theta S) a x d ->
  exists t ns, talk dbg live e iv S C d = Ok t /\ multiplications dbg live e iv C (schedule d) (tr_rounds t) = Ok ns /\
    letters_counted d ns = map (fun j => Some (prefix_cmp x (theta S) j)) levels_above.
Proof. exact L_C99_server. Qed.
Print Assumptions C99_server.

(** These comparisons fix the bits of the input, its last bit aside, from the highest one to the first that differs from the
    threshold's, and nothing else of the input. *)
Theorem C99_input : forall t x x', 0 <= t < 2 ^ 16 -> 0 <= x < 2 ^ 16 -> 0 <= x' < 2 ^ 16 -> x / 2 <> t / 2 ->
  let k := Z.log2 (Z.lxor (x / 2) (t / 2)) in
  map (fun j => prefix_cmp x' t j) levels_above = map (fun j => prefix_cmp x t j) levels_above <-> x' / 2 / 2 ^ k = x / 2 / 2 ^ k.
Proof. exact L_C99_input. Qed.
Print Assumptions C99_input.

(** when no such bit differs they fix all bits but the last *)
Theorem C99_input_equal : forall t x x', 0 <= x < 2 ^ 16 -> x / 2 = t / 2 ->
  map (fun j => prefix_cmp x' t j) levels_above = map (fun j => prefix_cmp x t j) levels_above <-> x' / 2 = t / 2.
Proof. exact L_C99_input_equal. Qed.
Print Assumptions C99_input_equal.

(** threshold 9 = 1001b, input 5 = 101b: the server learns that the input is one of 0, ..., 7 *)
Example C99_case_server : forall dbg live c0 c1 c2, live c0 = true -> live c1 = true -> live c2 = true ->
  exists D Q S0 S t, dme_new dbg live c0 dec 2 1 1 0 = Ok D /\ getRandomPoint dbg live CV (Some c0) 3 = Ok Q /\
    server_new dbg live c1 9 (dcrs D) 1 = Ok S0 /\ setSecret dbg live S0 Q = Ok (S, set_curve Q (Some c1)) /\
    let C := setMessage (client_new c2 (dcrs D)) 5 in let d := with_keys case_draws (key2 5) in
    talk dbg live small iv0 S C d = Ok t /\
    multiplications dbg live small iv0 C (schedule d) (tr_rounds t) = Ok [4; 2; 3; 2; 3; 4; 4; 2; 3; 2; 3; 4; 2; 3; 4].
Proof.
  intros dbg live c0 c1 c2 L0 L1 L2. destruct (case89 dbg live c0 c1 c2 L0 L1 L2) as [D [Q [S0 [S [t [H1 [H2 [H3 [H4 [H5 H6]]]]]]]]]].
  exists D, Q, S0, S, t. split; [exact H1|]. split; [exact H2|]. split; [exact H3|]. split; [exact H4|]. split; [exact H5|].
  exact (places_counted _ _ _ _ _ _ _ _ H6).
Qed.
Example C99_case_counted :
  letters_counted (with_keys case_draws (key2 5)) [4; 2; 3; 2; 3; 4; 4; 2; 3; 2; 3; 4; 2; 3; 4] = repeat (Some Eq) 12 ++ repeat (Some Lt) 3.
Proof. vm_compute. reflexivity. Qed.
Example C99_case_input :
  filter (fun x => forallb (fun j => same_letter (prefix_cmp (Z.of_nat x) 9 j) (prefix_cmp 5 9 j)) levels_above) (seq 0 40) = seq 0 8.
Proof. vm_compute. reflexivity. Qed.
