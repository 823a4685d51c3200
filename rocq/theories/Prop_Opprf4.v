(** Property C89: the order of the ciphertexts in the oblivious PRF (src/opprf/opprf.cpp:109, 132).
    [places] are the indices of the ciphertexts the client accepts in rounds 15 to 1 and among the masks; [prefix_cmp x t j] compares the
    numbers without their last [j] bits; [levels] is 15, ..., 0. *)
From Coq Require Import ZArith Bool List Lia.
From Verif Require Import Outcome FieldModel SpecField CurveParams EccModel SpecEcc DmeModel SpecDme OtModel SpecOt AesModel SpecAes.
From Verif Require Import OpprfModel SpecOpprf SpecOpprf2 SpecOpprf4 OpprfProofs10 OpprfCase OpprfCase2 OpprfCase4 Prop_Aes.
Import ListNotations.
Open Scope Z_scope.

(** C89. From the places of the ciphertexts it accepts and the server's values of rand() the client computes how the first bits of its
    input compare with those of the threshold, for every number of bits. *)
Theorem C89_order : forall dbg live e iv S C d a x, aes_ready e iv -> server_ready live S a -> client_ready live C x ->
  same_crs (dcrs (sdme (ots S))) (dcrs (rdme (otr C))) ->
  good_draws dbg live e iv (dcrs (rdme (otr C))) (sdme (ots S)) (theta S) a x d ->
  exists t ps, talk dbg live e iv S C d = Ok t /\ places dbg live e iv C d t = Ok ps /\ length ps = 16%nat /\
    letters d ps = map (fun j => Some (prefix_cmp x (theta S) j)) levels.
Proof. exact L_C89. Qed.
Print Assumptions C89_order.

(** These comparisons say more than the result does: they fix the bits of the threshold down to the first one in which it differs from
    the input ... *)
Theorem C89_threshold : forall x t t', 0 <= x < 2 ^ 16 -> 0 <= t < 2 ^ 16 -> 0 <= t' < 2 ^ 16 -> x <> t -> let k := Z.log2 (Z.lxor x t) in
  map (fun j => prefix_cmp x t' j) levels = map (fun j => prefix_cmp x t j) levels <-> t' / 2 ^ k = t / 2 ^ k.
Proof. exact L_C89_differ. Qed.
Print Assumptions C89_threshold.

(** ... and all of it if there is none. *)
Theorem C89_equal : forall x t t', prefix_cmp x t 0 = Eq -> prefix_cmp x t' 0 = prefix_cmp x t 0 -> t' = t.
Proof. exact L_C89_equal. Qed.
Print Assumptions C89_equal.

(** Only the values modulo 2 and 3 matter, ... *)
Theorem C89_values : forall u v, letter_at (u, v) = letter_at (u mod 2, v mod 3).
Proof. exact L_C89_values. Qed.
Print Assumptions C89_values.

(** ... and to someone who does not know them a place says nothing: every letter is there for two of the six. *)
Theorem C89_hidden : forall s p, (p < 3)%nat ->
  length (filter (fun uv => match letter_at uv p with Some s' => same_letter s s' | None => false end)
    (list_prod [0; 1] [0; 1; 2])) = 2%nat.
Proof. exact L_C89_uniform. Qed.
Print Assumptions C89_hidden.

(** threshold 9 = 1001b, input 5 = 101b: the client learns that the threshold is one of 8, ..., 15 *)
Example C89_case : forall dbg live c0 c1 c2, live c0 = true -> live c1 = true -> live c2 = true ->
  exists D Q S0 S t, dme_new dbg live c0 dec 2 1 1 0 = Ok D /\ getRandomPoint dbg live CV (Some c0) 3 = Ok Q /\
    server_new dbg live c1 9 (dcrs D) 1 = Ok S0 /\ setSecret dbg live S0 Q = Ok (S, set_curve Q (Some c1)) /\
    let C := setMessage (client_new c2 (dcrs D)) 5 in let d := with_keys case_draws (key2 5) in
    talk dbg live small iv0 S C d = Ok t /\
    places dbg live small iv0 C d t = Ok [2; 0; 1; 0; 1; 2; 2; 0; 1; 0; 1; 2; 0; 1; 2; 1]%nat.
Proof. exact case89. Qed.
Example C89_case_letters :
  letters (with_keys case_draws (key2 5)) [2; 0; 1; 0; 1; 2; 2; 0; 1; 0; 1; 2; 0; 1; 2; 1]%nat = repeat (Some Eq) 12 ++ repeat (Some Lt) 4.
Proof. vm_compute. reflexivity. Qed.
Example C89_case_threshold :
  filter (fun t => forallb (fun j => same_letter (prefix_cmp 5 (Z.of_nat t) j) (prefix_cmp 5 9 j)) levels) (seq 0 40) = seq 8 8.
Proof. vm_compute. reflexivity. Qed.
