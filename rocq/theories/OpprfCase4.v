(** A concrete order of ciphertexts: threshold 9, secret 3*G, input 5. *)
From Coq Require Import ZArith Bool List Lia.
From Verif Require Import Outcome FieldModel SpecField CurveParams EccModel SpecEcc DmeModel SpecDme DmeProofs OtModel SpecOt AesModel SpecAes.
From Verif Require Import OpprfModel SpecOpprf SpecOpprf2 SpecOpprf4 OpprfProofs OpprfProofs4 OpprfProofs5 OpprfProofs7 OpprfProofs8 OpprfProofs10 OpprfProofs6  OpprfCase OpprfCase2 OpprfCase3 Prop_Aes.
Import ListNotations.
Open Scope Z_scope.

(** indices are determined by the letters *)
Definition index_of (uv : Z * Z) (s : comparison) : nat :=
  match letter_at uv 0, letter_at uv 1 with
  | Some a, Some b => if same_letter a s then 0%nat else if same_letter b s then 1%nat else 2%nat
  | _, _ => 0%nat
  end.
Lemma index_letter uv p s : letter_at uv p = Some s -> p = index_of uv s.
Proof.
  unfold index_of. destruct uv as [u v]. unfold letter_at, shuffle3. cbn [fst snd].
  pose proof (Z.mod_pos_bound u 2 ltac:(lia)). pose proof (Z.mod_pos_bound v 3 ltac:(lia)).
  assert (u mod 2 = 0 \/ u mod 2 = 1) as [->| ->] by lia; assert (v mod 3 = 0 \/ v mod 3 = 1 \/ v mod 3 = 2) as [->|[->| ->]] by lia;
    destruct p as [|[|[|p]]]; destruct s; vm_compute; try reflexivity; try discriminate; destruct p; discriminate.
Qed.

Section Case4.
  Variables (dbg : bool) (live : Z -> bool).

  Lemma case89 c0 c1 c2 : live c0 = true -> live c1 = true -> live c2 = true ->
    exists D Q S0 S t, dme_new dbg live c0 dec 2 1 1 0 = Ok D /\ getRandomPoint dbg live CV (Some c0) 3 = Ok Q /\
      server_new dbg live c1 9 (dcrs D) 1 = Ok S0 /\ setSecret dbg live S0 Q = Ok (S, set_curve Q (Some c1)) /\
      let C := setMessage (client_new c2 (dcrs D)) 5 in let d := with_keys case_draws (key2 5) in
      let ps := map (fun z => index_of (fst z) (snd z)) (combine (shuffles d) (map (prefix_cmp 5 9) levels)) in
      talk dbg live small iv0 S C d = Ok t /\ places dbg live small iv0 C d t = Ok ps.
  Proof.
    intros L0 L1 L2. destruct (case2_crs dbg live c0 L0) as [D [ED [FI LG]]]. destruct (case_world dbg live c0 c1 D L0 L1 FI) as [Q [S0 [S [EQ [E0 [E1 [SR [TH [SC DG]]]]]]]]].
    destruct (case2_session dbg live c0 c1 c2 5 L0 L1 L2 ltac:(lia) D Q S0 S ED FI LG EQ E0 E1 SR TH SC) as [GD _].
    destruct (L_ready_client live c2 (dcrs D) 5 L2 FI ltac:(lia)) as [CR [SC' _]].
    destruct (L_C89 dbg live small iv0 S (setMessage (client_new c2 (dcrs D)) 5) (with_keys case_draws (key2 5)) 3 5 case_aes SR CR
      (same_crs_trans _ _ _ SC (same_crs_sym _ _ SC')) GD) as [t [ps [T [O [LE LT]]]]].
    exists D, Q, S0, S, t. split; [exact ED|]. split; [exact EQ|]. split; [exact E0|]. split; [exact E1|]. cbv zeta. split; [exact T|].
    rewrite O. apply (f_equal (@Ok (list nat))). rewrite TH in LT. clear - LE LT.
    assert (H : forall sh ps ls, length ps = length sh -> map (fun z => letter_at (fst z) (snd z)) (combine sh ps) = map Some ls ->
      ps = map (fun z => index_of (fst z) (snd z)) (combine sh ls)).
    { induction sh as [|a sh IH]; intros [|p l] [|c ls] LN M; cbn [length] in LN; try discriminate LN; cbn [combine map fst snd] in *; try discriminate M; [reflexivity|].
      inversion M as [[M1 M2]]. rewrite <- (index_letter a p c M1). rewrite <- (IH l ls); [reflexivity|lia|exact M2]. }
    apply H; [rewrite LE; reflexivity|]. rewrite map_map. exact LT.
  Qed.
End Case4.
