(** Oblivious transfers with a cheating sender: the choices, a zero trapdoor, and a concrete case. *)
From Coq Require Import ZArith Znumtheory Bool List Lia.
From Verif Require Import Outcome FieldModel ZpField SpecField FieldProofs ECGroup ECOrder CurveParams CurveFacts EccModel EccProofs SpecEcc EccThms Emb RF DmeModel SpecDme DmeProofs OtModel OtProofs SpecCount CountMath SpecDdh SpecDdh2 SpecDdh3 DdhProofs DdhMany2 CheatProofs IdealProofs SpecTrick SpecSend SendProofs.
Import ListNotations.
Open Scope Z_scope.

Section Send.
  Variables (dbg : bool) (live : Z -> bool).
  Notation receiver c2 D := (otrecv_new (dme_new_crs c2 (dcrs D))).

  Lemma L_C120_ideal c c2 r1 r2 r3 r4 D B G A n : live c = true -> live c2 = true -> dme_new dbg live c dec r1 r2 r3 r4 = Ok D -> ~ (order | r1) -> (forall h, branch (B h)) ->
    exists N, tried (fun rs => received dbg live (receiver c2 D) B G rs []) n A N /\ tried (fun rs => extracted dbg live D B G rs []) n A N.
  Proof. intros LC LC2 ED N1 HB. exact (same_worlds dbg live c c2 r1 r2 r3 r4 D LC LC2 ED N1 B G HB A n (receiver c2 D) [] eq_refl). Qed.

  (** ** What the sender learns *)
  Lemma blind D B B' (G : list (elt * elt) -> elt * elt -> list ctxt) (A : list (elt * elt) -> bool) : forall rs h h', map fst h = map fst h' ->
    (exists k, extracted dbg live D B (fun h => G (map fst h)) rs h = Ok k /\ A (map fst k) = true) -> (exists k, extracted dbg live D B' (fun h => G (map fst h)) rs h' = Ok k /\ A (map fst k) = true).
  Proof.
    induction rs as [|r l IH]; intros h h' E.
    - intros [k [H HA]]. apply Ok_inj in H. subst k. exists h'. split; [reflexivity|]. rewrite <- HA. symmetry. exact (f_equal A E).
    - cbn [extracted]. destruct (TrapKeyGen dbg live D r) as [[[pk sk0] sk1]|f]; [|intros [k [H _]]; discriminate H]. cbn [bind]. apply IH. rewrite !map_app. cbn [map fst]. exact (f_equal (fun z => z ++ [elts pk]) E).
  Qed.
  Lemma L_C120_choices c c2 r1 r2 r3 r4 D B B' (G : list (elt * elt) -> elt * elt -> list ctxt) (A : list (elt * elt) -> bool) n : live c = true -> live c2 = true ->
    dme_new dbg live c dec r1 r2 r3 r4 = Ok D -> ~ (order | r1) -> (forall h, branch (B h)) -> (forall h, branch (B' h)) ->
    exists N, tried (fun rs => received dbg live (receiver c2 D) B (fun h => G (map fst h)) rs []) n (fun h => A (map fst h)) N /\
      tried (fun rs => received dbg live (receiver c2 D) B' (fun h => G (map fst h)) rs []) n (fun h => A (map fst h)) N.
  Proof.
    intros LC LC2 ED N1 HB HB'. destruct (L_C120_ideal c c2 r1 r2 r3 r4 D B (fun h => G (map fst h)) (fun h => A (map fst h)) n LC LC2 ED N1 HB) as [N [C1 C2]].
    destruct (L_C120_ideal c c2 r1 r2 r3 r4 D B' (fun h => G (map fst h)) (fun h => A (map fst h)) n LC LC2 ED N1 HB') as [N' [C1' C2']]. exists N. split; [exact C1|].
    assert (X : tried (fun rs => extracted dbg live D B' (fun h => G (map fst h)) rs []) n (fun h => A (map fst h)) N).
    { unfold tried in C2 |- *. refine (how_many_same _ _ _ _ C2). intros rs. split; intros [L [F X]]; (split; [exact L|]; split; [exact F|]).
      - exact (blind D B B' G A rs [] [] eq_refl X).
      - exact (blind D B' B G A rs [] [] eq_refl X). }
    rewrite (how_many_unique _ _ _ X C2'). exact C1'.
  Qed.

  (** ** A zero trapdoor *)
  Lemma L_C120_zero c c2 r1 r2 r3 r4 D B G : live c = true -> live c2 = true -> dme_new dbg live c dec r1 r2 r3 r4 = Ok D -> (order | r1) -> (forall h, branch (B h)) ->
    tried (fun rs => received dbg live (receiver c2 D) B G rs []) 1 (fun _ => true) order /\ tried (fun rs => extracted dbg live D B G rs []) 1 (fun _ => true) 0.
  Proof.
    intros LC LC2 ED Z0 HB. unfold tried. split.
    - refine (how_many_map (fun r => [r]) _ _ _ draws _ _); [intros x y _ _ E; congruence|]. intros rs. split.
      + intros [L [F _]]. destruct rs as [|r [|r' l]]; try discriminate L. exists r. split; [exact (Forall_inv F)|reflexivity].
      + intros [r [DR <-]]. split; [reflexivity|]. split; [constructor; [exact DR|constructor]|]. cbn [received].
        destruct (wanted dbg live c c2 r1 r2 r3 r4 D LC LC2 ED (receiver c2 D) (B []) r eq_refl (HB [])) as [R' [pk [-> _]]]. cbn [bind fst snd]. eexists. split; reflexivity.
    - apply how_many_none. intros rs [L [_ [h [E _]]]]. destruct rs as [|r [|r' l]]; try discriminate L. cbn [extracted] in E.
      destruct (L_C30_zero dbg live c r1 r2 r3 r4 r LC Z0) as [D' [E' ET]]. rewrite ED in E'. apply Ok_inj in E'. subst D'. rewrite ET in E. discriminate E.
  Qed.

  (** ** A sender that answers with points off the curve *)
  Definition tricky (c : Z) (h : list exchange) (v : elt * elt) : list ctxt := [mkct (trick c) (trick c); mkct (trick c) (pt_inf CV)].
  Lemma case120 c c2 : live c = true -> live c2 = true ->
    exists D h, dme_new dbg live c dec 2 1 3 0 = Ok D /\ ~ (order | 2) /\
      received dbg live (receiver c2 D) (fun _ => 1) (tricky c) [4] [] = Ok h /\ extracted dbg live D (fun _ => 1) (tricky c) [8] [] = Ok h /\ map fst h = [(pow 8, pow 24)].
  Proof.
    intros LC LC2. destruct (new_dec_rf dbg live c 2 1 3 0 LC) as [D [ED _]].
    assert (N2 : ~ (order | 2)) by (intros X; apply Z.divide_pos_le in X; [revert X; vm_compute; intros X; apply X; reflexivity|lia]).
    destruct (wanted dbg live c c2 2 1 3 0 D LC LC2 ED (receiver c2 D) 1 4 eq_refl (or_intror eq_refl)) as [R' [pk [E [_ [EV EO]]]]].
    destruct (opened dbg live c 2 1 3 0 D LC ED N2 8) as [pk' [E' EV']]. cbn [Z.eqb] in EV.
    change (4 * (2 * 1)) with 8 in EV. change (4 * (3 * (2 * 1))) with 24 in EV. change (8 * 1) with 8 in EV'. change (8 * (3 * 1)) with 24 in EV'.
    pose proof (quotient 2 N2 4) as Q. assert (T8 : times 2 4 = 8) by (vm_compute; reflexivity). rewrite T8 in Q.
    exists D. eexists. split; [exact ED|]. split; [exact N2|]. split; [cbn [received]; rewrite E; cbn [bind fst snd]; reflexivity|]. split.
    - cbn [extracted]. rewrite E'. cbn [bind Z.eqb]. rewrite Q, EV, EV', EO. reflexivity.
    - cbn [app map fst]. rewrite EV. reflexivity.
  Qed.
End Send.
