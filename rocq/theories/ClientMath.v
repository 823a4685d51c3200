(** Counting along rounds: equal views and a last draw that makes up for all differences. *)
From Coq Require Import ZArith Znumtheory Bool List Lia.
From Verif Require Import CurveParams SpecEcc DmeModel SpecDme SpecDdh SpecCount CountMath DdhProofs CheatProofs IdealProofs.
Import ListNotations.
Open Scope Z_scope.

Section Views.
  Context {W Rp R : Type}.
  Variables (ok : W -> Prop) (nW : Z) (o : W -> Z) (dr : Z).
  Hypothesis HW : how_many ok nW.

  Fixpoint views (V : nat -> list Rp -> W -> Rp) (n : nat) (h : list Rp) (ws : list W) : list Rp :=
    match n, ws with
    | Datatypes.S m, w :: ws' => views V m (h ++ [V m h w]) ws'
    | _, _ => h
    end.
  Definition tot (ws : list W) : Z := fold_right (fun w z => o w + z) 0 ws.
  Definition goes (V : nat -> list Rp -> W -> Rp) (Q : list Rp -> Z -> R -> Prop) (n : nat) (h : list Rp) (s : Z) (x : (list W * Z) * R) : Prop :=
    (length (fst (fst x)) = n /\ Forall ok (fst (fst x)) /\ draw (snd (fst x))) /\ Q (views V n h (fst (fst x))) (snd (fst x) - dr * (s + tot (fst (fst x)))) (snd x).

  Lemma add_head V Q n h s N :
    how_many (fun y : W * ((list W * Z) * R) => ok (fst y) /\ goes V Q n (h ++ [V n h (fst y)]) (s + o (fst y)) (snd y)) N -> how_many (goes V Q (Datatypes.S n) h s) N.
  Proof.
    intros H. refine (how_many_map (fun y => ((fst y :: fst (fst (snd y)), snd (fst (snd y))), snd (snd y))) _ _ _ H _ _).
    - intros [w [[ws k] r]] [w' [[ws' k'] r']] _ _ E. cbn [fst snd] in E. congruence.
    - intros [[ws k] r]. unfold goes. cbn [fst snd]. split.
      + intros [[L [F D]] X]. destruct ws as [|w ws]; [discriminate L|]. exists (w, ((ws, k), r)). cbn [fst snd]. split; [|reflexivity]. cbn [length] in L.
        split; [exact (Forall_inv F)|]. split; [split; [lia|split; [exact (Forall_inv_tail F)|exact D]]|].
        cbn [views tot fold_right] in X. fold (tot ws) in X. rewrite Z.add_assoc in X. exact X.
      + intros [[w [[ws' k'] r']] [[Q1 [[L [F D]] X]] E]]. cbn [fst snd] in Q1, L, F, D, X, E.
        assert (ws = w :: ws' /\ k = k' /\ r = r') as [-> [-> ->]] by (split; [congruence|split; congruence]). split; [split; [cbn [length]; lia|split; [constructor; assumption|exact D]]|].
        cbn [views tot fold_right]. fold (tot ws'). rewrite Z.add_assoc. exact X.
  Qed.
  Lemma no_rounds V Q h s N : how_many (fun y : Z * R => draw (fst y) /\ Q h (fst y - dr * s) (snd y)) N -> how_many (goes V Q 0 h s) N.
  Proof.
    intros H. refine (how_many_map (fun y => (([], fst y), snd y)) _ _ _ H _ _).
    - intros [k r] [k' r'] _ _ E. cbn [fst snd] in E. congruence.
    - intros [[ws k] r]. unfold goes. cbn [fst snd]. split.
      + intros [[L [F D]] X]. destruct ws as [|w ws]; [|discriminate L]. exists (k, r). cbn [fst snd]. split; [|reflexivity].
        cbn [views tot fold_right] in X. rewrite Z.add_0_r in X. split; assumption.
      + intros [[k' r'] [[D X] E]]. cbn [fst snd] in D, X, E. assert (ws = [] /\ k = k' /\ r = r') as [-> [-> ->]] by (split; [congruence|split; congruence]).
        split; [split; [reflexivity|split; [constructor|exact D]]|]. cbn [views tot fold_right]. rewrite Z.add_0_r. exact X.
  Qed.

  Variables (V V' : nat -> list Rp -> W -> Rp) (Q Q' : list Rp -> Z -> R -> Prop).
  Variable (top : nat).
  Hypothesis SW : forall j h, (j < top)%nat -> exists f g, (forall w, ok w -> ok (f w) /\ g (f w) = w) /\ (forall w, ok w -> ok (g w) /\ f (g w) = w) /\ forall w, ok w -> V' j h (f w) = V j h w.
  Hypothesis HQ : forall h z z', (order | z - z') -> exists N, how_many (Q h z) N /\ how_many (Q' h z') N.

  Lemma alike_counts : forall n h s s', (n <= top)%nat -> exists N, how_many (goes V Q n h s) N /\ how_many (goes V' Q' n h s') N.
  Proof.
    induction n as [|n IH]; intros h s s' T.
    - set (p := dr * (s' - s)).
      destruct (along (moved p) (moved (- p)) draw order (fun k r => Q h (k - dr * s) r) (fun k r => Q' h (k - dr * s') r) draws) as [N [C1 C2]].
      + intros k D. split; [apply moved_draw|apply moved_back, D].
      + intros k D. split; [apply moved_draw|apply moved_forth, D].
      + intros k D. apply HQ. unfold moved. pose proof (Z.div_mod (k + p) order ltac:(pose proof order_pos; lia)) as E. exists ((k + p) / order).
        replace ((k + p) mod order) with (k + p - order * ((k + p) / order)) by lia. unfold p. ring.
      + exists N. split; apply no_rounds; assumption.
    - destruct (SW n h ltac:(lia)) as [f [g [F [G X]]]].
      destruct (along f g ok nW (fun w r => goes V Q n (h ++ [V n h w]) (s + o w) r) (fun w r => goes V' Q' n (h ++ [V' n h w]) (s' + o w) r) HW F G) as [N [C1 C2]].
      + intros w K. rewrite (X w K). apply IH. lia.
      + exists N. split; apply add_head; assumption.
  Qed.
End Views.
