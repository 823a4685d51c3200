(** Vocabulary for the reductions to the decisional Diffie-Hellman problem: someone who listens to oblivious transfers. *)
From Coq Require Import ZArith Bool List.
From Verif Require Import Outcome FieldModel CurveParams EccModel SpecEcc ECOrder DmeModel SpecDme OtModel SpecCount SpecDdh SpecDdh2 SpecDdh3.
Import ListNotations.
Open Scope Z_scope.

(** a conversation: the receiver sends a new key for branch b, or the sender sends a pair of ciphertexts under the last key *)
Inductive step := Key (b : Z) | Pair.
Definition key_first (l : list step) : Prop := match l with Key _ :: _ => True | _ => False end.
Definition good_steps (l : list step) : Prop := Forall (fun s => match s with Key b => branch b | Pair => True end) l.
(** how many draws a step takes *)
Definition need (s : step) : nat := match s with Key _ => 1 | Pair => 4 end.
Definition shaped (l : list step) (ds : list (list Z)) : Prop := Forall2 (fun s d => length d = need s /\ Forall draw d) l ds.
Definition needs (l : list step) : nat := list_sum (map need l).
Definition keys_in (l : list step) : nat := length (filter (fun s => match s with Key _ => true | Pair => false end) l).
(** what is heard: [(g, h)] for a key, [(u0, v0); (u1, v1)] for a pair of ciphertexts *)
Definition heard : Type := list (list (elt * elt)).
Definition four : Type := (elt * elt) * (elt * elt).

Section Games.
  Variables (dbg : bool) (live : Z -> bool).

  (** M chooses the next two messages when everything said before has been heard *)
  Fixpoint overheard (R : otrecv) (S : otsndr) (pk : pkey) (M : heard -> point * point) (seen : heard) (l : list step) (ds : list (list Z)) : res heard :=
    match l, ds with
    | [], _ => Ok seen
    | Key b :: l', [r] :: ds' => do x <- selectMsg dbg live R b r; overheard (fst x) S (snd x) M (seen ++ [[elts (snd x)]]) l' ds'
    | Pair :: l', [s0; t0; s1; t1] :: ds' =>
        do x <- encMsgs dbg live S pk (fst (M seen)) (snd (M seen)) s0 t0 s1 t1; overheard R (fst x) pk M (seen ++ [map view (snd x)]) l' ds'
    | _, _ => Err OutOfBounds
    end.
  (** the string is that of DME_DDH() on curve c; the receiver copies it to c1, the sender to c2 *)
  Definition crs_view (k : crs_t) : four := ((den CV (g0 k), den CV (g1 k)), (den CV (h0 k), den CV (h1 k))).
  Definition overheard_guess (c c1 c2 : Z) (l : list step) {T} (coin : T -> Prop) (M : T -> four -> heard -> point * point) (A : T -> four -> heard -> bool) (N : Z) : Prop :=
    how_many (fun '(t, r1, r2, r3, r4, ds) => coin t /\ draw r1 /\ draw r2 /\ draw r3 /\ draw r4 /\ shaped l ds /\
      exists D h, dme_new_random dbg live c r1 r2 r3 r4 = Ok D /\
        overheard (otrecv_new (dme_new_crs c1 (dcrs D))) (otsndr_new (dme_new_crs c2 (dcrs D))) pkey_default (M t (crs_view (dcrs D))) [] l ds = Ok h /\
        A t (crs_view (dcrs D)) h = true) N.

  (** the same when every pair of ciphertexts is replaced by four random elements *)
  Fixpoint silent (R : otrecv) (l : list step) (ds : list (list Z)) : res heard :=
    match l, ds with
    | [], _ => Ok []
    | Key b :: l', [r] :: ds' => do x <- selectMsg dbg live R b r; do h <- silent (fst x) l' ds'; Ok ([elts (snd x)] :: h)
    | Pair :: l', [i0; j0; i1; j1] :: ds' => do h <- silent R l' ds'; Ok ([(pow i0, pow j0); (pow i1, pow j1)] :: h)
    | _, _ => Err OutOfBounds
    end.
  Definition silent_guess (c c1 : Z) (l : list step) {T} (coin : T -> Prop) (A : T -> four -> heard -> bool) (N : Z) : Prop :=
    how_many (fun '(t, r1, r2, r3, r4, ds) => coin t /\ draw r1 /\ draw r2 /\ draw r3 /\ draw r4 /\ shaped l ds /\
      exists D h, dme_new_random dbg live c r1 r2 r3 r4 = Ok D /\ silent (otrecv_new (dme_new_crs c1 (dcrs D))) l ds = Ok h /\
        A t (crs_view (dcrs D)) h = true) N.

  (** M and A turned into a distinguisher that draws a string and, for each step, as many numbers as the step takes.
      Every key is the first element moved by its draw. Of a pair of ciphertexts, the one for the branch of the key is
      made of the three elements and two draws, the other is an encryption with the other two draws. *)
  Definition at_branch {A} (b : Z) (x y : A) : A := if b =? 0 then x else y.
  Fixpoint listened (w0 y0 w1 y1 : Z) (X Y W : elt) (M : heard -> point * point) (b q : Z) (seen : heard) (l : list step) (ds : list (list Z)) : heard :=
    let w := at_branch b w0 w1 in let y := at_branch b y0 y1 in let w' := at_branch b w1 w0 in let y' := at_branch b y1 y0 in
    match l, ds with
    | Key b :: l', [q] :: ds' =>
        let X' := gadd CV X (pow q) in
        listened w0 y0 w1 y1 X Y W M b q (seen ++ [[(gmul CV (at_branch b w0 w1) X', gmul CV (at_branch b y0 y1) X')]]) l' ds'
    | Pair :: l', [i; j; s; t] :: ds' =>
        let X' := gadd CV X (pow q) in
        let Y' := gadd CV (gmul CV i Y) (pow j) in
        let W' := gadd CV (gadd CV (gmul CV i W) (gmul CV j X)) (gmul CV q Y') in
        let m := at_branch b (fst (M seen)) (snd (M seen)) in let m' := at_branch b (snd (M seen)) (fst (M seen)) in
        let mine := (Y', gadd CV W' (den CV m)) in
        let other := (pow (s * w' + t * y'), gadd CV (gmul CV (s * w + t * y) X') (den CV m')) in
        listened w0 y0 w1 y1 X Y W M b q (seen ++ [at_branch b [mine; other] [other; mine]]) l' ds'
    | _, _ => seen
    end.
  Definition and_steps (l : list step) {T} (coin : T -> Prop) : T * list (list Z) -> Prop := fun '(t, ds) => coin t /\ shaped l ds.
  Definition with_string (l : list step) {T} (M : T -> four -> heard -> point * point) (A : T -> four -> heard -> bool)
      (t : T * Z * Z * Z * Z * list (list Z)) (X Y W : elt) : bool :=
    let '(t, w0, y0, w1, y1, ds) := t in let k := ((pow w0, pow w1), (pow y0, pow y1)) in
    A t k (listened w0 y0 w1 y1 X Y W (M t k) 0 0 [] l ds).
End Games.
