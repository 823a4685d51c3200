(** Vocabulary for the reductions to the decisional Diffie-Hellman problem: many public keys on one string. *)
From Coq Require Import ZArith Bool List.
From Verif Require Import Outcome FieldModel CurveParams EccModel SpecEcc ECOrder DmeModel SpecDme OtModel AesModel OpprfModel SpecCount SpecDdh.
Import ListNotations.
Open Scope Z_scope.

(** n pairs of draws beside a coin *)
Definition and_pairs {T} (n : nat) (coin : T -> Prop) : T * list (Z * Z) -> Prop :=
  fun '(t, ps) => coin t /\ length ps = n /\ Forall (fun p => draw (fst p) /\ draw (snd p)) ps.
Definition elts (pk : pkey) : elt * elt := (den CV (pg pk), den CV (ph pk)).

Section Games.
  Variables (dbg : bool) (live : Z -> bool).

  (** the public keys a receiver makes for a list of branches, each with its own draw *)
  Definition sent (D : dme) (bs rs : list Z) (pks : list pkey) : Prop :=
    length rs = length bs /\ Forall2 (fun br pk => exists R, selectMsg dbg live (otrecv_new D) (fst br) (snd br) = Ok (R, pk)) (combine bs rs) pks.
  (** A judges the string and all the keys; the string is that of DME_DDH(), or that of DME_DDH(messy) *)
  Definition keys_guess (c : Z) (bs : list Z) {T} (coin : T -> Prop) (A : T -> elt -> elt -> elt -> elt -> list (elt * elt) -> bool) (N : Z) : Prop :=
    how_many (fun '(t, r1, r2, r3, r4, rs) => coin t /\ draw r1 /\ draw r2 /\ draw r3 /\ draw r4 /\ Forall draw rs /\
      exists D pks, dme_new_random dbg live c r1 r2 r3 r4 = Ok D /\ sent D bs rs pks /\
        on_crs (dcrs D) (fun a0 a1 b0 b1 => A t a0 a1 b0 b1 (map elts pks)) = true) N.
  Definition keys_guess_messy (c : Z) (bs : list Z) {T} (coin : T -> Prop) (A : T -> elt -> elt -> elt -> elt -> list (elt * elt) -> bool) (N : Z) : Prop :=
    how_many (fun '(t, r1, r2, r3, r4, rs) => coin t /\ draw r1 /\ draw r2 /\ draw r3 /\ draw r4 /\ Forall draw rs /\
      exists D pks, dme_new dbg live c messy r1 r2 r3 r4 = Ok D /\ sent D bs rs pks /\
        on_crs (dcrs D) (fun a0 a1 b0 b1 => A t a0 a1 b0 b1 (map elts pks)) = true) N.

  (** A turned into distinguishers that draw w, x, y and a pair for each key. One half of the string comes from w and
      the first element, the other from x and y. A key on the half of the elements is made of all three elements and of
      its pair; *)
  Definition blend (w : Z) (p : Z * Z) (X Y Z : elt) : elt * elt :=
    (gmul CV w (gadd CV (gmul CV (fst p) Y) (pow (snd p))), gmul CV w (gadd CV (gmul CV (fst p) Z) (gmul CV (snd p) X))).
  (** a key on the other half is an honest one for the first distinguisher, and two random elements for the second *)
  Definition first_keys {T} (other : Z -> Z -> Z) (bs : list Z) (A : T -> elt -> elt -> elt -> elt -> list (elt * elt) -> bool)
      (t : T * Z * Z * Z * list (Z * Z)) (X Y Z : elt) : bool :=
    let '(t, w, x, y, ps) := t in
    A t (pow w) (pow x) (gmul CV w X) (pow (other x y))
      (map (fun bp => if fst bp =? 0 then blend w (snd bp) X Y Z else (pow (fst (snd bp) * x), pow (fst (snd bp) * other x y))) (combine bs ps)).
  Definition second_keys {T} (other : Z -> Z -> Z) (bs : list Z) (A : T -> elt -> elt -> elt -> elt -> list (elt * elt) -> bool)
      (t : T * Z * Z * Z * list (Z * Z)) (X Y Z : elt) : bool :=
    let '(t, w, x, y, ps) := t in
    A t (pow x) (pow w) (pow (other x y)) (gmul CV w X)
      (map (fun bp => if fst bp =? 0 then (pow (fst (snd bp)), pow (snd (snd bp))) else blend w (snd bp) X Y Z) (combine bs ps)).

  (** ** The client of the OPPRF: the keys it sends in the given rounds *)
  Fixpoint asks (C : client) (l : list (Z * Z)) : res (list pkey) :=
    match l with
    | [] => Ok []
    | (round, d) :: l' => do r <- runOTRound_start dbg live C round d; do pks <- asks (fst r) l'; Ok (snd r :: pks)
    end.
  (** the same client when it gets answers in between *)
  Fixpoint talks (e : env) (iv : list Z) (C : client) (l : list (Z * Z * otctxts)) : res (list pkey) :=
    match l with
    | [] => Ok []
    | (round, d, c) :: l' =>
        do r <- runOTRound_start dbg live C round d; do C' <- runOTRound_end dbg live e iv (fst r) round c;
        do pks <- talks e iv C' l'; Ok (snd r :: pks)
    end.
  (** the server judges the string and the keys of all rounds of a client with message x, which has its own curve object *)
  Definition client_guess (c c' x : Z) {T} (coin : T -> Prop) (A : T -> elt -> elt -> elt -> elt -> list (elt * elt) -> bool) (N : Z) : Prop :=
    how_many (fun '(t, r1, r2, r3, r4, rs) => coin t /\ draw r1 /\ draw r2 /\ draw r3 /\ draw r4 /\ Forall draw rs /\ length rs = MSG_BITS /\
      exists D pks, dme_new_random dbg live c r1 r2 r3 r4 = Ok D /\
        asks (setMessage (client_new c' (dcrs D)) x) (combine rounds rs) = Ok pks /\
        on_crs (dcrs D) (fun a0 a1 b0 b1 => A t a0 a1 b0 b1 (map elts pks)) = true) N.
End Games.
(** the branches of its rounds: the bits of x, the highest first *)
Definition bits_of (x : Z) : list Z := map (fun i => Z.b2z (Z.testbit x (Z.of_nat i))) (rev (seq 0 MSG_BITS)).
