(** Vocabulary for reductions to the decisional Diffie-Hellman problem. Distinguishers are arbitrary functions of group
    elements and of a coin from a finite set; their success is counted over all coins and draws. *)
From Coq Require Import ZArith Bool List.
From Verif Require Import Outcome FieldModel CurveParams EccModel SpecEcc ECOrder DmeModel SpecDme OtModel ElgamalModel SpecCount.
Import ListNotations.
Open Scope Z_scope.

(** the group, and the multiples of its generator *)
Definition elt : Type := ept (c_prime CV).
Definition pow (k : Z) : elt := gmul CV k (ggen CV).

(** a coin and a draw *)
Definition and_draw {T} (coin : T -> Prop) : T * Z -> Prop := fun '(t, w) => coin t /\ draw w.

Section Ddh.
  Context {T : Type} (coin : T -> Prop) (D : T -> elt -> elt -> elt -> bool).
  (** how often D says yes to (a*G, b*G, ab*G) and to (a*G, b*G, c*G) *)
  Definition ddh_real (N : Z) : Prop :=
    how_many (fun '(t, a, b) => coin t /\ draw a /\ draw b /\ D t (pow a) (pow b) (pow (a * b)) = true) N.
  Definition ddh_random (N : Z) : Prop :=
    how_many (fun '(t, a, b, c) => coin t /\ draw a /\ draw b /\ draw c /\ D t (pow a) (pow b) (pow c) = true) N.
  (** the advantage of D, times the number of coins and the third power of the order *)
  Definition ddh_gap (g : Z) : Prop := exists R S, ddh_real R /\ ddh_random S /\ g = order * R - S.
End Ddh.

Section Games.
  Variables (dbg : bool) (live : Z -> bool).

  (** ** ElGamal encryption: the key pair is k, k*G; M chooses the message when it has seen the public key, and A
      judges public key and ciphertext *)
  Definition eg_guess (E : elgamal) {T} (coin : T -> Prop) (M : T -> elt -> point) (A : T -> elt -> elt -> elt -> bool) (N : Z) : Prop :=
    how_many (fun '(t, k, r) => coin t /\ draw k /\ draw r /\
      exists pk c, pmulz dbg live CV (egen E) k = Ok pk /\ eg_encrypt dbg live E pk (M t (den CV pk)) r = Ok c /\
        A t (den CV pk) (den CV (cu c)) (den CV (cmv c)) = true) N.
  (** the message is a random point *)
  Definition eg_guess_random (E : elgamal) {T} (coin : T -> Prop) (A : T -> elt -> elt -> elt -> bool) (N : Z) : Prop :=
    how_many (fun '(t, k, r, z) => coin t /\ draw k /\ draw r /\ draw z /\
      exists pk P c, pmulz dbg live CV (egen E) k = Ok pk /\ getRandomPoint dbg live CV (Some (eaddr E)) z = Ok P /\
        eg_encrypt dbg live E pk P r = Ok c /\ A t (den CV pk) (den CV (cu c)) (den CV (cmv c)) = true) N.
  (** A turned into a distinguisher: the message is added to the third element; and back *)
  Definition with_message {T} (M : T -> elt -> point) (A : T -> elt -> elt -> elt -> bool) (t : T) (X Y Z : elt) : bool :=
    A t X Y (gadd CV Z (den CV (M t X))).
  Definition less_message {T} (M : T -> elt -> point) (D : T -> elt -> elt -> elt -> bool) (t : T) (X Y W : elt) : bool :=
    D t X Y (gadd CV W (gneg CV (den CV (M t X)))).

  (** ** The common reference string: A judges g0, g1, h0, h1 *)
  Definition on_crs (k : crs_t) (A : elt -> elt -> elt -> elt -> bool) : bool :=
    A (den CV (g0 k)) (den CV (g1 k)) (den CV (h0 k)) (den CV (h1 k)).
  Definition messy_guess (c : Z) {T} (coin : T -> Prop) (A : T -> elt -> elt -> elt -> elt -> bool) (N : Z) : Prop :=
    how_many (fun '(t, r1, r2, r3, r4) => coin t /\ draw r1 /\ draw r2 /\ draw r3 /\ draw r4 /\
      exists D, dme_new dbg live c messy r1 r2 r3 r4 = Ok D /\ on_crs (dcrs D) (A t) = true) N.
  Definition dec_guess (c : Z) {T} (coin : T -> Prop) (A : T -> elt -> elt -> elt -> elt -> bool) (N : Z) : Prop :=
    how_many (fun '(t, r1, r2, r3) => coin t /\ draw r1 /\ draw r2 /\ draw r3 /\
      exists D, dme_new dbg live c dec r1 r2 r3 0 = Ok D /\ on_crs (dcrs D) (A t) = true) N.
  (** A turned into a distinguisher that draws w: all four elements are multiplied by w *)
  Definition blown {T} (A : T -> elt -> elt -> elt -> elt -> bool) (t : T * Z) (X Y Z : elt) : bool :=
    let '(t, w) := t in A t (pow w) (gmul CV w X) (gmul CV w Y) (gmul CV w Z).

  (** ** The receiver of an oblivious transfer: A judges the common reference string and the public key made by
      selectMsg for branch b *)
  Definition on_pk (k : pkey) (A : elt -> elt -> bool) : bool := A (den CV (pg k)) (den CV (ph k)).
  Definition selected (D : dme) (b r : Z) (A : elt -> elt -> elt -> elt -> elt -> elt -> bool) : Prop :=
    exists R pk, selectMsg dbg live (otrecv_new D) b r = Ok (R, pk) /\ on_crs (dcrs D) (fun a0 a1 b0 b1 => on_pk pk (A a0 a1 b0 b1)) = true.
  (** with the string of the constructor DME_DDH(), and with that of DME_DDH(messy) *)
  Definition branch_guess (c b : Z) {T} (coin : T -> Prop) (A : T -> elt -> elt -> elt -> elt -> elt -> elt -> bool) (N : Z) : Prop :=
    how_many (fun '(t, r1, r2, r3, r4, r) => coin t /\ draw r1 /\ draw r2 /\ draw r3 /\ draw r4 /\ draw r /\
      exists D, dme_new_random dbg live c r1 r2 r3 r4 = Ok D /\ selected D b r (A t)) N.
  Definition branch_guess_messy (c b : Z) {T} (coin : T -> Prop) (A : T -> elt -> elt -> elt -> elt -> elt -> elt -> bool) (N : Z) : Prop :=
    how_many (fun '(t, r1, r2, r3, r4, r) => coin t /\ draw r1 /\ draw r2 /\ draw r3 /\ draw r4 /\ draw r /\
      exists D, dme_new dbg live c messy r1 r2 r3 r4 = Ok D /\ selected D b r (A t)) N.
  (** A turned into a distinguisher that draws w, x and y: one half of the string comes from w and the first element, the
      other half from x and y, and the public key from the other two elements *)
  Definition first_half {T} (other : Z -> Z -> Z) (A : T -> elt -> elt -> elt -> elt -> elt -> elt -> bool) (t : T * Z * Z * Z) (X Y Z : elt) : bool :=
    let '(t, w, x, y) := t in A t (pow w) (pow x) (gmul CV w X) (pow (other x y)) (gmul CV w Y) (gmul CV w Z).
  Definition second_half {T} (other : Z -> Z -> Z) (A : T -> elt -> elt -> elt -> elt -> elt -> elt -> bool) (t : T * Z * Z * Z) (X Y Z : elt) : bool :=
    let '(t, w, x, y) := t in A t (pow x) (pow w) (pow (other x y)) (gmul CV w X) (gmul CV w Y) (gmul CV w Z).
End Games.
