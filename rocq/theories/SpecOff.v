(** Vocabulary for the statements about points which are not on the curve of the class. *)
From Coq Require Import ZArith Bool List.
From Verif Require Import Outcome FieldModel SpecField CurveParams EccModel SpecEcc DmeModel.
Import ListNotations.
Open Scope Z_scope.

(** the class whose curve has another constant term *)
Definition with_b (C : cparams) (b : Z) : cparams :=
  {| fieldp := fieldp C; fieldn := fieldn C; c_prime := c_prime C; c_a := c_a C; c_b := b; c_gx := c_gx C; c_gy := c_gy C;
     c_order := c_order C; c_cofactor := c_cofactor C |}.

(** a finite object with canonical coordinates and a curve which is alive; it may be on no curve *)
Definition placed (live : Z -> bool) (C : cparams) (P : point) : Prop :=
  pinf P = false /\ canon (fieldp C) (px P) /\ canon (fieldp C) (py P) /\ exists c, pcur P = Some c /\ live c = true.

(** the prime of the class divides *)
Definition vanishes (C : cparams) (z : Z) : Prop := (c_prime C | z).

(** y^2 = (x+1)^2 (x-2) = x^3 - 3 x - 2 crosses itself at (-1, 0) with the slopes w and -w, w^2 = -3; [u] is the quotient of
    y + w (x+1) and y - w (x+1), the two tangents there *)
Definition node (live : Z -> bool) (C : cparams) (w u : Z) (P : point) : Prop :=
  (P = pt_inf C /\ vanishes C (u - 1)) \/
  (let x := fval (px P) in let y := fval (py P) in
   placed live C P /\ vanishes C (y * y - (x + 1) * (x + 1) * (x - 2)) /\ ~ vanishes C (x + 1) /\
   vanishes C (u * (y - w * (x + 1)) - (y + w * (x + 1)))).

(** a non-zero square *)
Definition quadratic (C : cparams) (u : Z) : Prop := exists r, ~ vanishes C r /\ vanishes C (u - r * r).

(** a ciphertext of two points of the nodal curve, the second not infinite *)
Definition probing (live : Z -> bool) (C : cparams) (w u v : Z) (c : ctxt) : Prop :=
  quadratic C u /\ quadratic C v /\ node live C w u (cu c) /\ node live C w v (cmv c) /\ pinf (cmv c) = false.
(** whose second point, added to the coordinates (0, 0) of infinity, leaves the nodal curve *)
Definition generic (C : cparams) (c : ctxt) : Prop :=
  let x := fval (px (cmv c)) in ~ vanishes C x /\ ~ vanishes C (x * x * x + 3 * x + 2).
(** a finite object on neither curve *)
Definition stray (C : cparams) (P : point) : Prop :=
  let x := fval (px P) in let y := fval (py P) in
  pinf P = false /\ ~ vanishes C (y * y - (x + 1) * (x + 1) * (x - 2)).

(** the remainder of the key, found by decrypting with one small key after the other *)
Definition same (A B : res point) : bool :=
  match A, B with
  | Ok P, Ok Q => Bool.eqb (pinf P) (pinf Q) && (fval (px P) =? fval (px Q)) && (fval (py P) =? fval (py Q))
  | Err _, Err _ => true
  | _, _ => false
  end.
Fixpoint try_keys (answer : res point) (decrypt : Z -> res point) (k : Z) (fuel : nat) : option Z :=
  match fuel with
  | O => None
  | S f => if same answer (decrypt k) then Some k else try_keys answer decrypt (k + 1) f
  end.

(** nine ciphertexts for the curve object at address c; the first points have the orders written beside them *)
Definition probe (c x y : Z) : ctxt :=
  mkct (pt_z secp256r1 x y (Some c)) (pt_z secp256r1 6 14 (Some c)).
Definition probes (c : Z) : list (Z * ctxt) :=
  [ (3, probe c 3 4);
    (5, probe c 27701558438078714316108910040454259390882955380025707301513472798897572178304 14534457500157299815096359192045326974151075494915702844183044489921946953487);
    (17, probe c 113222765327340989416432197446003742533464989883167197803048710448078403783562 46130126065419265837227804439288898851514138488644550022663977786689769637959);
    (257, probe c 53255917129386610764524511426650972948213952784587583696525967193712177842462 111194383874000557337839748136979121908897434731018884257490021191169230057338);
    (641, probe c 21510014786470965508505594011008107256742616147412288649923013063910291966524 94328510991009203667139918073896602567780740785582217863049318069095744831427);
    (1531, probe c 54046057246267660172594291973253274967928363929599380862546079030518991211824 32438264508621201971618653266236303892282113856602658571975089579424897884710);
    (65537, probe c 51269018531111911987495763775221691136830391387407306094866994465411993899720 41628327110645436948584433444990050628798311020499768637387822034127442570188);
    (490463, probe c 28085277241749194340275807913850144311165724905256451942558720467837031007588 77537044094925729659500192416989414652056957829338267382115393948805097307011);
    (6700417, probe c 63911866910727724347347844943379793948945707096074762274449393779365832846933 8257564226930575480111946207276426375942199713078552766369673145955901175099) ].

(** y^2 = x^3 without its singular point *)
Definition cuspidal (live : Z -> bool) (C : cparams) (P : point) : Prop :=
  let x := fval (px P) in let y := fval (py P) in
  placed live C P /\ vanishes C (y * y - x * x * x) /\ ~ vanishes C y.
