(** Property C126: which strings of DME_DDH(messy) and DME_DDH(dec) have a key other than that of two infinities that reveals both messages
    of a transfer (src/dme/dme.cpp:139-184; [double_string] is the one of C117, C122 says what it means for the oblivious PRF). *)
From Coq Require Import ZArith Bool List Lia.
From Verif Require Import Outcome FieldModel CurveParams EccModel SpecEcc DmeModel SpecDme OtModel SpecCount SpecDdh SpecDdh3 SpecCheat DoubleProofs.
Import ListNotations.
Open Scope Z_scope.

(** C126. In messy mode exactly those whose exponents agree although their points are finite, ... *)
Theorem C126_messy : forall dbg live c c2 r1 r2 r3 r4 D, live c = true -> live c2 = true -> dme_new dbg live c messy r1 r2 r3 r4 = Ok D ->
  (double_string dbg live (otsndr_new (dme_new_crs c2 (dcrs D))) <-> (order | r1 - r2) /\ ~ (order | r3) /\ ~ (order | r4)).
Proof. exact L_C126_messy. Qed.
Print Assumptions C126_messy.

(** ... in decryption mode all but those that degenerate. *)
Theorem C126_dec : forall dbg live c c2 r1 r2 r3 r4 D, live c = true -> live c2 = true -> dme_new dbg live c dec r1 r2 r3 r4 = Ok D ->
  (double_string dbg live (otsndr_new (dme_new_crs c2 (dcrs D))) <-> ~ (order | r1) /\ ~ (order | r2)).
Proof. exact L_C126_dec. Qed.
Print Assumptions C126_dec.

(** Both are n(n-1)^2 many: of n^4 in messy mode, of n^3 in decryption mode. *)
Theorem C126_count : forall dbg live c c2, live c = true -> live c2 = true ->
  how_many (fun '(r1, r2, r3, r4) => draw r1 /\ draw r2 /\ draw r3 /\ draw r4 /\
    exists D, dme_new dbg live c messy r1 r2 r3 r4 = Ok D /\ double_string dbg live (otsndr_new (dme_new_crs c2 (dcrs D)))) (order * (order - 1) ^ 2) /\
  forall r4, how_many (fun '(r1, r2, r3) => draw r1 /\ draw r2 /\ draw r3 /\
    exists D, dme_new dbg live c dec r1 r2 r3 r4 = Ok D /\ double_string dbg live (otsndr_new (dme_new_crs c2 (dcrs D)))) (order * (order - 1) ^ 2).
Proof. exact L_C126_count. Qed.
Print Assumptions C126_count.

(** two strings of each kind *)
Example C126_case : forall dbg live c c2, live c = true -> live c2 = true ->
  exists D1 D2 D3 D4, dme_new dbg live c messy 2 3 1 2 = Ok D1 /\ dme_new dbg live c messy 2 2 1 2 = Ok D2 /\ dme_new dbg live c dec 2 1 3 0 = Ok D3 /\ dme_new dbg live c dec 0 1 3 0 = Ok D4 /\
    ~ double_string dbg live (otsndr_new (dme_new_crs c2 (dcrs D1))) /\ double_string dbg live (otsndr_new (dme_new_crs c2 (dcrs D2))) /\
    double_string dbg live (otsndr_new (dme_new_crs c2 (dcrs D3))) /\ ~ double_string dbg live (otsndr_new (dme_new_crs c2 (dcrs D4))).
Proof. exact case126. Qed.
