(** Properties C20-C25, C64 and C65: Shamir secret sharing (src/shamirss). *)
From Coq Require Import ZArith Bool List Lia.
From Verif Require Import Outcome FieldModel SpecField ShamirModel SpecShamir ShamirProofs ShamirProofs2.
Import ListNotations.
Open Scope Z_scope.

(** C20: any selection of at least t distinct shares, in any order, reconstructs the secret. *)
Theorem C20_reconstruct : forall dbg cap rnd t n secret shares sel,
  1 <= t <= n -> n < 2 ^ 64 -> rand_range rnd -> scalar secret ->
  getShares dbg cap rnd t n secret = Ok shares ->
  NoDup sel -> incl sel shares -> t <= Z.of_nat (length sel) ->
  reconSecret dbg sel = Ok secret.
Proof. exact L_C20. Qed.
Print Assumptions C20_reconstruct.

(** 3-of-5 sharing of 1234 with draws 65 and 93 (coefficients 66, 94), reconstructed from shares 4, 1, 3 *)
Example C20_case : let s := mkfe 1234 FIELD in
  exists a b c d e,
    getShares true 100 (fun i => match i with O => 65 | _ => 93 end) 3 5 s = Ok [a; b; c; d; e] /\
    sval b = mkfe (1234 + 66 * 2 + 94 * 4) FIELD /\ NoDup [d; a; c] /\ reconSecret true [d; a; c] = Ok s.
Proof.
  cbv zeta. do 5 eexists. split; [vm_compute; reflexivity|]. split; [vm_compute; reflexivity|].
  split; [repeat constructor; cbn; intuition discriminate|]. vm_compute. reflexivity.
Qed.

(** C21: reconstruction is the value at 0 of the unique polynomial with as many coefficients as shares
    that passes through the shares. *)
Theorem C21_interpolation : forall dbg shares, Forall sh_ok shares -> NoDup (map sidx shares) ->
  exists cs, (length cs = length shares /\ Forall residue cs /\ Forall (on_poly cs) shares) /\
    (forall cs', length cs' = length shares -> Forall residue cs' -> Forall (on_poly cs') shares -> cs' = cs) /\
    reconSecret dbg shares = Ok (fe_new FIELD (poly_at cs 0)).
Proof. exact L_C21. Qed.
Print Assumptions C21_interpolation.

Theorem C21_empty : forall dbg, reconSecret dbg [] = Ok (mkfe 0 FIELD).
Proof. exact L_C21_empty. Qed.
Print Assumptions C21_empty.

Example C21_case : let s := mkshare (mkfe 2 FIELD) (mkfe 11 FIELD) in let s' := mkshare (mkfe 7 FIELD) (mkfe 26 FIELD) in
  on_poly [5; 3] s /\ on_poly [5; 3] s' /\ reconSecret false [s'; s] = Ok (mkfe 5 FIELD).
Proof.
  cbv zeta. split; [exists 0; reflexivity|]. split; [exists 0; reflexivity|]. vm_compute. reflexivity.
Qed.

(** C22: a repeated index makes the library use the inverse of zero. *)
Theorem C22_repeated_index : forall dbg l1 s1 l2 s2 l3,
  Forall sh_ok (l1 ++ s1 :: l2 ++ s2 :: l3) -> sidx s1 = sidx s2 ->
  reconSecret dbg (l1 ++ s1 :: l2 ++ s2 :: l3) = Err NoInverse.
Proof. exact L_C22. Qed.
Print Assumptions C22_repeated_index.

Example C22_case : let s i v := mkshare (mkfe i FIELD) (mkfe v FIELD) in
  reconSecret false [s 1 5; s 2 6; s 3 7; s 2 6] = Err NoInverse.
Proof. vm_compute. reflexivity. Qed.

(** C23: m shares of a t-sharing leave at most 100^(t-m) candidate secrets; with m = t-1, at most 100. *)
Theorem C23_candidates : forall dbg t obs, (1 <= length obs)%nat -> Z.of_nat (length obs) <= t < 2 ^ 64 ->
  exists candidates, length candidates = (100 ^ (Z.to_nat t - length obs))%nat /\
    forall cap rnd n secret shares, n < 2 ^ 64 -> rand_range rnd -> scalar secret ->
      getShares dbg cap rnd t n secret = Ok shares -> NoDup obs -> incl obs shares -> In secret candidates.
Proof. exact L_C23. Qed.
Print Assumptions C23_candidates.

(** "one share of a 2-of-n sharing is compatible with every secret" is false: the share (1, 0) occurs in a sharing
    of 0 but in no sharing of 1. *)
Theorem C23_secrecy_refuted : let s := mkshare (mkfe 1 FIELD) (mkfe 0 FIELD) in
  (exists rnd shares, no_overflow rnd /\ getShares false 2 rnd 2 2 (mkfe 0 FIELD) = Ok shares /\ In s shares) /\
  (forall rnd shares, rand_range rnd -> getShares false 2 rnd 2 2 (mkfe 1 FIELD) = Ok shares -> ~ In s shares).
Proof. exact L_C23_refuted. Qed.
Print Assumptions C23_secrecy_refuted.

(** what secrecy would need: with coefficients from the whole field it does hold for evalPoly *)
Theorem C23_uniform_coefficients : forall dbg secret obs, scalar secret -> Forall sh_ok obs ->
  NoDup (map sidx obs) -> Forall (fun s => fval (sidx s) <> 0) obs ->
  exists cs, length cs = length obs /\ Forall scalar cs /\
    forall s, In s obs -> evalPoly dbg (sidx s) (secret :: cs) = Ok (sval s).
Proof. exact L_C23_uniform. Qed.
Print Assumptions C23_uniform_coefficients.

(** C24: shape of the result and the edge arguments. *)
Theorem C24_shape : forall dbg cap rnd t n secret,
  scalar secret -> 1 <= t < 2 ^ 64 -> t <= cap -> 0 <= n <= cap -> no_overflow rnd ->
  exists shares, getShares dbg cap rnd t n secret = Ok shares /\ Z.of_nat (length shares) = n /\
    forall k, 1 <= k <= n ->
      nth_error shares (Z.to_nat (k - 1)) =
      Some (mkshare (fe_new FIELD k)
             (fe_new FIELD (poly_at (fval secret :: map (fun i => (rnd i + 1) mod 100) (seq 0 (Z.to_nat (t - 1)))) k))).
Proof. exact L_C24_shape. Qed.
Print Assumptions C24_shape.

(** t = 0 behaves as t = 2^64: 2^64 - 1 drawn coefficients, which no vector can hold *)
Theorem C24_threshold_zero : forall dbg cap rnd n secret,
  getShares dbg cap rnd 0 n secret = getShares dbg cap rnd (2 ^ 64) n secret /\
  (cap < 2 ^ 64 -> getShares dbg cap rnd 0 n secret = Err Exhausted).
Proof. exact L_C24_zero. Qed.
Print Assumptions C24_threshold_zero.

Theorem C24_rand_overflow : forall dbg cap rnd t n secret i, 1 <= t < 2 ^ 64 -> t <= cap -> n <= cap ->
  0 <= i < t - 1 -> rnd (Z.to_nat i) = 2 ^ 31 - 1 -> getShares dbg cap rnd t n secret = Err SignedOverflow.
Proof. exact L_C24_overflow. Qed.
Print Assumptions C24_rand_overflow.

Example C24_case : getShares false 10 (fun _ => 98) 2 3 (mkfe 5 FIELD) =
  Ok [mkshare (mkfe 1 FIELD) (mkfe 104 FIELD); mkshare (mkfe 2 FIELD) (mkfe 203 FIELD); mkshare (mkfe 3 FIELD) (mkfe 302 FIELD)]
  /\ getShares false 10 (fun _ => 2 ^ 31 - 1) 2 3 (mkfe 5 FIELD) = Err SignedOverflow.
Proof. vm_compute. split; reflexivity. Qed.

(** C25: share-wise addition. *)
Theorem C25_additive : forall dbg cap1 cap2 rnd1 rnd2 t1 t2 n a b l1 l2,
  1 <= t1 < 2 ^ 64 -> 1 <= t2 < 2 ^ 64 -> n < 2 ^ 64 -> rand_range rnd1 -> rand_range rnd2 -> scalar a -> scalar b ->
  getShares dbg cap1 rnd1 t1 n a = Ok l1 -> getShares dbg cap2 rnd2 t2 n b = Ok l2 ->
  exists l, add_shares dbg l1 l2 = Ok l /\ length l = length l1 /\
    forall sel, NoDup sel -> incl sel l -> Z.max t1 t2 <= Z.of_nat (length sel) ->
      reconSecret dbg sel = Ok (fe_new FIELD (fval a + fval b)).
Proof. exact L_C25. Qed.
Print Assumptions C25_additive.

Example C25_case : (do l1 <- getShares true 10 (fun _ => 7) 2 3 (mkfe 40 FIELD);
  do l2 <- getShares true 10 (fun _ => 90) 2 3 (mkfe (FIELD - 1) FIELD);
  do l <- add_shares true l1 l2; reconSecret true (tl l)) = Ok (mkfe 39 FIELD).
Proof. vm_compute. reflexivity. Qed.

(** C64: whoever holds one share moves the result by any chosen amount [d]: the amount [c] to add to the share's value
    depends only on the indices, not on any value. *)
Theorem C64_steer : forall dbg xs1 x xs2 d, Forall scalar (xs1 ++ x :: xs2) -> NoDup (xs1 ++ x :: xs2) ->
  (forall y, In y (xs1 ++ xs2) -> fval y <> 0) ->
  exists c, forall l1 s l2 r, Forall sh_ok (l1 ++ s :: l2) -> map sidx l1 = xs1 -> sidx s = x -> map sidx l2 = xs2 ->
    reconSecret dbg (l1 ++ s :: l2) = Ok r ->
    reconSecret dbg (l1 ++ mkshare x (fe_new FIELD (fval (sval s) + c)) :: l2) = Ok (fe_new FIELD (fval r + d)).
Proof. exact L_C64. Qed.
Print Assumptions C64_steer.

(** Every change of one value changes the result. *)
Theorem C64_changes : forall dbg l1 s l2 v r, Forall sh_ok (l1 ++ s :: l2) -> NoDup (map sidx (l1 ++ s :: l2)) ->
  (forall y, In y (l1 ++ l2) -> fval (sidx y) <> 0) -> scalar v ->
  reconSecret dbg (l1 ++ s :: l2) = Ok r -> reconSecret dbg (l1 ++ mkshare (sidx s) v :: l2) = Ok r -> v = sval s.
Proof. exact L_C64_changes. Qed.
Print Assumptions C64_changes.

(** shares 1 and 2 of 1234 with coefficient 66: adding 5 to the first value adds 10 to the secret *)
Example C64_case : let s i v := mkshare (mkfe i FIELD) (mkfe v FIELD) in
  reconSecret true [s 1 1300; s 2 1366] = Ok (mkfe 1234 FIELD) /\ reconSecret true [s 1 1305; s 2 1366] = Ok (mkfe 1244 FIELD).
Proof. vm_compute. split; reflexivity. Qed.

(** C65: t-1 shares reconstruct the secret exactly when the last draw makes the leading coefficient vanish, which the
    coefficients drawn by getShares do for every hundredth value of rand(). *)
Theorem C65_one_short : forall dbg cap rnd t n secret shares sel,
  2 <= t < 2 ^ 64 -> n < 2 ^ 64 -> rand_range rnd -> scalar secret ->
  getShares dbg cap rnd t n secret = Ok shares ->
  NoDup sel -> incl sel shares -> Z.of_nat (length sel) = t - 1 ->
  (reconSecret dbg sel = Ok secret <-> (rnd (Z.to_nat (t - 2)) + 1) mod 100 = 0).
Proof. exact L_C65. Qed.
Print Assumptions C65_one_short.

(** a 3-of-4 sharing that two shares open, and one that they do not *)
Example C65_case : let open r := do l <- getShares false 10 (fun i => match i with O => 65 | _ => r end) 3 4 (mkfe 1234 FIELD);
    reconSecret false (skipn 2 l) in
  open 199 = Ok (mkfe 1234 FIELD) /\ open 200 <> Ok (mkfe 1234 FIELD).
Proof. vm_compute. split; [reflexivity|discriminate]. Qed.
