(** Properties C73-C77: the test programs (testsuit/*.cpp) against the library, for all values they draw at random.
    A program returns 0 when all its tests pass. *)
From Coq Require Import ZArith Znumtheory Bool List Lia.
From Verif Require Import Outcome CurveParams EccModel SpecEcc ShamirModel SpecShamir DmeModel PudaModel CrcModel SpecCrc AesModel SpecAes
  OtModel SpecOt OpprfModel SpecOpprf OpprfCase Prop_Aes TestModel SpecTest TestProofs TestProofs2 TestProofs3.
Import ListNotations.
Open Scope Z_scope.

(** C73. The field tests pass, with and without asserts; they draw nothing. *)
Theorem C73_fields : forall dbg, main_fields dbg = Ok 0.
Proof. exact L_main_fields. Qed.
Print Assumptions C73_fields.

(** The point tests pass, except when one of the two random points is the point at infinity: then the program faults. *)
Theorem C73_points : forall dbg live c, live c = true -> forall r1 r2,
  (~ (c_order secp256r1 | r1) -> ~ (c_order secp256r1 | r2) -> main_ecc dbg live c r1 r2 = Ok 0) /\
  ((c_order secp256r1 | r1) \/ (c_order secp256r1 | r2) -> main_ecc dbg live c r1 r2 = Err NullDeref).
Proof. exact L_main_ecc. Qed.
Print Assumptions C73_points.

Example C73_case : main_ecc true all_alive 3 5 7 = Ok 0 /\ main_ecc true all_alive 3 5 0 = Err NullDeref.
Proof.
  split.
  - apply (C73_points true all_alive 3 eq_refl 5 7); intros D; apply Z.divide_pos_le in D; vm_compute in D; try reflexivity; apply D; reflexivity.
  - apply (C73_points true all_alive 3 eq_refl 5 0). right. exists 0. reflexivity.
Qed.

(** C74. Secret sharing: seven of ten. The program passes unless one of the six coefficients is drawn as RAND_MAX,
    when adding one to it overflows. *)
Theorem C74_shamir : forall dbg cap rnd, 10 <= cap -> rand_range rnd ->
  ((forall i, (i < 6)%nat -> rnd i <> 2 ^ 31 - 1) -> main_shamirss dbg cap rnd = Ok 0) /\
  ((exists i, (i < 6)%nat /\ rnd i = 2 ^ 31 - 1) -> main_shamirss dbg cap rnd = Err SignedOverflow).
Proof. exact L_main_shamirss. Qed.
Print Assumptions C74_shamir.

(** Aggregation of ten users passes whatever is drawn, the point at infinity included. *)
Theorem C74_puda : forall dbg live c1 c2 rh ra d, live c1 = true -> live c2 = true -> main_puda dbg live c1 c2 rh ra d = Ok 0.
Proof. exact L_main_puda. Qed.
Print Assumptions C74_puda.

Example C74_case : main_shamirss true 10 (fun i => Z.of_nat i) = Ok 0 /\
  main_shamirss true 10 (fun _ => 2 ^ 31 - 1) = Err SignedOverflow /\
  main_puda true all_alive 3 4 0 0 (fun _ => (0, 0)) = Ok 0.
Proof.
  split; [vm_compute; reflexivity|]. split; [vm_compute; reflexivity|]. apply C74_puda; reflexivity.
Qed.

(** C75. The CRC test passes for every number but 0, if the allocator rounds the size up by four bytes ... *)
Theorem C75_crc : forall room p1 p2 a, 0 <= a -> nbytes a + 4 < 2 ^ 64 ->
  main_crc false room p1 p2 a =
  if a =? 0 then Err NullDeref else if room (nbytes a) <? nbytes a + 4 then Err OutOfBounds else Ok 0.
Proof. exact L_main_crc. Qed.
Print Assumptions C75_crc.

(** ... with glibc, unless the number is longer than 20 bytes and its length is 5, 6, 7 or 8 modulo 16 ... *)
Theorem C75_crc_glibc : forall p1 p2 a, 0 < a -> nbytes a + 4 < 2 ^ 64 ->
  main_crc false glibc p1 p2 a =
  (if (20 <? nbytes a) && (5 <=? nbytes a mod 16) && (nbytes a mod 16 <=? 8) then Err OutOfBounds else Ok 0).
Proof. exact L_main_crc_glibc. Qed.
Print Assumptions C75_crc_glibc.

(** ... but on a big-endian host only if the four bytes of the CRC are a palindrome. *)
Theorem C75_crc_big_endian : forall room p1 p2 a, 0 < a -> nbytes a < 2 ^ 32 -> nbytes a + 4 <= room (nbytes a) ->
  forall c0 c1 c2 c3, Forall byte [c0; c1; c2; c3] -> crc 0 (getRawMpz a) = little_endian [c0; c1; c2; c3] ->
  main_crc true room p1 p2 a = Ok (if (c0 =? c3) && (c1 =? c2) then 0 else -1).
Proof. exact L_main_crc_big. Qed.
Print Assumptions C75_crc_big_endian.

(** The AES test passes exactly when the number is not 0, there is room for the check, the key has sixteen bytes, and the
    leading byte of the number differs from the first byte of the key stream. *)
Theorem C75_aes : forall e key m, block_cipher (block e) -> big_endian_host e = false -> 0 <= m < 2 ^ 128 ->
  main_aes e key m = Ok 0 <->
  0 < m /\ nbytes m + 4 <= room e (nbytes m) /\
  exists v k, iv_block e [] = Ok v /\ leading16 (getRawMpz key) k /\
    Z.lxor (m / 256 ^ (nbytes m - 1)) (stream_byte (block e) k v 0) <> 0.
Proof. exact L_main_aes. Qed.
Print Assumptions C75_aes.

(** a key that is too short, and a pair that passes *)
Example C75_case : main_crc false glibc 16 32 (2 ^ 160) = Err OutOfBounds /\ main_crc false glibc 16 32 (2 ^ 1023 + 5) = Ok 0 /\
  main_aes small 5 9 = Err OutOfBounds /\ main_aes small akey (5 * 256 ^ 15 + 99) = Ok 0.
Proof.
  assert (A : forall n, 0 < n -> nbytes n <= 200 -> nbytes n + 4 < 2 ^ 64) by (intros; lia).
  split; [rewrite C75_crc_glibc by (apply A || idtac; vm_compute; try reflexivity; discriminate); vm_compute; reflexivity|].
  split; [rewrite C75_crc_glibc by (apply A || idtac; vm_compute; try reflexivity; discriminate); vm_compute; reflexivity|].
  split; vm_compute; reflexivity.
Qed.

(** C76. The test of the dual-mode encryption passes if no point at infinity comes up where a curve is needed, the keys of
    one branch do not open the other, and the number drawn survives its encoding; with asserts this is also necessary. *)
Theorem C76_dme : forall dbg live cm cd cc d, live cm = true -> live cd = true -> live cc = true ->
  nz (m1 d) -> nz (m2 d) -> nz (m3 d) -> nz (m4 d) ->
  (dme_good dbg live cc d -> main_dme dbg live cm cd cc d = Ok 0) /\
  (dbg = true -> main_dme dbg live cm cd cc d = Ok 0 -> dme_good dbg live cc d).
Proof. exact L_main_dme. Qed.
Print Assumptions C76_dme.

(** The same for the oblivious transfers, with one sender and with three. *)
Theorem C76_ot : forall dbg live cd c1 c2 cr ca cb cc d, live cd = true -> live c1 = true -> live c2 = true -> live cr = true ->
  live ca = true -> live cb = true -> live cc = true ->
  nz (p1 d) -> nz (p2 d) -> nz (p3 d) -> nz (p4 d) ->
  (ot_good dbg live c2 d -> main_ot dbg live cd c1 c2 cr ca cb cc d = Ok 0) /\
  (dbg = true -> main_ot dbg live cd c1 c2 cr ca cb cc d = Ok 0 -> ot_good dbg live c2 d).
Proof. exact L_main_ot. Qed.
Print Assumptions C76_ot.

(** draws that pass, and draws that do not: a message that cancels what hides it *)
Definition td1 : test_draws := mktd 1 1 1 1 1 1.
Definition dd1 : dme_draws := mkdd 2 3 1 1 2 1 1 (fun _ => td1) 1 1 (fun _ => td1) td1 (fun _ => td1)
  (mked 1 1 1 1 1 1 1) (mktd 1 1 1 0 1 0).
Definition od1 (m : Z) : ot_draws := mkod 1 m 1 (mkq 1 1 1 1).
Definition op1 (m : Z) : ot_program := mkop 2 3 1 1 (od1 m) (od1 1) 1 (mkq 1 0 1 0) 1 (od1 1) (od1 1) (od1 1).
Ltac nz1 := unfold nz; apply DmeProofs.ndiv; split; vm_compute; reflexivity.
Example C76_case : main_dme true all_alive 3 4 5 dd1 = Ok 0 /\ main_ot true all_alive 3 4 5 6 7 8 9 (op1 1) = Ok 0 /\
  main_ot true all_alive 3 4 5 6 7 8 9 (op1 (-3)) <> Ok 0.
Proof.
  split; [|split].
  - apply C76_dme; try reflexivity; try nz1. constructor.
    + unfold four_good, decrypts, differs. repeat split; nz1.
    + nz1.
    + unfold four_good, decrypts, differs. repeat split; nz1.
    + nz1.
    + intros b [-> | ->]; split; nz1.
    + unfold four_good, decrypts, differs. repeat split; nz1.
    + split; nz1.
    + intros k n. split; [|split; [nz1|]].
      * apply (encodable_at _ 0 7458637083097299497008307407709094171506256799258774875297776656024367472861);
          [vm_compute; discriminate|lia|vm_compute; reflexivity|vm_compute; reflexivity].
      * intros P l E M. change (hidden (messy_log dd1) 1 (t_key n) (t_s1 n) (t_t1 n)) with 1.
        apply (not_opposite true all_alive 5 (dme_new_crs 5 k) 1 P l eq_refl eq_refl); [|vm_compute; discriminate|exact E|exact M].
        apply (encodable_at _ 0 7458637083097299497008307407709094171506256799258774875297776656024367472861);
          [vm_compute; discriminate|lia|vm_compute; reflexivity|vm_compute; reflexivity].
  - apply C76_ot; try reflexivity; try nz1. constructor.
    + split; nz1.
    + split; nz1.
    + intros k w. split; [nz1|]. intros P l E M. change w with 1.
      apply (not_opposite true all_alive 5 (dme_new_crs 5 k) 19123 P l eq_refl eq_refl); [exact encodable_19123|vm_compute; discriminate|exact E|exact M].
    + split; nz1.
  - intros E. apply C76_ot in E; try reflexivity; try nz1. destruct E as [[_ F] _ _ _]. apply F. exists 0. reflexivity.
Qed.

(** C77. The test of the oblivious programmable PRF passes for all inputs, for all draws with which nothing degenerates. *)
Theorem C77_opprf : forall dbg live e ct cd cs cc d, live cs = true -> live cc = true -> aes_ready e (init iv_start) ->
  nz (a_draw d) -> nz (k1 d) -> nz (k2 d) -> nz (k3 d) -> nz (k4 d) -> (forall j, (j < 3)%nat -> 0 <= xs d j) ->
  opprf_good dbg live e cs d -> main_opprf dbg e live ct cd cs cc d = Ok 0.
Proof. exact L_main_opprf. Qed.
Print Assumptions C77_opprf.

(** all strings and keys from draws of 1, secret 3*G, three inputs *)
Definition opr1 : opprf_program := mkoprg 3 1 1 1 1 (fun j => 7004 * Z.of_nat j + 5) 1 (fun _ => case_draws) (fun _ => 1).
Example C77_case : main_opprf true small all_alive 3 4 5 6 opr1 = Ok 0.
Proof.
  apply C77_opprf; try reflexivity; try nz1.
  - exact case_aes.
  - intros j _. cbn [opr1 xs]. lia.
  - intros k D j [A [B [A' B']]] E J. apply (case_good true all_alive k D 5 1000); [exact E|reflexivity| |lia|].
    + intros b. unfold crs_g, crs_h. destruct (b =? 0); split; assumption.
    + pose proof (Z.mod_pos_bound (xs opr1 j) 1000). lia.
Qed.
