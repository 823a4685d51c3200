(** AES-128: the outputs are 16 bytes, and every key gives a permutation of the blocks. *)
From Coq Require Import ZArith List Bool Lia Btauto.
From Verif Require Import SpecCrc AesModel SpecAes Aes128 SpecAes2.
Import ListNotations.
Open Scope Z_scope.

Definition all_bytes : list Z := map Z.of_nat (seq 0 256).
Lemma all_bytes_In x : byte x -> In x all_bytes.
Proof.
  intros [H0 H1]. unfold all_bytes. apply in_map_iff. exists (Z.to_nat x). split; [apply Z2Nat.id; exact H0|]. apply in_seq. lia.
Qed.
Lemma by_bytes (P : Z -> bool) : forallb P all_bytes = true -> forall x, byte x -> P x = true.
Proof. intros H x Hx. rewrite forallb_forall in H. apply H, all_bytes_In, Hx. Qed.

(** ** SubBytes *)
Definition inv_table : list Z :=
  Eval vm_compute in map (fun y => fold_right (fun x acc => if sbox x =? y then x else acc) 0 all_bytes) all_bytes.
Definition inv_sbox (a : Z) : Z := nth (Z.to_nat a) inv_table 0.
Definition byteb (x : Z) : bool := (0 <=? x) && (x <? 256).
Lemma byteb_spec x : byteb x = true <-> byte x.
Proof. unfold byteb, byte. rewrite andb_true_iff, Z.leb_le, Z.ltb_lt. reflexivity. Qed.
Lemma sbox_byte x : byte x -> byte (sbox x).
Proof. intros H. apply byteb_spec. revert x H. apply (by_bytes (fun x => byteb (sbox x))). vm_compute. reflexivity. Qed.
Lemma inv_sbox_byte x : byte x -> byte (inv_sbox x).
Proof. intros H. apply byteb_spec. revert x H. apply (by_bytes (fun x => byteb (inv_sbox x))). vm_compute. reflexivity. Qed.
Lemma inv_sbox_sbox x : byte x -> inv_sbox (sbox x) = x.
Proof. intros H. apply Z.eqb_eq. revert x H. apply (by_bytes (fun x => inv_sbox (sbox x) =? x)). vm_compute. reflexivity. Qed.
Lemma sbox_inv_sbox x : byte x -> sbox (inv_sbox x) = x.
Proof. intros H. apply Z.eqb_eq. revert x H. apply (by_bytes (fun x => sbox (inv_sbox x) =? x)). vm_compute. reflexivity. Qed.

Lemma map_16 (f : Z -> Z) s : (forall x, byte x -> byte (f x)) -> is16 s -> is16 (map f s).
Proof.
  intros Hf [L B]. split; [rewrite map_length; exact L|]. apply Forall_map. apply (Forall_impl _ Hf B).
Qed.
Lemma map_inv (f g : Z -> Z) s : (forall x, byte x -> g (f x) = x) -> Forall byte s -> map g (map f s) = s.
Proof.
  intros H B. rewrite map_map. induction B as [|x s Hx B IH]; [reflexivity|]. cbn [map]. rewrite H by exact Hx. rewrite IH. reflexivity.
Qed.

(** ** Sixteen explicit bytes *)
Lemma is16_shape (P : list Z -> Prop) :
  (forall a0 a1 a2 a3 a4 a5 a6 a7 a8 a9 a10 a11 a12 a13 a14 a15,
     Forall byte [a0; a1; a2; a3; a4; a5; a6; a7; a8; a9; a10; a11; a12; a13; a14; a15] ->
     P [a0; a1; a2; a3; a4; a5; a6; a7; a8; a9; a10; a11; a12; a13; a14; a15]) ->
  forall s, is16 s -> P s.
Proof.
  intros H s [L B]. do 16 (destruct s as [|? s]; [discriminate L|]). destruct s; [|discriminate L]. apply H, B.
Qed.

(** ** ShiftRows *)
Definition inv_shift_rows (s : list Z) : list Z :=
  map (fun i => nth (i mod 4 + 4 * ((i / 4 + 4 - i mod 4) mod 4)) s 0) (seq 0 16).
Lemma pick_16 (f : nat -> nat) s : (forall i, (f i < 16)%nat) -> is16 s -> is16 (map (fun i => nth (f i) s 0) (seq 0 16)).
Proof.
  intros Hf [L B]. split; [rewrite map_length, seq_length; reflexivity|].
  apply Forall_map, Forall_forall. intros i _. rewrite Forall_forall in B. apply B, nth_In. rewrite L. apply Hf.
Qed.
Lemma shift_16 s : is16 s -> is16 (shift_rows s).
Proof.
  apply pick_16. intros i. pose proof (Nat.mod_upper_bound i 4 ltac:(lia)).
  pose proof (Nat.mod_upper_bound (i / 4 + i mod 4) 4 ltac:(lia)). lia.
Qed.
Lemma inv_shift_16 s : is16 s -> is16 (inv_shift_rows s).
Proof.
  apply pick_16. intros i. pose proof (Nat.mod_upper_bound i 4 ltac:(lia)).
  pose proof (Nat.mod_upper_bound (i / 4 + 4 - i mod 4) 4 ltac:(lia)). lia.
Qed.
Lemma inv_shift_shift s : is16 s -> inv_shift_rows (shift_rows s) = s.
Proof. revert s. apply is16_shape. intros. reflexivity. Qed.
Lemma shift_inv_shift s : is16 s -> shift_rows (inv_shift_rows s) = s.
Proof. revert s. apply is16_shape. intros. reflexivity. Qed.

(** ** MixColumns *)
Lemma xtime_lxor a b : xtime (Z.lxor a b) = Z.lxor (xtime a) (xtime b).
Proof.
  unfold xtime. rewrite Z.lxor_spec, Z.shiftl_lxor.
  destruct (Z.testbit a 7), (Z.testbit b 7); cbn [xorb]; apply Z.bits_inj'; intros n _; rewrite !Z.lxor_spec, ?Z.bits_0; btauto.
Qed.
Lemma xtime_byte a : byte a -> byte (xtime a).
Proof. intros H. apply byteb_spec. revert a H. apply (by_bytes (fun x => byteb (xtime x))). vm_compute. reflexivity. Qed.
Lemma lxor_byte a b : byte a -> byte b -> byte (Z.lxor a b).
Proof.
  unfold byte. intros Ha Hb. assert (Z.lxor a b = Z.lxor a b mod 2 ^ 8).
  { rewrite <- Z.land_ones by lia. apply Z.bits_inj'. intros n Hn. rewrite Z.land_spec, Z.lxor_spec.
    destruct (Z.lt_ge_cases n 8) as [Hlt|Hge].
    - rewrite Z.ones_spec_low by lia. rewrite andb_true_r. reflexivity.
    - rewrite Z.ones_spec_high by lia. rewrite andb_false_r.
      rewrite <- (Z.mod_small a (2 ^ 8)), <- (Z.mod_small b (2 ^ 8)) by (change (2 ^ 8) with 256; lia).
      rewrite !Z.mod_pow2_bits_high by lia. reflexivity. }
  rewrite H. change (2 ^ 8) with 256. apply Z.mod_pos_bound. lia.
Qed.

Definition inv_mix_column (a b c d : Z) : list Z :=
  let x2 := xtime in let x4 x := xtime (xtime x) in let x8 x := xtime (xtime (xtime x)) in
  let x9 x := Z.lxor (x8 x) x in let x11 x := Z.lxor (x8 x) (Z.lxor (x2 x) x) in
  let x13 x := Z.lxor (x8 x) (Z.lxor (x4 x) x) in let x14 x := Z.lxor (x8 x) (Z.lxor (x4 x) (x2 x)) in
  [Z.lxor (Z.lxor (x14 a) (x11 b)) (Z.lxor (x13 c) (x9 d)); Z.lxor (Z.lxor (x9 a) (x14 b)) (Z.lxor (x11 c) (x13 d));
   Z.lxor (Z.lxor (x13 a) (x9 b)) (Z.lxor (x14 c) (x11 d)); Z.lxor (Z.lxor (x11 a) (x13 b)) (Z.lxor (x9 c) (x14 d))].
Fixpoint inv_mix_columns (s : list Z) : list Z :=
  match s with
  | a :: b :: c :: d :: s' => inv_mix_column a b c d ++ inv_mix_columns s'
  | _ => []
  end.
Ltac xor_eq := apply Z.bits_inj'; intros ? _; rewrite !Z.lxor_spec; btauto.
Lemma inv_mix_mix_column a b c d :
  match mix_column a b c d with [a'; b'; c'; d'] => inv_mix_column a' b' c' d' = [a; b; c; d] | _ => False end.
Proof.
  unfold mix_column, inv_mix_column. cbv zeta. rewrite !xtime_lxor.
  generalize (xtime (xtime (xtime (xtime a)))) (xtime (xtime (xtime (xtime b)))) (xtime (xtime (xtime (xtime c)))) (xtime (xtime (xtime (xtime d))))
    (xtime (xtime (xtime a))) (xtime (xtime (xtime b))) (xtime (xtime (xtime c))) (xtime (xtime (xtime d)))
    (xtime (xtime a)) (xtime (xtime b)) (xtime (xtime c)) (xtime (xtime d)) (xtime a) (xtime b) (xtime c) (xtime d). intros.
  repeat (apply f_equal2; [xor_eq|]). reflexivity.
Qed.
Lemma mix_inv_mix_column a b c d :
  match inv_mix_column a b c d with [a'; b'; c'; d'] => mix_column a' b' c' d' = [a; b; c; d] | _ => False end.
Proof.
  unfold mix_column, inv_mix_column. cbv zeta. rewrite !xtime_lxor.
  generalize (xtime (xtime (xtime (xtime a)))) (xtime (xtime (xtime (xtime b)))) (xtime (xtime (xtime (xtime c)))) (xtime (xtime (xtime (xtime d))))
    (xtime (xtime (xtime a))) (xtime (xtime (xtime b))) (xtime (xtime (xtime c))) (xtime (xtime (xtime d)))
    (xtime (xtime a)) (xtime (xtime b)) (xtime (xtime c)) (xtime (xtime d)) (xtime a) (xtime b) (xtime c) (xtime d). intros.
  repeat (apply f_equal2; [xor_eq|]). reflexivity.
Qed.
Ltac bytes := match goal with
  | |- byte (Z.lxor _ _) => apply lxor_byte; bytes
  | |- byte (xtime _) => apply xtime_byte; bytes
  | |- byte (sbox _) => apply sbox_byte; bytes
  | |- _ => assumption
  end.
Lemma mix_column_bytes a b c d : byte a -> byte b -> byte c -> byte d -> Forall byte (mix_column a b c d).
Proof.
  intros. unfold mix_column. cbv zeta. repeat (apply Forall_cons; [bytes|]). apply Forall_nil.
Qed.
Lemma inv_mix_column_bytes a b c d : byte a -> byte b -> byte c -> byte d -> Forall byte (inv_mix_column a b c d).
Proof.
  intros. unfold inv_mix_column. cbv zeta.
  repeat (apply Forall_cons; [bytes|]). apply Forall_nil.
Qed.
Lemma mix_16 s : is16 s -> is16 (mix_columns s).
Proof.
  revert s. apply is16_shape. intros a0 a1 a2 a3 a4 a5 a6 a7 a8 a9 a10 a11 a12 a13 a14 a15 B. split; [reflexivity|].
  repeat match goal with H : Forall byte (_ :: _) |- _ => inversion_clear H end.
  cbn [mix_columns]. repeat (apply Forall_app; split; [apply mix_column_bytes; assumption|]). apply Forall_nil.
Qed.
Lemma inv_mix_16 s : is16 s -> is16 (inv_mix_columns s).
Proof.
  revert s. apply is16_shape. intros a0 a1 a2 a3 a4 a5 a6 a7 a8 a9 a10 a11 a12 a13 a14 a15 B. split; [reflexivity|].
  repeat match goal with H : Forall byte (_ :: _) |- _ => inversion_clear H end.
  cbn [inv_mix_columns]. repeat (apply Forall_app; split; [apply inv_mix_column_bytes; assumption|]). apply Forall_nil.
Qed.
Lemma inv_mix_mix_app a b c d s : inv_mix_columns (mix_column a b c d ++ s) = [a; b; c; d] ++ inv_mix_columns s.
Proof.
  pose proof (inv_mix_mix_column a b c d) as H. unfold mix_column in *. cbv zeta in *. cbn [app inv_mix_columns]. rewrite H. reflexivity.
Qed.
Lemma mix_inv_mix_app a b c d s : mix_columns (inv_mix_column a b c d ++ s) = [a; b; c; d] ++ mix_columns s.
Proof.
  pose proof (mix_inv_mix_column a b c d) as H. unfold inv_mix_column in *. cbv zeta in *. cbn [app mix_columns]. rewrite H. reflexivity.
Qed.
Lemma inv_mix_mix s : is16 s -> inv_mix_columns (mix_columns s) = s.
Proof. revert s. apply is16_shape. intros. cbn [mix_columns]. rewrite !inv_mix_mix_app. reflexivity. Qed.
Lemma mix_inv_mix s : is16 s -> mix_columns (inv_mix_columns s) = s.
Proof. revert s. apply is16_shape. intros. cbn [inv_mix_columns]. rewrite !mix_inv_mix_app. reflexivity. Qed.

(** ** Round keys *)
Lemma xor_bytes_bytes : forall a b, Forall byte a -> Forall byte b -> Forall byte (xor_bytes a b).
Proof.
  induction a as [|x a IH]; intros b Ha Hb; [apply Forall_nil|]. destruct b as [|y b]; [apply Forall_nil|].
  inversion_clear Ha. inversion_clear Hb. cbn [xor_bytes]. apply Forall_cons; [apply lxor_byte; assumption|apply IH; assumption].
Qed.
Lemma xor_16 a b : is16 a -> is16 b -> is16 (xor_bytes a b).
Proof.
  intros [La Ba] [Lb Bb]. split; [|apply xor_bytes_bytes; assumption].
  clear Ba Bb. revert b Lb. revert La. generalize 16%nat. induction a as [|x a IH]; intros n La b Lb; cbn in La; subst n; destruct b as [|y b]; try discriminate; [reflexivity|].
  cbn [xor_bytes length]. f_equal. apply IH; [reflexivity|]. cbn in Lb. congruence.
Qed.
Lemma xor_back : forall a b, length a = length b -> xor_bytes (xor_bytes a b) b = a.
Proof.
  induction a as [|x a IH]; intros b L; destruct b as [|y b]; try discriminate; [reflexivity|].
  cbn [xor_bytes]. rewrite Z.lxor_assoc, Z.lxor_nilpotent, Z.lxor_0_r, IH by (cbn in L; congruence). reflexivity.
Qed.
Lemma xor_back_16 a b : is16 a -> is16 b -> xor_bytes (xor_bytes a b) b = a.
Proof. intros [La _] [Lb _]. apply xor_back. rewrite La, Lb. reflexivity. Qed.

Lemma next_16 r k : byte r -> is16 k -> is16 (next_key r k).
Proof.
  intros Hr. revert k. apply is16_shape. intros a0 a1 a2 a3 a4 a5 a6 a7 a8 a9 a10 a11 a12 a13 a14 a15 B. split; [reflexivity|].
  repeat match goal with H : Forall byte (_ :: _) |- _ => inversion_clear H end.
  unfold next_key. cbn [firstn skipn Nat.mul Nat.add xor_bytes app].
  repeat (apply Forall_cons; [bytes|]).
  apply Forall_nil.
Qed.

(** ** The cipher *)
Fixpoint inv_rounds (rcons : list Z) (k s : list Z) : list Z :=
  match rcons with
  | [] => s
  | r :: rcons' =>
      let k' := next_key r k in
      match rcons' with
      | [] => map inv_sbox (inv_shift_rows (xor_bytes s k'))
      | _ => map inv_sbox (inv_shift_rows (inv_mix_columns (xor_bytes (inv_rounds rcons' k' s) k')))
      end
  end.

Lemma rounds_16 rs : Forall byte rs -> forall k s, is16 k -> is16 s -> is16 (rounds rs k s) /\ is16 (inv_rounds rs k s).
Proof.
  induction 1 as [|r rs Hr Hrs IH]; intros k s Hk Hs; [split; exact Hs|].
  pose proof (next_16 r k Hr Hk) as Hk'.
  assert (Hsub : is16 (shift_rows (sub_bytes s))) by (apply shift_16, map_16; [apply sbox_byte|exact Hs]).
  cbn [rounds inv_rounds]. destruct rs as [|r' rs'].
  - split; [apply xor_16; assumption|]. apply map_16; [apply inv_sbox_byte|]. apply inv_shift_16, xor_16; assumption.
  - split.
    + apply IH; [exact Hk'|]. apply xor_16; [apply mix_16, Hsub|exact Hk'].
    + apply map_16; [apply inv_sbox_byte|]. apply inv_shift_16, inv_mix_16, xor_16; [|exact Hk']. apply IH; assumption.
Qed.

Lemma rounds_inv rs : Forall byte rs -> forall k s, is16 k -> is16 s ->
  inv_rounds rs k (rounds rs k s) = s /\ rounds rs k (inv_rounds rs k s) = s.
Proof.
  induction 1 as [|r rs Hr Hrs IH]; intros k s Hk Hs; [split; reflexivity|].
  pose proof (next_16 r k Hr Hk) as Hk'.
  assert (Hsb : is16 (sub_bytes s)) by (apply map_16; [apply sbox_byte|exact Hs]).
  assert (Hsub : is16 (shift_rows (sub_bytes s))) by (apply shift_16, Hsb).
  assert (Back : map inv_sbox (inv_shift_rows (shift_rows (sub_bytes s))) = s).
  { rewrite inv_shift_shift by exact Hsb. apply map_inv; [apply inv_sbox_sbox|apply Hs]. }
  assert (Forth : forall z, is16 z -> shift_rows (sub_bytes (map inv_sbox (inv_shift_rows z))) = z).
  { intros z Hz. unfold sub_bytes. rewrite map_inv; [apply shift_inv_shift, Hz|apply sbox_inv_sbox|]. apply (inv_shift_16 z Hz). }
  cbn [rounds inv_rounds]. destruct rs as [|r' rs'].
  - split.
    + rewrite xor_back_16 by assumption. exact Back.
    + rewrite Forth by (apply xor_16; assumption). apply xor_back_16; assumption.
  - split.
    + destruct (IH (next_key r k) (xor_bytes (mix_columns (shift_rows (sub_bytes s))) (next_key r k)) Hk') as [-> _].
      { apply xor_16; [apply mix_16, Hsub|exact Hk']. }
      rewrite xor_back_16 by (exact Hk' || apply mix_16, Hsub). rewrite inv_mix_mix by exact Hsub. exact Back.
    + destruct (rounds_16 (r' :: rs') Hrs (next_key r k) s Hk' Hs) as [_ H1].
      rewrite Forth by (apply inv_mix_16, xor_16; [exact H1|exact Hk']).
      rewrite mix_inv_mix by (apply xor_16; [exact H1|exact Hk']). rewrite xor_back_16 by assumption. apply (IH _ _ Hk' Hs).
Qed.

Lemma sixteen_16 l : is16 (sixteen l).
Proof.
  split; [reflexivity|]. unfold sixteen. apply Forall_map, Forall_forall. intros i _. apply Z.mod_pos_bound. lia.
Qed.
Lemma sixteen_id l : is16 l -> sixteen l = l.
Proof.
  revert l. apply is16_shape. intros a0 a1 a2 a3 a4 a5 a6 a7 a8 a9 a10 a11 a12 a13 a14 a15 B.
  repeat match goal with H : Forall byte (_ :: _) |- _ => inversion_clear H end.
  unfold sixteen. cbn [map seq nth]. rewrite !Z.mod_small by assumption. reflexivity.
Qed.
Lemma rcons_bytes : Forall byte rcons.
Proof. unfold rcons. repeat (apply Forall_cons; [unfold byte; lia|]). apply Forall_nil. Qed.

#[local] Opaque rounds inv_rounds sixteen rcons.
Lemma aes_16 k b : is16 (aes128 k b).
Proof. exact (proj1 (rounds_16 rcons rcons_bytes (sixteen k) _ (sixteen_16 k) (xor_16 _ _ (sixteen_16 b) (sixteen_16 k)))). Qed.

Lemma L_C111_cipher : block_cipher aes128.
Proof. intros k b. apply aes_16. Qed.

Definition aes128_inv (k c : list Z) : list Z := xor_bytes (inv_rounds rcons (sixteen k) (sixteen c)) (sixteen k).
Lemma L_C111_permutation k : is16 k ->
  exists inv, forall b, is16 b -> inv (aes128 k b) = b /\ is16 (inv b) /\ aes128 k (inv b) = b.
Proof.
  intros Hk. exists (aes128_inv k). intros b Hb. unfold aes128_inv, aes128. rewrite !(sixteen_id k Hk), !(sixteen_id b Hb).
  assert (Hx : is16 (xor_bytes b k)) by (apply xor_16; assumption).
  destruct (rounds_16 rcons rcons_bytes k (xor_bytes b k) Hk Hx) as [H1 _].
  destruct (rounds_16 rcons rcons_bytes k b Hk Hb) as [_ H2].
  split; [|split].
  - rewrite (sixteen_id _ H1). destruct (rounds_inv rcons rcons_bytes k (xor_bytes b k) Hk Hx) as [-> _]. apply xor_back_16; assumption.
  - apply xor_16; assumption.
  - rewrite (sixteen_id (xor_bytes _ _)) by (apply xor_16; assumption). rewrite xor_back_16 by assumption.
    apply (rounds_inv rcons rcons_bytes k b Hk Hb).
Qed.

(** the table is the one of the standard: the multiplicative inverse and the affine map *)
Definition inverse_table : list Z := Eval vm_compute in map (fun i => bpow (Z.of_nat i) 254) (seq 0 256).
Lemma L_C111_sbox x : byte x -> exists y, byte y /\ (if x =? 0 then y = 0 else bmul x y = 1) /\ sbox x = affine y.
Proof.
  intros H. exists (nth (Z.to_nat x) inverse_table 0).
  pose proof (by_bytes (fun x => let y := nth (Z.to_nat x) inverse_table 0 in
    byteb y && (if x =? 0 then y =? 0 else bmul x y =? 1) && (sbox x =? affine y)) ltac:(vm_compute; reflexivity) x H) as C.
  cbv zeta beta in C. rewrite !andb_true_iff in C. destruct C as [[C1 C2] C3].
  split; [apply byteb_spec, C1|]. split; [|apply Z.eqb_eq, C3]. destruct (x =? 0); apply Z.eqb_eq, C2.
Qed.
