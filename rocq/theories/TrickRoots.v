(** The equations for messages that would be exceptions have no solutions. *)
From Coq Require Import ZArith Znumtheory List Lia Bool.
From Verif Require Import Fermat FastMod NoRoot CurveParams CurveFacts EccModel DmeModel DmeProofs SpecTrick.
Import ListNotations.
Open Scope Z_scope.

Notation p := (c_prime CV).
Definition cubic (x : Z) : Z := x * x * x + c_a CV * x + c_b CV.
Lemma Hp : prime p.
Proof. exact (g_prime CV good_CV). Qed.
Lemma odd_p : Z.odd p = true.
Proof. reflexivity. Qed.

(** no point of the curve has the abscissa 15 *)
Lemma fifteen : zpowm (cubic 15) ((p - 1) / 2) p <> 1.
Proof. vm_compute. discriminate. Qed.
Lemma no_fifteen y : ~ (p | y * y - cubic 15).
Proof.
  intros [q Q]. apply fifteen. rewrite zpowm_spec; [|reflexivity|reflexivity|reflexivity|exact odd_p].
  replace (cubic 15) with (y * y + (- q) * p) by lia. rewrite Zpow_facts.Zpower_mod by reflexivity. rewrite Z_mod_plus_full, <- Zpow_facts.Zpower_mod by reflexivity.
  replace (y * y) with (y ^ 2) by ring. rewrite <- Z.pow_mul_r by (try lia; apply Z.div_pos; vm_compute; congruence).
  replace (2 * ((p - 1) / 2)) with (p - 1) by reflexivity. apply (fermat p y Hp). intros [r R].
  assert (D : (p | cubic 15)) by (exists (y * r - q); replace (cubic 15) with (y * y - q * p) by lia; rewrite R at 2; ring).
  apply Z.mod_divide in D; [|discriminate]. revert D. vm_compute. discriminate.
Qed.
(** the cubic of the tangents, without its square term *)
Definition h : Z := 115792089210356248762697446949407573530086143415290314195533631308867097853936.
Definition A : Z := 90649900363266508955276523389233886715725845735554404793411597026911143655230.
Definition B : Z := 83562461350016173622452009928476642923787367587765238185295601338203190062430.
Definition d : Z := 85739637826036947554946969076775966213623897989457085886781043924636170631108.
Definition t : Z := 1088588238010386966247479574149661644918265200845923850742721293216490284339.
Definition quo (x : Z) : Z := (12603878592038475409482534398036834546192711556180449959526057333934671103421124752534319895759500702761211298821660710401936315018015368484900087705219870596231130410458179501958330682568586016698237421096591053707202881170806596532580304870344681884792377744804186717681391698333859434901169179789072466800) + (326547659982402471660327387770300199958714602218851359463586847401234390589298185536742965925693597877653172450851324370787253261442079632089082514598306830242946059762935284361623853250917008813355504802879590445954042702429141940) * x + (2820120633536307252659963799755567218443086572019616585867572787021659026987621768442555232542019179173470041098802898597821327020178516341432352612177407) * x * x.
Definition residue_test (q a b d t : Z) : bool :=
  (q mod 3 =? 1) && Z.odd q && (0 <? q) && (0 <? t) && (0 <? (q - 1) / 3) && ((27 * (d * d) - (27 * (b * b) + 4 * (a * a * a))) mod q =? 0) &&
  ((2 * t + b - d) mod q =? 0) && negb (d mod q =? 0) && negb (t mod q =? 0) && negb (zpowm t ((q - 1) / 3) q =? 1).
Lemma residue_root q a b d t : prime q -> residue_test q a b d t = true -> forall z, ~ (q | z * z * z + a * z + b).
Proof.
  intros Hq R. unfold residue_test in R. rewrite !andb_true_iff, !negb_true_iff, !Z.eqb_eq, !Z.eqb_neq, !Z.ltb_lt in R. destruct R as [[[[[[[[[R1 RO] RQ] RT] RE] R2] R3] R4] R5] R6].
  rewrite zpowm_spec in R6; [|exact RT|exact RE|exact RQ|exact RO].
  intros z D. apply (no_root_crit q Hq a b d t R1 RO R2 R3 R4 R5 R6 z). apply Z.mod_divide; [lia|exact D].
Qed.
Lemma residue : residue_test p A B d t = true.
Proof. vm_compute. reflexivity. Qed.
Lemma no_root z : ~ (p | z * z * z + A * z + B).
Proof. exact (residue_root p A B d t Hp residue z). Qed.
Lemma y_not0 : ~ (p | 4 * (trick_y * trick_y)).
Proof. intros D. apply Z.mod_divide in D; [|discriminate]. revert D. vm_compute. discriminate. Qed.
Lemma ident x : 4 * (trick_y * trick_y) * ((x + h) * (x + h) * (x + h) + A * (x + h) + B) =
  4 * (trick_y * trick_y) * cubic x - ((30 + x) * ((x - 15) * (x - 15)) - trick_y * trick_y - cubic x) * ((30 + x) * ((x - 15) * (x - 15)) - trick_y * trick_y - cubic x) + p * quo x.
Proof. unfold cubic, quo, h, A, B, trick_y, CV, secp256r1, c_prime, c_a, c_b. ring. Qed.

(** no tangent at the point goes through a message *)
Lemma no_tangent x y : (p | y * y - cubic x) -> ~ (p | (30 + x) * ((x - 15) * (x - 15)) - trick_y * trick_y - cubic x + 2 * trick_y * y).
Proof.
  intros [q Q] [r R]. pose proof (ident x) as I. set (T := (30 + x) * ((x - 15) * (x - 15)) - trick_y * trick_y - cubic x) in *.
  assert (D : (p | 4 * (trick_y * trick_y) * ((x + h) * (x + h) * (x + h) + A * (x + h) + B))).
  { rewrite I. replace T with (r * p - 2 * trick_y * y) by lia. replace (cubic x) with (y * y - q * p) by lia.
    exists (- 4 * (trick_y * trick_y) * q - r * (r * p - 4 * trick_y * y) + quo x). ring. }
  apply (prime_mult p Hp) in D. destruct D as [D|D]; [exact (y_not0 D)|exact (no_root _ D)].
Qed.
