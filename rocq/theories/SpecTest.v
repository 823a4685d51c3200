(** Vocabulary for the statements about the test programs: for which draws each test passes.  A common reference string is
    given by the discrete logarithms of its points. *)
From Coq Require Import ZArith Bool List.
From Verif Require Import Outcome FieldModel CurveParams EccModel SpecEcc DmeModel SpecDme OtModel AesModel OpprfModel SpecOpprf TestModel.
Import ListNotations.
Open Scope Z_scope.

(** not a multiple of the group order *)
Definition nz (z : Z) : Prop := ~ (order | z).

(** discrete logarithms of g0, g1, h0, h1 *)
Record logs := mklogs { lg0 : Z; lg1 : Z; lh0 : Z; lh1 : Z }.
Definition lg (L : logs) (b : Z) : Z := if b =? 0 then lg0 L else lg1 L.
Definition lh (L : logs) (b : Z) : Z := if b =? 0 then lh0 L else lh1 L.
Definition messy_log (d : dme_draws) : logs := mklogs (m3 d) (m4 d) (m1 d * m3 d) (m2 d * m4 d).
Definition dec_log (d : dme_draws) : logs := mklogs (x2 d) (x1 d * x2 d) (x3 d * x2 d) (x3 d * (x1 d * x2 d)).

(** what hides the message when the draws [s], [t] are used with the key [k] of branch [b], and what the holder of the key
    subtracts from a ciphertext of branch [b'] *)
Definition hidden (L : logs) (b k s t : Z) : Z := k * (s * lg L b + t * lh L b).

Definition t_s (b : Z) (d : test_draws) : Z := if b =? 0 then t_s0 d else t_s1 d.
Definition t_t (b : Z) (d : test_draws) : Z := if b =? 0 then t_t0 d else t_t1 d.

(** decryption of the ciphertext of branch [b'] with the key of branch [b] meets no point at infinity *)
Definition decrypts (L : logs) (b b' : Z) (d : test_draws) : Prop :=
  nz (hidden L b' (t_key d) (t_s b' d) (t_t b' d)) /\ nz (hidden L b (t_key d) (t_s b' d) (t_t b' d) + t_msg d).
(** and gives something else than the message *)
Definition differs (L : logs) (b b' : Z) (d : test_draws) : Prop :=
  nz (hidden L b (t_key d) (t_s b' d) (t_t b' d) - hidden L b' (t_key d) (t_s b' d) (t_t b' d)).

Definition four_good (L : logs) (d : nat -> test_draws) : Prop :=
  decrypts L 0 0 (d 0%nat) /\ (decrypts L 0 1 (d 1%nat) /\ differs L 0 1 (d 1%nat)) /\
  (decrypts L 1 0 (d 2%nat) /\ differs L 1 0 (d 2%nat)) /\ decrypts L 1 1 (d 3%nat).

(** the trapdoor keys of a decryption-mode string open both branches *)
Definition trap_good (L : logs) (d : test_draws) : Prop :=
  forall b, b = 0 \/ b = 1 ->
  nz (hidden L 0 (t_key d) (t_s b d) (t_t b d)) /\ nz (hidden L 0 (t_key d) (t_s b d) (t_t b d) + t_msg d).

Definition eval_good (L : logs) (d : eval_draws) : Prop :=
  let w := hidden L 0 (v_key d) (v_sa d + v_sb d) (v_ta d + v_tb d) in nz w /\ nz (w + (v_msga d + v_msgb d)).

Section Integers.
  Variables (dbg : bool) (live : Z -> bool).
  (** an integer that survives its encoding, which is not the negative of what hides it *)
  Definition number_good (D : dme) (w m : Z) : Prop :=
    encodable m /\ nz w /\ forall P l, encode dbg live D m = Ok P -> multiple live P l -> nz (w + l).

  (** the draws with which test_dme passes *)
  Record dme_good (cc : Z) (d : dme_draws) : Prop := {
    good_messy : four_good (messy_log d) (on_messy d);
    good_find : nz (find1 d * (m4 d * (m1 d - m2 d)));
    good_dec : four_good (dec_log d) (on_dec d);
    good_x1 : nz (x1 d);
    good_trap : trap_good (dec_log d) (on_trap d);
    good_crs : four_good (messy_log d) (on_crs d);
    good_eval : eval_good (messy_log d) (on_eval d);
    good_number : forall k, let n := on_number d in
      number_good (dme_new_crs cc k) (hidden (messy_log d) 1 (t_key n) (t_s1 n) (t_t1 n)) (t_msg n) }.

  (** the draws with which test_ot passes *)
  Definition ot_log (d : ot_program) : logs := mklogs (p3 d) (p4 d) (p1 d * p3 d) (p2 d * p4 d).
  Definition transfers (L : logs) (b : Z) (d : ot_draws) : Prop :=
    let w := hidden L b (o_key d) (q_s b (o_q d)) (q_t b (o_q d)) in
    nz w /\ nz (w + (if b =? 0 then o_m0 d else o_m1 d)).
  Definition dot_good (L : logs) (k : Z) (da db dc : ot_draws) : Prop :=
    let w := hidden L 0 k (q_s0 (o_q da) + q_s0 (o_q db) + q_s0 (o_q dc)) (q_t0 (o_q da) + q_t0 (o_q db) + q_t0 (o_q dc)) in
    nz w /\ nz (w + (o_m0 da + o_m0 db + o_m0 dc)).
  Record ot_good (c2 : Z) (d : ot_program) : Prop := {
    ot_first : transfers (ot_log d) 0 (first d);
    ot_second : transfers (ot_log d) 1 (second d);
    ot_third : forall k, let w := hidden (ot_log d) 0 (third_key d) (q_s0 (third_q d)) (q_t0 (third_q d)) in
      nz w /\ forall P l, encode dbg live (dme_new_crs c2 k) 19123 = Ok P -> multiple live P l -> nz (w + l);
    ot_dot : dot_good (ot_log d) (dot_key d) (dot_a d) (dot_b d) (dot_c d) }.
End Integers.

(** the string [k] has the logarithms [L] *)
Definition string_logs (live : Z -> bool) (k : crs_t) (L : logs) : Prop :=
  multiple live (g0 k) (lg0 L) /\ multiple live (g1 k) (lg1 L) /\ multiple live (h0 k) (lh0 L) /\ multiple live (h1 k) (lh1 L).

(** the draws with which test_opprf passes: those with which nothing degenerates in any of the three evaluations, between a
    client whose string has the drawn logarithms and a server at [cs] *)
Definition opprf_good (dbg : bool) (live : Z -> bool) (e : env) (cs : Z) (d : opprf_program) : Prop :=
  forall k D j, string_logs live k (mklogs (k1 d) (k3 d) (k2 d) (k4 d)) -> dcurve D = Some cs -> (j < 3)%nat ->
    good_draws dbg live e (init iv_start) k D 1000 (a_draw d) (xs d j mod 1000) (ds d j).
