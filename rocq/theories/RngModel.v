(** Model of the library's sources of randomness. There are three generators, all static, none ever seeded:
    ecc::Curve_secp256r1::rand (ecc_template.hpp:80, 747-752, constructed with gmp_randinit_default),
    utils::rand (utilities.cpp:8, the same) and the rand() of libc. The functions of GMP and of libc are arbitrary
    functions of the state; the states a process starts with are constants of these libraries. *)
From Coq Require Import ZArith Bool List.
From Verif Require Import Outcome FieldModel CurveParams EccModel DmeModel OtModel AesModel OpprfModel ShamirModel.
Import ListNotations.
Open Scope Z_scope.

(** the generators and what is asked of them: get_z_range(order), ecc_template.hpp:626, 643, 660; get_z_bits(n),
    utilities.cpp:12; rand(), shamirss.cpp:32 and std::random_shuffle, opprf.cpp:109, 132 *)
Inductive source := SCurve | SUtils | SLibc.
Inductive request := Range (m : Z) | Bits (n : Z) | Rand.
Definition source_of (q : request) : source := match q with Range _ => SCurve | Bits _ => SUtils | Rand => SLibc end.

(** the calls of the library that draw, with their arguments *)
Inductive call :=
| CDme (c : Z) (mu : mode_t)
| CDmeRandom (c : Z)
| CKeyGen (D : dme) (b : branch_t)
| CTrapKeyGen (D : dme)
| CEnc (D : dme) (pk : pkey) (b : branch_t) (m : point)
| CSelect (R : otrecv) (b : branch_t)
| CRandomMsg (S : otsndr)
| CEncMsgs (S : otsndr) (pk : pkey) (m0 m1 : point)
| CServer (c : Z) (th : Z) (k : crs_t)
| CPrepare (S : server)
| CRounds (S : server) (round : Z) (pk : pkey)
| CMasks (S : server)
| CShares (cap t n : Z) (secret : fe).

(** what each call draws, in order: dme.cpp:139-167, 169-177, 196-217, 243-268, 301-306; ot.cpp:9-15, 28-34;
    ot.hpp:48; opprf.cpp:10-18, 33-43, 96-114, 116-135; shamirss.cpp:26-44 *)
Definition order_range : request := Range (c_order CV).
Definition requests (c : call) : list request :=
  match c with
  | CDme _ messy => [order_range; order_range; order_range; order_range]
  | CDme _ dec => [order_range; order_range; order_range]
  | CDmeRandom _ => [order_range; order_range; order_range; order_range]
  | CKeyGen _ _ | CTrapKeyGen _ | CSelect _ _ | CRandomMsg _ | CServer _ _ _ => [order_range]
  | CEnc _ _ _ _ => [order_range; order_range]
  | CEncMsgs _ _ _ _ => [order_range; order_range; order_range; order_range]
  | CPrepare _ => order_range :: order_range ::
      concat (repeat [Bits 128; Bits 128; Bits 128; order_range] MSG_BITS)
  | CRounds _ round _ =>
      if round =? BITS then repeat order_range 8 else repeat order_range 12 ++ [Rand; Rand] ++ repeat order_range 4
  | CMasks _ => [order_range; Rand; Rand]
  | CShares _ t _ _ => repeat Rand (Z.to_nat ((t - 1) mod SIZE))
  end.

(** what a call returns *)
Inductive value :=
| VDme (D : dme) | VKeys (kp : keypair) | VTrap (t : pkey * fe * fe) | VCtxt (c : ctxt)
| VRecv (r : otrecv * pkey) | VPoint (P : point) | VCtxts (r : otsndr * list ctxt)
| VServer (S : server) | VRound (r : server * otctxts) | VMasks (l : list Z) | VShares (l : list share).

Definition wrap {A} (f : A -> value) (r : res A) : res value := do a <- r; Ok (f a).

(** what differs between two processes: clock, process id, the entropy the system offers *)
Record outside := mkout { clock : Z; pid : Z; entropy : Z }.

(** the draws of one call *)
Definition dr (v : list Z) (i : nat) : Z := nth i v 0.
Definition quad_at (v : list Z) (i : nat) : quad := mkq (dr v i) (dr v (i + 1)) (dr v (i + 2)) (dr v (i + 3)).
Definition prep_of (v : list Z) : prep_draws :=
  mkpd (dr v 0) (dr v 1) (fun j => dr v (2 + 4 * j)) (fun j => dr v (3 + 4 * j)) (fun j => dr v (4 + 4 * j))
    (fun j => dr v (5 + 4 * j)).

Section Rng.
  Variables (dbg : bool) (live : Z -> bool) (e : env) (iv : list Z).

  Definition answer (c : call) (v : list Z) : res value :=
    match c with
    | CDme a mu => wrap VDme (dme_new dbg live a mu (dr v 0) (dr v 1) (dr v 2) (dr v 3))
    | CDmeRandom a => wrap VDme (dme_new_random dbg live a (dr v 0) (dr v 1) (dr v 2) (dr v 3))
    | CKeyGen D b => wrap VKeys (KeyGen dbg live D b (dr v 0))
    | CTrapKeyGen D => wrap VTrap (TrapKeyGen dbg live D (dr v 0))
    | CEnc D pk b m => wrap VCtxt (Enc dbg live D pk b m (dr v 0) (dr v 1))
    | CSelect R b => wrap VRecv (selectMsg dbg live R b (dr v 0))
    | CRandomMsg T => wrap VPoint (getRandomPoint dbg live CV (dcurve (sdme T)) (dr v 0))
    | CEncMsgs T pk m0 m1 => wrap VCtxts (encMsgs dbg live T pk m0 m1 (dr v 0) (dr v 1) (dr v 2) (dr v 3))
    | CServer a th k => wrap VServer (server_new dbg live a th k (dr v 0))
    | CPrepare T => wrap VServer (prepareKeysAndInputs dbg live e iv T (prep_of v))
    | CRounds T round pk =>
        if round =? BITS then
          wrap VRound (runOTRound dbg live T round pk (quad_at v 0) (quad_at v 0) (quad_at v 0) (quad_at v 4) 0 0)
        else
          wrap VRound (runOTRound dbg live T round pk (quad_at v 0) (quad_at v 4) (quad_at v 8) (quad_at v 14) (dr v 12) (dr v 13))
    | CMasks T => wrap VMasks (sendEncryptedMasks dbg live e iv T (dr v 0) (dr v 1) (dr v 2))
    | CShares cap t n s => wrap VShares (getShares dbg cap (dr v) t n s)
    end.

  (** the state of GMP's generators, the state gmp_randinit_default makes, get_z_range and get_z_bits; the same for libc,
      whose initial state is that of srand(1) *)
  Variables (G L : Type) (gmp_default : G) (libc_default : L).
  Variables (z_range : G -> Z -> Z * G) (z_bits : G -> Z -> Z * G) (libc_rand : L -> Z * L).

  (** the generators of a process *)
  Record gens := mkgens { g_curve : G; g_utils : G; g_libc : L }.
  (** static initialisation, before main; nothing of what differs between two processes is used, and nothing in the
      library calls gmp_randclass::seed or srand *)
  Definition start (w : outside) : gens := mkgens gmp_default gmp_default libc_default.

  Definition draw1 (g : gens) (q : request) : Z * gens :=
    match q with
    | Range m => let '(x, s) := z_range (g_curve g) m in (x, mkgens s (g_utils g) (g_libc g))
    | Bits n => let '(x, s) := z_bits (g_utils g) n in (x, mkgens (g_curve g) s (g_libc g))
    | Rand => let '(x, s) := libc_rand (g_libc g) in (x, mkgens (g_curve g) (g_utils g) s)
    end.
  Fixpoint draws (g : gens) (l : list request) : list Z * gens :=
    match l with
    | [] => ([], g)
    | q :: t => let '(x, g1) := draw1 g q in let '(v, g2) := draws g1 t in (x :: v, g2)
    end.

  (** the calls of a process, each with its draws and its result *)
  Fixpoint process (g : gens) (p : list call) : list (call * list Z * res value) :=
    match p with
    | [] => []
    | c :: t => let '(v, g1) := draws g (requests c) in (c, v, answer c v) :: process g1 t
    end.
End Rng.
