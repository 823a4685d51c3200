(** Vocabulary for the statements about the sequences of point operations of the protocols. *)
From Coq Require Import ZArith List.
From Verif Require Import Outcome FieldModel CurveParams EccModel SpecEcc DmeModel SpecDme OtModel AesModel OpprfModel.
Import ListNotations.
Open Scope Z_scope.

Definition crs_usable (live : Z -> bool) (k : crs_t) : Prop :=
  finite live (g0 k) /\ finite live (g1 k) /\ finite live (h0 k) /\ finite live (h1 k).

(** a pair of ciphertexts whose chosen one decrypts, under the key [k], to [a]; 0 stands for a rejected one *)
Definition opens_to (dbg : bool) (live : Z -> bool) (e : env) (iv : list Z) (R : otrecv) (k : Z) (v : list ctxt) (a : Z) : Prop :=
  exists ct t, chosen R v = Ok ct /\ finite live (cu ct) /\ decryptMsgDecode dbg live R v = Ok t /\ decryptCRC e iv k t = Ok a.

(** a server with another threshold *)
Definition set_theta (S : server) (th : Z) : server :=
  mksrv (ots S) (scur S) th (ga S) (kopprf S) (sr S) (gk S) (k_lt S) (k_eq S) (k_gt S) (ok S) (Sl0 S) (Sl1 S) (Si0 S) (Si1 S).
