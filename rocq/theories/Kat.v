(** The known answers of the repository's own tests, computed with the model: testsuit/test_fields.cpp:20-134 and
    testsuit/test_ecc.cpp:26-177. They tie the model to values the author expected of the code. The product by 90912389 and the two lookups, lines
    162 and 180-189, are left out: computing them takes minutes; C73 proves them. *)
From Coq Require Import ZArith Bool List.
From Verif Require Import Outcome FieldModel CurveParams EccModel.
Open Scope Z_scope.

(** the tests use Field_secp256r1_p; asserts are on *)
Definition q : Z := fieldp secp256r1.
Definition FLD (v : Z) : fe := fe_new q v.
Definition a : fe := FLD 115792089210356248762697446911407573530086143415299914195533631308867097853953.
Definition b : fe := FLD 114123486102945789471102938563810123456789012678123898127389245018481290378472.
Definition yields (r : res fe) (v : Z) : bool := match r with Ok x => fe_eq x (FLD v) | Err _ => false end.

Example fields :
  yields (fe_add true q a b) 114123486102945789471102938525810123456789012678133498127389245018481290378474 = true /\
  yields (fe_add true q a a) 115792089210356248762697446873407573530086143415309514195533631308867097853955 = true /\
  yields (fe_add true q b b) 112454882995535330179508430178212673383491881940957482059244858728095482902993 = true /\
  yields (fe_sub true q a b) 1668603107410459291594508347597450073297130737176016068144386290385807475481 = true /\
  yields (fe_sub true q b a) 114123486102945789471102938601810123456789012678114298127389245018481290378470 = true /\
  yields (fe_sub true q a a) 0 = true /\
  yields (fe_sub true q b b) 0 = true /\
  yields (fe_mul true q a b) 64612386361951989056516811974132124533298328794823227983094747810559130757188 = true /\
  yields (fe_div true q a b) 78022135255180380122285888469357818367183359894755157665029097915500245715072 = true /\
  yields (fe_invert q b) 14571788612224318864831000442587039636655541211855231713863560926660394311888 = true /\
  yields (fe_invert q a) 8712139969365681565753642840680557109677220036619600254496360170439233380648 = true /\
  yields (fe_square q a) 104352153261626623953452628323589261248798252725060068905010816622861221411144 = true /\
  yields (fe_square q b) 42703936318985830561422526257309216918017484751181218668061004177165567807035 = true.
Proof. vm_compute. repeat split. Qed.

(** one curve object, at address 1 *)
Definition live : Z -> bool := Z.eqb 1.
Definition pt (x y : Z) : point := pt_z secp256r1 x y (Some 1).
Definition P := pt 84977697328889810205905983495378814169915355456656637049711992216827273875390 113984765640120748176992606851862342793053973752254499151000631165261995767165.
Definition Q := pt 63697252059872284381272932401874909409951463282505777844481084789510570568792 42108181942940304799197775515120260512991621230487422734550324972312644964859.
Definition PplusQ := pt 101186946395279644513138790537604879293941435118431328907674518710966683828402 6816289991419636437079674250297745566237099260731735769842810406514765603894.
Definition Ptimes10 := pt 21353238564127361844413850988930366307036826902481189565622865528243313548234 19693254829710921034570991117370582129849796669680234808809542666479612482892.
Definition Ptimes99 := pt 7351186338741311390390579546112325810531162022156291610136117810248366013335 20620688547460148735246365938363003834064651421739100004113374821348606164774.
Definition PminusQ := pt 17495055239713755065764498232777582223458639405056673754653767594082808961074 114881897483998757494520577973324734261879933230870480577216288699002102291593.

(** the test's condition, R == expected *)
Definition same (r : res point) (E : point) : res bool := do R <- r; peq live secp256r1 R E.

Section Points.
  Notation Inf := (pt_inf secp256r1).
  Notation add := (padd true live secp256r1).
  Notation sub := (psub true live secp256r1).
  Notation mul := (pmulz true live secp256r1).

  Example validity : isValid true live secp256r1 (gen secp256r1 1) = Ok true /\ isValid true live secp256r1 P = Ok true /\
    isValid true live secp256r1 Q = Ok true.
  Proof. vm_compute. repeat split. Qed.

  Example sums : same (add Inf P) P = Ok true /\ same (add P Inf) P = Ok true /\
    (do D <- pdouble true live secp256r1 P; same (add P P) D) = Ok true /\ same (sub P P) Inf = Ok true /\
    same (mul Inf 1000) Inf = Ok true /\ same (add P Q) PplusQ = Ok true /\ same (sub P Q) PminusQ = Ok true.
  Proof. vm_compute. repeat split. Qed.

  Example multiples : same (mul P 10) Ptimes10 = Ok true /\ same (mul P 99) Ptimes99 = Ok true.
  Proof. vm_compute. repeat split. Qed.
End Points.
