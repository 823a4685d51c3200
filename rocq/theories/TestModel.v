(** Model of the test programs, /repo/testsuit/*.cpp: each [main] as a function from the values drawn at random to the number
    it returns.  Output to the terminal is left out.  Objects are destroyed after the result is fixed; see OwnModel for that.
    test_elgamal.cpp is empty. *)
From Coq Require Import ZArith Bool List String.
From Verif Require Import Outcome FieldModel CurveParams EccModel ShamirModel DmeModel OtModel PudaModel CrcModel AesModel
  OpprfModel TextModel.
Import ListNotations.
Open Scope Z_scope.

(** the tests of one program, in order: [success] starts at 0 and becomes -1 when a test fails *)
Fixpoint tally (l : list (res bool)) (success : Z) : res Z :=
  match l with
  | [] => Ok success
  | t :: l' => do b <- t; tally l' (if b then success else -1)
  end.

(** a == b for field objects, each being computed first *)
Definition fsame (r1 r2 : res fe) : res bool := do x <- r1; do y <- r2; Ok (fe_eq x y).

(** test_fields.cpp:12-144 *)
Definition main_fields (dbg : bool) : res Z :=
  let q := fieldp secp256r1 in
  let F s := do v <- mpz_class_str (txt s) 10; Ok (fe_new q v) in
  do a <- F "115792089210356248762697446911407573530086143415299914195533631308867097853953"%string;
  do b <- F "114123486102945789471102938563810123456789012678123898127389245018481290378472"%string;
  tally [
    fsame (fe_add dbg q a b) (F "114123486102945789471102938525810123456789012678133498127389245018481290378474"%string);
    fsame (fe_add dbg q a a) (F "115792089210356248762697446873407573530086143415309514195533631308867097853955"%string);
    fsame (fe_add dbg q b b) (F "112454882995535330179508430178212673383491881940957482059244858728095482902993"%string);
    fsame (fe_sub dbg q a b) (F "1668603107410459291594508347597450073297130737176016068144386290385807475481"%string);
    fsame (fe_sub dbg q b a) (F "114123486102945789471102938601810123456789012678114298127389245018481290378470"%string);
    fsame (fe_sub dbg q a a) (Ok (fe_new q 0));
    fsame (fe_sub dbg q b b) (Ok (fe_new q 0));
    fsame (fe_mul dbg q a b) (F "64612386361951989056516811974132124533298328794823227983094747810559130757188"%string);
    fsame (fe_div dbg q a b) (F "78022135255180380122285888469357818367183359894755157665029097915500245715072"%string);
    fsame (fe_invert q b) (F "14571788612224318864831000442587039636655541211855231713863560926660394311888"%string);
    fsame (fe_invert q a) (F "8712139969365681565753642840680557109677220036619600254496360170439233380648"%string);
    fsame (fe_square q a) (F "104352153261626623953452628323589261248798252725060068905010816622861221411144"%string);
    fsame (fe_square q b) (F "42703936318985830561422526257309216918017484751181218668061004177165567807035"%string)
  ] 0.

(** test_ecc.cpp:14-201; [c] is the address of the curve object, [r1], [r2] the draws of the two random points.
    The points are built by the constructor from two C strings in base 10. *)
Section TestEcc.
  Variables (dbg : bool) (live : Z -> bool) (c r1 r2 : Z).
  Let C := secp256r1.
  Definition ecc_point (x y : string) : res point := pt_cstr C (Some (txt x)) (Some (txt y)) (Some c) 10.
  (** R == S, each being computed first *)
  Definition psame (r s : res point) : res bool := do R <- r; do T <- s; peq live C R T.
  Definition main_ecc : res Z :=
    let Inf := pt_inf C in
    do P <- ecc_point "84977697328889810205905983495378814169915355456656637049711992216827273875390"
                      "113984765640120748176992606851862342793053973752254499151000631165261995767165";
    do Q <- ecc_point "63697252059872284381272932401874909409951463282505777844481084789510570568792"
                      "42108181942940304799197775515120260512991621230487422734550324972312644964859";
    do PplusQ <- ecc_point "101186946395279644513138790537604879293941435118431328907674518710966683828402"
                           "6816289991419636437079674250297745566237099260731735769842810406514765603894";
    do Ptimes10 <- ecc_point "21353238564127361844413850988930366307036826902481189565622865528243313548234"
                             " 19693254829710921034570991117370582129849796669680234808809542666479612482892";
    do Ptimes99 <- ecc_point "7351186338741311390390579546112325810531162022156291610136117810248366013335"
                             " 20620688547460148735246365938363003834064651421739100004113374821348606164774";
    do Ptimes90912389 <- ecc_point "39713820183789898512483171409752538453383718839221188993776377142904537596963"
                                   " 48365718026147700096726340623511188595478532931695481815446315261246227175991";
    do PminusQ <- ecc_point "17495055239713755065764498232777582223458639405056673754653767594082808961074"
                            "114881897483998757494520577973324734261879933230870480577216288699002102291593";
    do R1 <- getRandomPoint dbg live C (Some c) r1;
    do R2 <- getRandomPoint dbg live C (Some c) r2;
    tally [
      (do e <- getEncodedX dbg live C R1; do R2 <- setEncodedX dbg live C R2 e; peq live C R2 R1);
      (do G <- getDefaultGen live C (Some c); isValid dbg live C G);
      isValid dbg live C P;
      isValid dbg live C Q;
      psame (padd dbg live C Inf P) (Ok P);
      psame (padd dbg live C P Inf) (Ok P);
      psame (padd dbg live C P P) (pdouble dbg live C P);
      psame (psub dbg live C P P) (Ok Inf);
      psame (pmulz dbg live C Inf 1000) (Ok Inf);
      psame (padd dbg live C P Q) (Ok PplusQ);
      psame (Ok Ptimes10) (pmulz dbg live C P 10);
      psame (Ok Ptimes99) (pmulz dbg live C P 99);
      psame (Ok Ptimes90912389) (pmulz dbg live C P 90912389);
      psame (psub dbg live C P Q) (Ok PminusQ);
      psame (Ok P) (evaluateP dbg live C (Some c) (px P));
      psame (Ok Q) (evaluateP dbg live C (Some c) (px Q))
    ] 0.
End TestEcc.

(** test_shamirss.cpp:11-43 *)
Definition main_shamirss (dbg : bool) (cap : Z) (rnd : nat -> Z) : res Z :=
  let nusers := 10 in
  let threshold := 7 in
  let secret := fe_new FIELD 11 in
  do shares <- getShares dbg cap rnd threshold nusers secret;
  do result <- reconSecret dbg shares;
  tally [Ok (fe_eq result secret)] 0.

(** test_puda.cpp:11-58; draws of Setup: the hash point, a, and two keys for each of the ten users.
    The loop of lines 39-47 encrypts and tags for one user after the other; the result of Verify is dropped. *)
Definition puda_user (dbg : bool) (live : Z -> bool) (pp : pp_t) (ekv : list fe) (skv : list sk_t) (m t : Z)
    (s : list point * list point) (k : nat) : res (list point * list point) :=
  do ek <- vat ekv (Z.of_nat k);
  do c <- PEnc dbg live pp ek m t;
  do sk <- vat skv (Z.of_nat k);
  do tag <- PTag dbg live pp sk m t;
  Ok (fst s ++ [c], snd s ++ [tag]).
Definition main_puda (dbg : bool) (live : Z -> bool) (c1 c2 rh ra : Z) (d : nat -> Z * Z) : res Z :=
  let m := 2 in
  let timestamp := 99 in
  let nusers := 10%nat in
  do s <- Setup dbg live (puda_new c1 c2) rh ra (map d (seq 0 nusers));
  let '(pp, (ekv, skv, ak, vk)) := s in
  do v <- foldM (puda_user dbg live pp ekv skv m timestamp) (seq 0 nusers) ([], []);
  do result <- Agg dbg live pp ak (fst v) (snd v) timestamp;
  let _ := Verify pp vk (fst result) (snd result) timestamp in
  tally [Ok (fst result =? m * Z.of_nat nusers)] 0.

(** test_crc.cpp:10-26; [a] is drawn by getRandom(1024); the byte buffers are at [p1], [p2] *)
Definition main_crc (be : bool) (room : Z -> Z) (p1 p2 a : Z) : res Z :=
  do n <- appendCRC be room p1 a;
  do v <- validateCRC be p2 n;
  let success := if v then 0 else -1 in
  do n <- removeCRC n;
  Ok (if a =? n then success else -1).

(** test_aes.cpp:58-86; both numbers are drawn by getRandom(128) *)
Definition main_aes (e : env) (key plaintext : Z) : res Z :=
  let iv := init iv_start in
  do cipher <- encryptCRC e iv key plaintext;
  do decryptedtext <- decryptCRC e iv key cipher;
  Ok (if decryptedtext =? plaintext then 0 else -1).

(** test_dme.cpp:11-288 *)
Section TestDme.
  Variables (dbg : bool) (live : Z -> bool).
  Let randP := getRandomPoint dbg live CV.

  (** the draws of lines 26-30 and of the tests like it: key, message, two pairs for Enc *)
  Record test_draws := mktd { t_key : Z; t_msg : Z; t_s0 : Z; t_t0 : Z; t_s1 : Z; t_t1 : Z }.

  (** generate a key for branch [b], encrypt on both branches, decrypt the ciphertext of branch [b'] and compare:
      lines 26-32, 41-47, 56-62, 72-78 and the corresponding ones for the other two objects *)
  Definition dme_trip (D : dme) (b b' : branch_t) (d : test_draws) : res bool :=
    do keyp <- KeyGen dbg live D b (t_key d);
    do msg <- randP (dcurve D) (t_msg d);
    do c0 <- Enc dbg live D (kpk keyp) 0 msg (t_s0 d) (t_t0 d);
    do c1 <- Enc dbg live D (kpk keyp) 1 msg (t_s1 d) (t_t1 d);
    do decrypted <- Dec dbg live (ksk keyp) (if b' =? 0 then c0 else c1);
    peq live CV msg decrypted.
  Definition dme_four (D : dme) (d : nat -> test_draws) : list (res bool) := [
    dme_trip D 0 0 (d 0%nat);
    (do x <- dme_trip D 0 1 (d 1%nat); Ok (negb x));
    (do x <- dme_trip D 1 0 (d 2%nat); Ok (negb x));
    dme_trip D 1 1 (d 3%nat) ].

  (** lines 87-107 *)
  Definition dme_find (D : dme) (b : branch_t) (r : Z) : res bool :=
    do keyp <- KeyGen dbg live D b r;
    do x <- FindMessy dbg live D (kpk keyp);
    Ok (x =? 1 - b).

  (** lines 169-195: one key and one message for two tests *)
  Definition dme_trapdoor (D : dme) (d : test_draws) : res (res bool * res bool) :=
    do keys <- TrapKeyGen dbg live D (t_key d);
    let '(pk, sk0, sk1) := keys in
    do msg <- randP (dcurve D) (t_msg d);
    do c0 <- Enc dbg live D pk 0 msg (t_s0 d) (t_t0 d);
    do c1 <- Enc dbg live D pk 1 msg (t_s1 d) (t_t1 d);
    Ok (do decrypted <- Dec dbg live sk0 c0; peq live CV msg decrypted,
        do decrypted <- Dec dbg live sk1 c1; peq live CV msg decrypted).

  (** lines 250-266 *)
  Record eval_draws := mked { v_key : Z; v_msga : Z; v_msgb : Z; v_sa : Z; v_ta : Z; v_sb : Z; v_tb : Z }.
  Definition dme_eval (D : dme) (d : eval_draws) : res bool :=
    do keyp <- KeyGen dbg live D 0 (v_key d);
    do msga <- randP (dcurve D) (v_msga d);
    do msgb <- randP (dcurve D) (v_msgb d);
    do ca <- Enc dbg live D (kpk keyp) 0 msga (v_sa d) (v_ta d);
    do cb <- Enc dbg live D (kpk keyp) 0 msgb (v_sb d) (v_tb d);
    do cab <- Eval dbg live ca cb;
    do decrypted <- Dec dbg live (ksk keyp) cab;
    do sum <- padd dbg live CV msga msgb;
    peq live CV sum decrypted.

  (** lines 270-282; the number is drawn by getRandom(128) *)
  Definition dme_number (D : dme) (d : test_draws) : res bool :=
    do keyp <- KeyGen dbg live D 1 (t_key d);
    let number := t_msg d in
    do c0 <- EncZ dbg live D (kpk keyp) 0 number (t_s0 d) (t_t0 d);
    do c1 <- EncZ dbg live D (kpk keyp) 1 number (t_s1 d) (t_t1 d);
    do decr <- DecDecode dbg live (ksk keyp) c1;
    Ok (number =? decr).

  Record dme_draws := mkdd { m1 : Z; m2 : Z; m3 : Z; m4 : Z; x1 : Z; x2 : Z; x3 : Z;
    on_messy : nat -> test_draws; find0 : Z; find1 : Z; on_dec : nat -> test_draws; on_trap : test_draws;
    on_crs : nat -> test_draws; on_eval : eval_draws; on_number : test_draws }.
  (** the addresses of the curves of the three objects are [cm], [cd], [cc] *)
  Definition main_dme (cm cd cc : Z) (d : dme_draws) : res Z :=
    do M <- dme_new dbg live cm messy (m1 d) (m2 d) (m3 d) (m4 d);
    do s <- tally (dme_four M (on_messy d) ++ [dme_find M 0 (find0 d); dme_find M 1 (find1 d)]) 0;
    do D <- dme_new dbg live cd dec (x1 d) (x2 d) (x3 d) 0;
    do s <- tally (dme_four D (on_dec d)) s;
    do t <- dme_trapdoor D (on_trap d);
    do s <- tally [fst t; snd t] s;
    let R := dme_new_crs cc (dcrs M) in
    tally (dme_four R (on_crs d) ++ [dme_eval R (on_eval d); dme_number R (on_number d)]) s.
End TestDme.

(** test_ot.cpp:10-136 *)
Section TestOt.
  Variables (dbg : bool) (live : Z -> bool).
  Let randP := getRandomPoint dbg live CV.

  (** OTsndr::getRandomMsg, ot.hpp:47 *)
  Definition getRandomMsg (S : otsndr) (r : Z) : res point := randP (dcurve (sdme S)) r.

  Record ot_draws := mkod { o_key : Z; o_m0 : Z; o_m1 : Z; o_q : quad }.
  (** lines 26-46 and 55-75: the receiver selects [b] and gets message [b]; the objects are returned *)
  Definition ot_points (R : otrecv) (S : otsndr) (b : branch_t) (d : ot_draws) : res (bool * (otrecv * otsndr)) :=
    do x <- selectMsg dbg live R b (o_key d);
    let '(R, pk) := x in
    do m0 <- getRandomMsg S (o_m0 d);
    do m1 <- getRandomMsg S (o_m1 d);
    do y <- encMsgs dbg live S pk m0 m1 (q_s0 (o_q d)) (q_t0 (o_q d)) (q_s1 (o_q d)) (q_t1 (o_q d));
    let '(T, ctxts) := y in
    do m <- decryptMsg dbg live R ctxts;
    do b <- peq live CV m (if b =? 0 then m0 else m1);
    Ok (b, (R, T)).
  (** lines 77-96 *)
  Definition ot_integers (R : otrecv) (S : otsndr) (k : Z) (q : quad) : res bool :=
    do x <- selectMsg dbg live R 0 k;
    let '(R, pk) := x in
    do y <- encMsgsZ dbg live S pk 19123 73812 (q_s0 q) (q_t0 q) (q_s1 q) (q_t1 q);
    let '(_, ctxts) := y in
    do mpz <- decryptMsgDecode dbg live R ctxts;
    Ok (19123 =? mpz).
  (** lines 110-127: one sender draws two messages and encrypts them *)
  Definition dot_send (S : otsndr) (pk : pkey) (d : ot_draws) : res (point * list ctxt) :=
    do m0 <- getRandomMsg S (o_m0 d);
    do m1 <- getRandomMsg S (o_m1 d);
    do y <- encMsgs dbg live S pk m0 m1 (q_s0 (o_q d)) (q_t0 (o_q d)) (q_s1 (o_q d)) (q_t1 (o_q d));
    Ok (m0, snd y).
  (** lines 100-134; the curves of the receiver and the senders are at [cr], [ca], [cb], [cc] *)
  Definition dot_three (k : crs_t) (cr ca cb cc : Z) (r : Z) (da db dc : ot_draws) : res bool :=
    let R := otrecv_new (dme_new_crs cr k) in
    do x <- selectMsg dbg live R 0 r;
    let '(R, pk) := x in
    do A <- dot_send (otsndr_new (dme_new_crs ca k)) pk da;
    do B <- dot_send (otsndr_new (dme_new_crs cb k)) pk db;
    do C <- dot_send (otsndr_new (dme_new_crs cc k)) pk dc;
    do ctxts <- aggregate dbg live [snd A; snd B; snd C];
    do m <- decryptMsg dbg live R ctxts;
    do s <- padd dbg live CV (fst A) (fst B);
    do s <- padd dbg live CV s (fst C);
    peq live CV m s.

  Record ot_program := mkop { p1 : Z; p2 : Z; p3 : Z; p4 : Z; first : ot_draws; second : ot_draws;
    third_key : Z; third_q : quad; dot_key : Z; dot_a : ot_draws; dot_b : ot_draws; dot_c : ot_draws }.
  (** curve addresses: [cd] of the first object, [c1] receiver, [c2] sender, then those of the distributed transfer *)
  Definition main_ot (cd c1 c2 cr ca cb cc : Z) (d : ot_program) : res Z :=
    do D <- dme_new dbg live cd messy (p1 d) (p2 d) (p3 d) (p4 d);
    let otr := otrecv_new (dme_new_crs c1 (dcrs D)) in
    let ots := otsndr_new (dme_new_crs c2 (dcrs D)) in
    do a <- ot_points otr ots 0 (first d);
    do s <- tally [Ok (fst a)] 0;
    do b <- ot_points (fst (snd a)) (snd (snd a)) 1 (second d);
    do s <- tally [Ok (fst b)] s;
    tally [ot_integers (fst (snd b)) (snd (snd b)) (third_key d) (third_q d);
           dot_three (dcrs D) cr ca cb cc (dot_key d) (dot_a d) (dot_b d) (dot_c d)] s.
End TestOt.

(** test_opprf.cpp:13-83 *)
Section TestOpprf.
  Variables (dbg : bool) (e : env).

  (** lines 45-77, one evaluation and the clean-up; [g] is the draw of OPPRFserver::clean.  The caller's point is passed to
      setSecret by reference, so the comparison uses it with the curve of the server. *)
  Definition opprf_eval (live : Z -> bool) (iv : list Z) (s : server * client * point) (x : Z) (d : session_draws) (g : Z) :
      res (bool * (server * client * point)) :=
    let '(T, C, ga) := s in
    do y <- setSecret dbg live T ga;
    let '(T, ga) := y in
    let C := setMessage C x in
    do TC <- session dbg live e iv T C d;
    let '(T, C) := TC in
    do t <- pmulz dbg live CV ga x;
    do treures <- padd dbg live CV (kopprf T) t;
    do t <- pmulz dbg live CV ga x;
    do u <- padd dbg live CV (kopprf T) t;
    do b <- peq live CV (result C) u;
    do T <- server_clean dbg live T g;
    Ok (b, (T, client_clean C, ga)).
  (** the loop of lines 43-77 *)
  Fixpoint opprf_loop (live : Z -> bool) (iv : list Z) (s : server * client * point) (l : list (Z * session_draws * Z)) (success : Z) : res Z :=
    match l with
    | [] => Ok success
    | (x, d, g) :: l' =>
        do r <- opprf_eval live iv s x d g;
        opprf_loop live iv (snd r) l' (if fst r then success else -1)
    end.
  (** [ct] and [cd] are the addresses of the curves of the temporary objects of lines 19 and 20, which are gone when the
      statement ends; [live] tells which objects exist afterwards, [cs] and [cc] are the curves of server and client.
      [xs] are the values of rand(), [ds] the draws of the evaluations. *)
  Record opprf_program := mkoprg { a_draw : Z; k1 : Z; k2 : Z; k3 : Z; k4 : Z; xs : nat -> Z; s_draw : Z; ds : nat -> session_draws; gs : nat -> Z }.
  Definition main_opprf (live : Z -> bool) (ct cd cs cc : Z) (d : opprf_program) : res Z :=
    let theta := 1000 in
    do ga <- getRandomPoint dbg (Z.eqb ct) CV (Some ct) (a_draw d);
    do D <- dme_new_random dbg (Z.eqb cd) cd (k1 d) (k2 d) (k3 d) (k4 d);
    let crs := dcrs D in
    do opprfs <- server_new dbg live cs theta crs (s_draw d);
    let opprfc := client_new cc crs in
    opprf_loop live (init iv_start) (opprfs, opprfc, ga)
      (map (fun j => (xs d j mod theta, ds d j, gs d j)) (seq 0 3)) 0.
End TestOpprf.
