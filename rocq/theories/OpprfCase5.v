(** Concrete pairs of servers that a client cannot tell apart: threshold 9 and secret 3*G against threshold 6 and secret 7*G for the input
    5, against threshold 3 and secret 7*G for the input 12. *)
From Coq Require Import ZArith Znumtheory Bool List Lia.
From Verif Require Import Outcome FieldModel ZpField SpecField FieldProofs ECGroup ECOrder CurveParams CurveFacts EccModel EccProofs SpecEcc EccThms Emb RF DmeModel SpecDme DmeProofs DmeProofs2 OtModel SpecOt OtProofs OtProofs2.
From Verif Require Import CrcModel SpecCrc AesModel SpecAes OpprfModel SpecOpprf SpecOpprf2 SpecOpprf5 OpprfProofs OpprfProofs2 OpprfProofs3 OpprfProofs4 OpprfProofs5 OpprfProofs6 OpprfProofs8 OpprfProofs12.
From Verif Require Import OpprfCase OpprfCase2 Prop_Aes.
Import ListNotations.
Open Scope Z_scope.

(** 48 different keys *)
Definition far_prep : prep_draws := mkpd 17 1 (fun j => kA + Z.of_nat j) (fun j => kB + Z.of_nat j) (fun j => kC + Z.of_nat j) (fun _ => 1).
Definition far (x : Z) : session_draws :=
  mksd far_prep (fun r => mkrd (key2 x r) case_quad case_quad case_quad case_quad r (2 * r + 1)) 1 4 2 1.

(** for every link the number [i] and the ordinate that make it encodable *)
Definition wit5 : list (nat * comparison * Z * Z) :=
  [(0%nat, Lt, 1, 88334406374944680285117046164721525137166854110224220554101750838523309655810);
   (0%nat, Eq, 1, 104717571338831254589773089329268692747050319655657912624020087586251768934043);
   (0%nat, Gt, 0, 25528203729682224990277854472118073897077200987598527130471128083783189181819);
   (1%nat, Lt, 0, 106001441278375944994516027007670996915808826305972732231273088904038745103285);
   (1%nat, Eq, 1, 25883390752343423172054603227756875793231064150778311749226750796634842306765);
   (1%nat, Gt, 0, 71814716179355473768079074970623086324265878476729115783269369630295371124313);
   (2%nat, Lt, 0, 10649574837019685567264416896418607218193219366507424543241936306586231256461);
   (2%nat, Eq, 1, 1660171928439252893115180115710023461627378978740789040865513768176678431807);
   (2%nat, Gt, 1, 102168372659140780444987179607768950078274902022709014101437308385050276949608);
   (3%nat, Lt, 1, 54244866043997119456695753591778048389735237633327328464656235269059175812799);
   (3%nat, Eq, 7, 36690152040504901127686956298070429451192977779992111275555006782916032738416);
   (3%nat, Gt, 1, 39223891372504805047478731368826722948995496412067038126081171239891906463232);
   (4%nat, Lt, 0, 81081892183073708770080089850217071633263710862085057361376595789028071305476);
   (4%nat, Eq, 1, 40498762944426235834223757464383577149336756555466860290740499443858077413512);
   (4%nat, Gt, 0, 86931550592578631453305514721967985325301364568304185235395551615656446313063);
   (5%nat, Lt, 1, 22911142023513327626326935356031436727283113602784768048572931935117544396754);
   (5%nat, Eq, 2, 49014499055411541884121499157364778631915482073793485189963784542224125041138);
   (5%nat, Gt, 0, 89478205684372754773075559976810469778672919210722151497951547420944933376512);
   (6%nat, Lt, 0, 50083437722132588205002541145232712596916533012515515076263480642951926787098);
   (6%nat, Eq, 0, 27396807775689717467972150304348874927163313137893070437195968912392720592675);
   (6%nat, Gt, 1, 103782071322892940249583346889297672818330832911353271164694203036470308674625);
   (7%nat, Lt, 0, 39394223848774175719063162571379601621188112493445997676126120684786896990017);
   (7%nat, Eq, 0, 100029167650941161358735773292494838661937339517900654474678892595630593029340);
   (7%nat, Gt, 0, 40928960669537758829572184981376758150617417852863818651854076828816168078272);
   (8%nat, Lt, 1, 8650842119965613510073478301496935900853741360714621691204965486886937378058);
   (8%nat, Eq, 3, 16597282822582780100052995688011704521983157563571701222811159606919890009024);
   (8%nat, Gt, 1, 103338101396327169696277809870157694704554454081817171933818185821771193251779);
   (9%nat, Lt, 0, 18225594391937938992321199091840830633853337981714900541193892451691912378000);
   (9%nat, Eq, 0, 67042450503854081801116438199542872379095940888473994240081696974005330731632);
   (9%nat, Gt, 1, 48603351452281666028134946487268162211557566443576422050175861381365334377133);
   (10%nat, Lt, 0, 87186525365220725221613768035042818624569961682772101725833544201109789512692);
   (10%nat, Eq, 0, 112346134352911350486293311479299264108558910776061079330759847788979765003400);
   (10%nat, Gt, 3, 59013267521748972505896982201258046730106938041101728255741529691642917769062);
   (11%nat, Lt, 0, 66580253611545778204232779045897241228813881467138301903200565258847599630134);
   (11%nat, Eq, 1, 13473589301516314630570588062394888661233932107093400230428077927520310907693);
   (11%nat, Gt, 0, 64211393817794633977313634112300181130924052144445461719635352277289080744806);
   (12%nat, Lt, 0, 59712316161925859724670486216049772414209877536185196728851372536330171787244);
   (12%nat, Eq, 1, 107997972700427948796986285001043574398098646142906835764261656688981256368851);
   (12%nat, Gt, 0, 16647670000141144642529511485428821749109772609792436466523403612629336640150);
   (13%nat, Lt, 1, 84549289634019828365796139268586205779496925387084097916360664023024013865708);
   (13%nat, Eq, 0, 71088987848831436141469348846872252635452819584572641732495440275036422672545);
   (13%nat, Gt, 0, 22409814685176201873005605196153916941321382469124389754151997135093492418405);
   (14%nat, Lt, 1, 13101855974833376589772945887961337378677230905595181409576866002708775030076);
   (14%nat, Eq, 4, 87292599798340997751234208287983765107769859629041937938068623545768401242167);
   (14%nat, Gt, 1, 49859052914539688248839932064728303488219591595594794440521805814785345860117)].
Definition wit12 : list (nat * comparison * Z * Z) :=
  [(0%nat, Lt, 1, 88334406374944680285117046164721525137166854110224220554101750838523309655810);
   (0%nat, Eq, 1, 94340649625288636758258786506781637341054127807602629060028471305747419069571);
   (0%nat, Gt, 0, 25528203729682224990277854472118073897077200987598527130471128083783189181819);
   (1%nat, Lt, 0, 106001441278375944994516027007670996915808826305972732231273088904038745103285);
   (1%nat, Eq, 1, 25883390752343423172054603227756875793231064150778311749226750796634842306765);
   (1%nat, Gt, 0, 71814716179355473768079074970623086324265878476729115783269369630295371124313);
   (2%nat, Lt, 0, 10649574837019685567264416896418607218193219366507424543241936306586231256461);
   (2%nat, Eq, 1, 1660171928439252893115180115710023461627378978740789040865513768176678431807);
   (2%nat, Gt, 1, 102168372659140780444987179607768950078274902022709014101437308385050276949608);
   (3%nat, Lt, 1, 54244866043997119456695753591778048389735237633327328464656235269059175812799);
   (3%nat, Eq, 0, 72831323854468084871676220830532730963257983333961083485905434102070091267429);
   (3%nat, Gt, 1, 39223891372504805047478731368826722948995496412067038126081171239891906463232);
   (4%nat, Lt, 0, 81081892183073708770080089850217071633263710862085057361376595789028071305476);
   (4%nat, Eq, 1, 40498762944426235834223757464383577149336756555466860290740499443858077413512);
   (4%nat, Gt, 0, 86931550592578631453305514721967985325301364568304185235395551615656446313063);
   (5%nat, Lt, 1, 22911142023513327626326935356031436727283113602784768048572931935117544396754);
   (5%nat, Eq, 2, 49014499055411541884121499157364778631915482073793485189963784542224125041138);
   (5%nat, Gt, 0, 89478205684372754773075559976810469778672919210722151497951547420944933376512);
   (6%nat, Lt, 0, 50083437722132588205002541145232712596916533012515515076263480642951926787098);
   (6%nat, Eq, 0, 27396807775689717467972150304348874927163313137893070437195968912392720592675);
   (6%nat, Gt, 1, 103782071322892940249583346889297672818330832911353271164694203036470308674625);
   (7%nat, Lt, 0, 39394223848774175719063162571379601621188112493445997676126120684786896990017);
   (7%nat, Eq, 0, 100029167650941161358735773292494838661937339517900654474678892595630593029340);
   (7%nat, Gt, 0, 40928960669537758829572184981376758150617417852863818651854076828816168078272);
   (8%nat, Lt, 1, 8650842119965613510073478301496935900853741360714621691204965486886937378058);
   (8%nat, Eq, 3, 16597282822582780100052995688011704521983157563571701222811159606919890009024);
   (8%nat, Gt, 1, 103338101396327169696277809870157694704554454081817171933818185821771193251779);
   (9%nat, Lt, 0, 18225594391937938992321199091840830633853337981714900541193892451691912378000);
   (9%nat, Eq, 0, 67042450503854081801116438199542872379095940888473994240081696974005330731632);
   (9%nat, Gt, 1, 48603351452281666028134946487268162211557566443576422050175861381365334377133);
   (10%nat, Lt, 0, 87186525365220725221613768035042818624569961682772101725833544201109789512692);
   (10%nat, Eq, 0, 112346134352911350486293311479299264108558910776061079330759847788979765003400);
   (10%nat, Gt, 3, 59013267521748972505896982201258046730106938041101728255741529691642917769062);
   (11%nat, Lt, 0, 66580253611545778204232779045897241228813881467138301903200565258847599630134);
   (11%nat, Eq, 1, 13473589301516314630570588062394888661233932107093400230428077927520310907693);
   (11%nat, Gt, 0, 64211393817794633977313634112300181130924052144445461719635352277289080744806);
   (12%nat, Lt, 0, 59712316161925859724670486216049772414209877536185196728851372536330171787244);
   (12%nat, Eq, 1, 107997972700427948796986285001043574398098646142906835764261656688981256368851);
   (12%nat, Gt, 0, 16647670000141144642529511485428821749109772609792436466523403612629336640150);
   (13%nat, Lt, 1, 84549289634019828365796139268586205779496925387084097916360664023024013865708);
   (13%nat, Eq, 0, 71088987848831436141469348846872252635452819584572641732495440275036422672545);
   (13%nat, Gt, 0, 22409814685176201873005605196153916941321382469124389754151997135093492418405);
   (14%nat, Lt, 1, 13101855974833376589772945887961337378677230905595181409576866002708775030076);
   (14%nat, Eq, 4, 87292599798340997751234208287983765107769859629041937938068623545768401242167);
   (14%nat, Gt, 1, 49859052914539688248839932064728303488219591595594794440521805814785345860117)].

Definition link_check (x th : Z) (z : nat * comparison * Z * Z) : bool :=
  let '(j, s, i, y) := z in
  match encryptCRC small iv0 (level_key far_prep s (S j)) (level_key far_prep (refine s (bit x j) (bit th j)) j) with
  | Ok c =>
      (0 <=? c) && (0 <=? i) && (i <? 1024) && (1024 * c + i <? FIELD_p) &&
      ((y * y) mod c_prime CV =? ((1024 * c + i) * (1024 * c + i) * (1024 * c + i) + c_a CV * (1024 * c + i) + c_b CV) mod c_prime CV) &&
      negb (c_gx CV / 1024 =? c) &&
      match decryptCRC small iv0 (level_key far_prep (prefix_cmp x th (S j)) (S j)) c with
      | Ok r => r =? (if same_letter s (prefix_cmp x th (S j)) then level_key far_prep (prefix_cmp x th j) j else 0)
      | Err _ => false
      end
  | Err _ => false
  end.
Definition covers (l : list (nat * comparison * Z * Z)) : bool :=
  forallb (fun j => forallb (fun s => existsb (fun z => let '(j', s', _, _) := z in Nat.eqb j j' && same_letter s s') l) [Lt; Eq; Gt]) (seq 0 15).

Lemma link_all x th l : covers l = true -> forallb (link_check x th) l = true -> forall j, (j < 15)%nat -> forall s c,
  encryptCRC small iv0 (level_key far_prep s (S j)) (level_key far_prep (refine s (bit x j) (bit th j)) j) = Ok c ->
  (encodable c /\ c_gx CV / 1024 <> c) /\
  decryptCRC small iv0 (level_key far_prep (prefix_cmp x th (S j)) (S j)) c =
    Ok (if same_letter s (prefix_cmp x th (S j)) then level_key far_prep (prefix_cmp x th j) j else 0).
Proof.
  intros CO CH j J s c E. unfold covers in CO. rewrite forallb_forall in CO. specialize (CO j ltac:(apply in_seq; lia)). rewrite forallb_forall in CO.
  specialize (CO s ltac:(destruct s; cbn; tauto)). apply existsb_exists in CO. destruct CO as [[[[j' s'] i] y] [I M]].
  apply andb_true_iff in M. destruct M as [M1 M2]. apply Nat.eqb_eq in M1. apply same_letter_spec in M2. subst j' s'.
  rewrite forallb_forall in CH. specialize (CH _ I). unfold link_check in CH. rewrite E in CH.
  apply andb_true_iff in CH. destruct CH as [CH C7]. apply andb_true_iff in CH. destruct CH as [CH C6]. apply andb_true_iff in CH. destruct CH as [CH C5].
  apply andb_true_iff in CH. destruct CH as [CH C4]. apply andb_true_iff in CH. destruct CH as [CH C3]. apply andb_true_iff in CH. destruct CH as [C1 C2].
  apply Z.leb_le in C1, C2. apply Z.ltb_lt in C3, C4. apply Z.eqb_eq in C5. apply negb_true_iff, Z.eqb_neq in C6.
  split; [split; [|exact C6]|].
  - apply (encodable_at c i y C1 (conj C2 C3) C4). exact C5.
  - revert C7. generalize (decryptCRC small iv0 (level_key far_prep (prefix_cmp x th (S j)) (S j)) c) as q. intros [r|]; [|discriminate]. intros C7. apply Z.eqb_eq in C7. rewrite C7. reflexivity.
Qed.
Lemma links5 : covers wit5 = true /\ forallb (link_check 5 9) wit5 = true.
Proof. split; vm_compute; reflexivity. Qed.
Lemma links12 : covers wit12 = true /\ forallb (link_check 12 9) wit12 = true.
Proof. split; vm_compute; reflexivity. Qed.
Lemma en_top : encodable (kB + Z.of_nat 15).
Proof. enc 2 40002323159878699139386463432958720916375573396346235818395920246956192270141. Qed.

Lemma far_keys s j : (j < 16)%nat -> 2 ^ 120 <= level_key far_prep s j < 2 ^ 128.
Proof.
  intros J. assert (B : 0 <= Z.of_nat j < 16) by lia. destruct s; cbn [level_key far_prep d_lt d_eq d_gt]; unfold kA, kB, kC; revert B; generalize (Z.of_nat j); intros z B; lia.
Qed.
Lemma far_distinct : distinct_keys far_prep.
Proof.
  intros s j s' j' J J' E. destruct s, s'; cbn [level_key far_prep d_lt d_eq d_gt] in E; unfold kA, kB, kC in E; (split; [|]); try reflexivity; lia.
Qed.
Lemma key2_draw x r : draw (key2 x r).
Proof. unfold key2. destruct (round_bit x r =? 1); vm_compute; (split; [discriminate|reflexivity]). Qed.
Lemma far_range x : session_range (far x).
Proof.
  assert (D01 : draw 0 /\ draw 1) by (split; vm_compute; (split; [discriminate|reflexivity])). destruct D01 as [D0 D1].
  constructor; cbn [far sd_prep sd_round sd_random sd_u sd_v sd_mask far_prep d_kopprf d_r d_ok].
  - split; [vm_compute; split; [discriminate|reflexivity]|exact D1].
  - intros j _. exact D1.
  - exact far_keys.
  - intros r R. cbv zeta. cbn [rd_key rd_a rd_b rd_c rd_p rd_u rd_v].
    assert (Q : quad_range case_quad) by (split; [exact D1|split; [exact D0|split; [exact D1|exact D0]]]).
    split; [apply key2_draw|]. split; [exact Q|]. split; [exact Q|]. split; [exact Q|]. split; [exact Q|]. lia.
  - split; [exact D1|]. split; [exact D1|]. lia.
Qed.
Lemma key2_nz x r : ~ (order | key2 x r).
Proof.
  intros D. pose proof (key2_one x r) as K. apply (order_big 1); [split; [lia|vm_compute; reflexivity]|].
  replace 1 with (key2 x r * 2 ^ round_bit x r - (key2 x r * 2 ^ round_bit x r - 1)) by ring. apply Z.divide_sub_r; [apply Z.divide_mul_l, D|exact K].
Qed.

Section Case5.
  Variables (dbg : bool) (live : Z -> bool).
  Notation multiple := (multiple live).
  Notation n := (fieldn CV).

  Lemma ot_messy k x j v : crs_logs live k 1 2 2 6 -> ~ (order | 1 + v) -> ot_ok live k (bit x j) (key2 x (Z.of_nat (S j))) case_quad v.
  Proof.
    intros [A [B [A' B']]] N.
    assert (G : multiple (crs_g (bit x j) k) (2 ^ bit x j)) by (destruct (bit_branch x j) as [-> | ->]; [exact A|exact B]).
    assert (H : multiple (crs_h (bit x j) k) (if bit x j =? 0 then 2 else 6)) by (destruct (bit_branch x j) as [-> | ->]; [exact A'|exact B']).
    apply (ot_at live k _ _ _ _ _ _ G H); [|exact N].
    replace (key2 x (Z.of_nat (S j)) * (q_s (bit x j) case_quad * 2 ^ bit x j + q_t (bit x j) case_quad * (if bit x j =? 0 then 2 else 6)) - 1)
      with (key2 x (Z.of_nat (S j)) * 2 ^ round_bit x (Z.of_nat (S j)) - 1); [apply key2_one|].
    unfold round_bit. replace (Z.to_nat (Z.of_nat (S j) - 1)) with j by lia. unfold q_s, q_t.
    destruct (bit x j =? 0); cbn [case_quad q_s0 q_s1 q_t0 q_t1]; ring.
  Qed.

  Lemma far_good k D c x : dcurve D = Some c -> live c = true -> crs_logs live k 1 2 2 6 -> x = 5 \/ x = 12 ->
    good_draws dbg live small iv0 k D 9 3 x (far x).
  Proof.
    intros Ec L CL X.
    assert (LINK : forall j, (j < 15)%nat -> forall s c0,
      encryptCRC small iv0 (level_key far_prep s (S j)) (level_key far_prep (refine s (bit x j) (bit 9 j)) j) = Ok c0 ->
      (encodable c0 /\ c_gx CV / 1024 <> c0) /\
      decryptCRC small iv0 (level_key far_prep (prefix_cmp x 9 (S j)) (S j)) c0 =
        Ok (if same_letter s (prefix_cmp x 9 (S j)) then level_key far_prep (prefix_cmp x 9 j) j else 0)).
    { destruct X as [-> | ->]; [exact (link_all 5 9 wit5 (proj1 links5) (proj2 links5))|exact (link_all 12 9 wit12 (proj1 links12) (proj2 links12))]. }
    assert (P15 : prefix_cmp x 9 15 = Eq) by (destruct X as [-> | ->]; reflexivity).
    assert (XR : 0 <= x < 2 ^ 15) by (destruct X as [-> | ->]; lia).
    constructor; cbn [far sd_prep sd_round].
    - exact far_keys.
    - rewrite P15. exact en_top.
    - intros j J s c0 E. destruct (LINK j J s c0 E) as [[E1 _] E2]. split; assumption.
    - intros s. pose proof (case_masks dbg live c D case_draws x Ec L XR eq_refl eq_refl s) as H.
      assert (ML : mask_log (far x) s = mask_log case_draws s) by (destruct s; reflexivity).
      assert (LK : forall s, level_key far_prep s 0 = level_key (sd_prep case_draws) s 0) by (intros []; reflexivity).
      change (mksd far_prep (fun r => mkrd (key2 x r) case_quad case_quad case_quad case_quad r (2 * r + 1)) 1 4 2 1) with (far x).
      rewrite ML, !LK. exact H.
    - apply order_big. split; [cbn; lia|vm_compute; reflexivity].
    - cbv zeta. rewrite P15. cbn [rd_key rd_a]. change 16 with (Z.of_nat 16). intros P v E M. apply ot_messy; [exact CL|].
      apply (not_opposite dbg live c D _ P v Ec L en_top); [vm_compute; discriminate|exact E|exact M].
    - cbv zeta. intros j J s c0 E P v EP MP. destruct (LINK j J s c0 E) as [[E1 E2] _]. cbn [rd_key].
      match goal with |- ot_ok _ _ _ _ ?q _ => replace q with case_quad by (destruct s; reflexivity) end.
      apply ot_messy; [exact CL|]. exact (not_opposite dbg live c D c0 P v Ec L E1 E2 EP MP).
    - cbv zeta. intros j J. cbn [rd_key rd_p]. apply ot_messy; [exact CL|]. apply order_big.
      change (d_ok far_prep j * d_r far_prep) with 1.
      assert (B : 0 <= bit x j * 2 ^ Z.of_nat j * 3 <= 2 ^ 100).
      { pose proof (bit_range x j) as B. assert (0 <= 2 ^ Z.of_nat j <= 2 ^ 16) by (split; [apply Z.pow_nonneg; lia|apply Z.pow_le_mono_r; lia]).
        change (2 ^ 100) with (2 ^ 16 * 2 ^ 84). destruct B as [-> | ->]; lia. }
      lia.
  Qed.

  (** the generator and its opposite have encodings of the same length *)
  Lemma gx_enc P z m : multiple P z -> z = 1 \/ z = -1 -> getEncodedX dbg live CV P = Ok m -> m = 2 * c_gx CV \/ m = 2 * c_gx CV + 1.
  Proof.
    intros M Z E.
    assert (NZ : ~ (order | z)).
    { destruct Z as [-> | ->]; [apply nz1|]. intros D. apply nz1. replace 1 with (- (-1)) by ring. apply Z.divide_opp_r. exact D. }
    pose proof (finite_m live P z M NZ) as [FI [[_ CX] _]].
    assert (Q : mk (c_prime CV) (fval (px P)) = mk (c_prime CV) (c_gx CV)).
    { destruct M as [_ DM]. unfold den in DM. rewrite FI in DM. destruct Z as [-> | ->].
      - change (gmul CV 1 (ggen CV)) with (ggen CV) in DM.
        exact (f_equal (fun o : ept (c_prime CV) => match o with Some q => fst q | None => f0 _ end) DM).
      - rewrite opp_gen in DM. exact (f_equal (fun o : ept (c_prime CV) => match o with Some q => fst q | None => f0 _ end) DM). }
    apply (f_equal (fun z => val (c_prime CV) z)) in Q. rewrite (gx_val _ CX), gx_val in Q by (vm_compute; split; [discriminate|reflexivity]).
    unfold getEncodedX in E. apply bind_Ok in E. destruct E as [T [_ E]]. apply Ok_inj in E. subst m. rewrite Q.
    destruct (fe_eq _ _); [right|left]; ring.
  Qed.
  Lemma gx_size z z' : z = 1 -> (order | z' + 1) -> same_size dbg live z z'.
  Proof.
    intros -> D. split; [apply nz1|]. split.
    { intros D'. apply nz1. replace 1 with (z' + 1 - z') by ring. apply Z.divide_sub_r; assumption. }
    intros P P' m m' M M' E E'.
    assert (M1 : multiple P' (-1)) by (apply (log_cong live P' z'); [exact M'|]; replace (z' - -1) with (z' + 1) by ring; exact D).
    pose proof (gx_enc P 1 m M (or_introl eq_refl) E) as A. pose proof (gx_enc P' (-1) m' M1 (or_intror eq_refl) E') as B.
    assert (N : nbytes (2 * c_gx CV) = 32 /\ nbytes (2 * c_gx CV + 1) = 32) by (split; vm_compute; reflexivity). destruct N as [N1 N2].
    destruct A as [-> | ->], B as [-> | ->]; rewrite ?N1, ?N2; split; reflexivity.
  Qed.

  Lemma made_dme c th k d S0 Q S Q' : server_new dbg live c th k d = Ok S0 -> setSecret dbg live S0 Q = Ok (S, Q') -> sdme (ots S) = dme_new_crs c k.
  Proof.
    intros E0 E1. unfold setSecret in E1. apply bind_Ok in E1. destruct E1 as [? [_ E1]]. apply bind_Ok in E1. destruct E1 as [? [_ E1]].
    apply Ok_inj in E1. injection E1 as <- _. unfold server_new in E0. apply bind_Ok in E0. destruct E0 as [? [_ E0]]. apply Ok_inj in E0. subst S0. reflexivity.
  Qed.

  Lemma case91 c0 c1 c2 x th' k' : live c0 = true -> live c1 = true -> live c2 = true -> x = 5 \/ x = 12 -> 0 <= th' < 2 ^ 16 ->
    (x <= 9 <-> x <= th') -> draw k' -> (x <= 9 -> (order | k' + x * 7 - (17 + x * 3))) -> (9 < x -> (order | k' + x * 7 - x * 3 - 16 + 1)) ->
    exists D Q Q' S0 S S0' S' f t d' t' C1 C1', dme_new dbg live c0 messy 2 3 1 2 = Ok D /\ getRandomPoint dbg live CV (Some c0) 3 = Ok Q /\
      getRandomPoint dbg live CV (Some c0) 7 = Ok Q' /\
      server_new dbg live c1 9 (dcrs D) 1 = Ok S0 /\ setSecret dbg live S0 Q = Ok (S, set_curve Q (Some c1)) /\
      server_new dbg live c1 th' (dcrs D) 1 = Ok S0' /\ setSecret dbg live S0' Q' = Ok (S', set_curve Q' (Some c1)) /\
      let C := setMessage (client_new c2 (dcrs D)) x in
      (forall k b, ~ unseen far_prep 9 x k -> f k b = repeat 0 16) /\
      talk dbg live small iv0 S C (far x) = Ok t /\ talk dbg live (masked f small) iv0 S' C d' = Ok t' /\ same_view t t' /\
      same_client_draws (far x) d' /\ session_range d' /\ d_kopprf (sd_prep d') = k' /\
      offline dbg live small iv0 C (far x) t = Ok C1 /\ offline dbg live (masked f small) iv0 C d' t' = Ok C1' /\
      key C1' = key C1 /\ den CV (result C1') = den CV (result C1).
  Proof.
    intros L0 L1 L2 X TH' SIDE DK LOW HIGH. destruct (new_messy_rf dbg live c0 2 3 1 2 L0) as [D [ED [_ [_ KD]]]]. rewrite !mk_mul in KD. change (3 * 2) with 6 in KD; change (2 * 1) with 2 in KD.
    assert (NZ : forall z, 0 < z <= 6 -> mk n z <> f0 n) by (intros z Z; apply small_nz; lia).
    assert (FI : crs_finite (dcrs D)).
    { destruct KD as [_ _ A B A' B'].
      split; [refine (fin_any live _ _ A _)|split; [refine (fin_any live _ _ B _)|split; [refine (fin_any live _ _ A' _)|refine (fin_any live _ _ B' _)]]]; apply NZ; lia. }
    destruct (case_world dbg live c0 c1 D L0 L1 FI) as [Q [S0 [S [EQ [E0 [E1 [SR [TH [SC DG]]]]]]]]].
    assert (N7 : ~ (order | 7)) by (apply order_big; lia). destruct (randP_m dbg live c0 7 L0) as [Q' [EQ' MQ']].
    destruct (L_ready_server dbg live c1 th' (dcrs D) Q' 7 1 L1 FI TH' MQ' N7) as [S0' [S' [E0' [E1' [SR' [TT' [SC' [_ _]]]]]]]].
    pose proof (sr_ots _ _ _ SR) as OK. pose proof OK as [[c [Ec L]] _].
    destruct (same_drf live _ _ _ _ _ _ _ KD OK SC) as [cs KS].
    assert (KC : drf live (dme_new_crs c2 (dcrs D)) c2 (mk n 1) (mk n 2) (mk n 2) (mk n 6)).
    { apply (received_drf live c0 c2 D _ _ _ _ L2 KD); apply NZ; lia. }
    assert (MR : forall P z, EccProofs.rk live CV P (val n (mk n z)) -> multiple P z).
    { intros P z H. apply (multiple_rf live). exact H. }
    assert (CL : crs_logs live (dcrs (sdme (ots S))) 1 2 2 6).
    { destruct KS as [_ _ A B A' B']. split; [exact (MR _ _ A)|]. split; [exact (MR _ _ B)|]. split; [exact (MR _ _ A')|exact (MR _ _ B')]. }
    assert (CL' : crs_logs live (dcrs (rdme (otr (client_new c2 (dcrs D))))) 1 2 2 6).
    { destruct KC as [_ _ A B A' B']. split; [exact (MR _ _ A)|]. split; [exact (MR _ _ B)|]. split; [exact (MR _ _ A')|exact (MR _ _ B')]. }
    assert (XR : 0 <= x < 2 ^ 16) by (destruct X as [-> | ->]; lia).
    destruct (L_ready_client live c2 (dcrs D) x L2 FI XR) as [CR [SCc RS]].
    assert (SCC : same_crs (dcrs (rdme (otr (client_new c2 (dcrs D))))) (dcrs (sdme (ots S)))) by (apply (same_crs_trans _ _ _ SCc); apply same_crs_sym; exact SC).
    assert (EDM : sdme (ots S') = sdme (ots S)) by (rewrite (made_dme _ _ _ _ _ _ _ _ E0 E1), (made_dme _ _ _ _ _ _ _ _ E0' E1'); reflexivity).
    pose proof (far_good (dcrs (rdme (otr (client_new c2 (dcrs D))))) (sdme (ots S)) c x Ec L CL' X) as GD. rewrite <- TH in GD.
    destruct (L_session dbg live small iv0 S (setMessage (client_new c2 (dcrs D)) x) (far x) 3 x 0 case_aes SR CR ltac:(apply same_crs_sym; exact SCC) GD
      ltac:(cbn [setMessage result]; rewrite RS; apply multiple_inf)) as [Sx [Cx [ES _]]].
    destruct (L_session_talk dbg live small iv0 _ _ _ _ _ ES) as [t [T _]].
    destruct (L_C91 dbg live iv0 (repeat 0 16) S S' (client_new c2 (dcrs D)) 3 7 1 2 2 6 x (far x) k' SR SR' EDM (cr_otr _ _ _ CR) SCC CL) as [f [_ [FZ H]]].
    - apply order_big; lia.
    - exact XR.
    - apply far_range.
    - exact far_distinct.
    - exact nz1.
    - intros r _. apply key2_nz.
    - rewrite TH, TT'. exact SIDE.
    - exact DK.
    - rewrite TH. exact LOW.
    - rewrite TH. intros G. apply gx_size; [reflexivity|]. exact (HIGH G).
    - destruct (H small t case_aes eq_refl T) as [d' [t' [H1 [H2 [H3 [H4 [H5 [_ H6]]]]]]]]. destruct (H6 CR GD) as [C1 [C1' [O1 [O2 [O3 O4]]]]].
      rewrite TH in FZ.
      exists D, Q, Q', S0, S, S0', S', f, t, d', t', C1, C1'. split; [exact ED|]. split; [exact EQ|]. split; [exact EQ'|]. split; [exact E0|]. split; [exact E1|].
      split; [exact E0'|]. split; [exact E1'|]. split; [exact FZ|]. split; [exact T|]. split; [exact H4|]. split; [exact H5|]. split; [exact H2|]. split; [exact H3|].
      split; [exact H1|]. split; [exact O1|]. split; [exact O2|]. split; [exact O3|exact O4].
  Qed.
End Case5.
