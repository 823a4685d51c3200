# Formal model of crypto-utils in Rocq (Coq 8.16.1)

## 1. Approach

The model is a set of total, computable Gallina functions over `Z`, `list`, `option` and records, one per C++ function, each
with a comment citing file and lines.  Undefined behaviour, failed asserts, missing GMP inverses, out-of-bounds accesses and
dead curve objects are *distinct outcomes* (`Err fault`) of an outcome type `res A`; nothing is assumed away.  Two parameters
describe the build and the state of memory: whether `assert` is active (`dbg`; the project's CMake file selects
RelWithDebInfo, i.e. `-DNDEBUG`, so `dbg = false` is the shipped build) and which curve objects are alive (`live`).  Random
draws are explicit arguments in the order in which the code draws them; theorems quantify over all of them.

Each topic has up to four kinds of files under `rocq/theories`:

* `XModel.v`: the code, function by function.  Nothing is proved there.
* `SpecX.v`: what the properties mean, written without the model's helper functions (mathematics of integers, residues,
  polynomials, curve points) so that it can be read against the English statement.
* `XProofs*.v`: the proofs.
* `Prop_X.v`: the property theorems only, named after the property (`C26_…`), each closed by `exact`, followed by `Print
  Assumptions`, with `Example`s that meet the hypotheses beside them.  Claims of the English statement which the code does
  not satisfy appear as `…_refuted` with a witness, next to the strongest claim that does hold.

| topic | files | source |
|---|---|---|
| outcomes | `Outcome` | |
| number theory | `Fermat`, `FastMod`, `Pocklington`, `Primes` | |
| fields and polynomials (mathematics) | `ZpField`, `Emb`, `Poly` | |
| elliptic curves (mathematics) | `ECGroup` (group law over any field), `ECOrder` (counting), `NoRoot` (no 2-torsion), `ECCert`, `Cert_secp256r1`, `Cert_bn254` (n·G = 0), `CurveFacts` | |
| constants | `CurveParams` | `src/fields/*.cpp`, `src/ecc/*.cpp` |
| fields (C01-C06) | `FieldModel`, `SpecField`, `FieldProofs`, `Prop_Field` | `includes/field_template.hpp` |
| points and curves (C07-C19) | `EccModel`, `SpecEcc`, `EccProofs`, `EccThms*`, `Prop_Ecc`; `RF` (valid points as residues) | `includes/ecc_template.hpp` |
| secret sharing (C20-C25, C64, C65) | `ShamirModel`, `SpecShamir`, `ShamirProofs*`, `Prop_Shamir` | `src/shamirss` |
| dual-mode encryption (C26-C34, C66, C67) | `DmeModel`, `SpecDme`, `DmeProofs*`, `Prop_Dme` | `src/dme` |
| oblivious transfer (C35, C36, C68) | `OtModel`, `SpecOt`, `OtProofs*`, `Prop_Ot` | `src/ot` |
| distributed transfer with a cheating receiver (C125) | `SpecDot`, `DotProofs*`, `DotCase`, `Prop_Dot` | `src/ot/dot.cpp`, `src/dme/dmhe.cpp` |
| strings of the two modes that reveal both messages (C126) | `DoubleProofs`, `Prop_Double` | `src/dme/dme.cpp` |
| distributed transfer with senders that work with the receiver (C127) | `SpecDot2`, `DotProofs3`, `DotCase2`, `Prop_Dot2` | `src/ot/dot.cpp`, `src/dme/dmhe.cpp` |
| order and hierarchy of proxies (C128) | `SpecDot2`, `DotProofs4`, `Prop_Dot3` | `src/ot/dot.cpp`, `src/dme/dmhe.cpp` |
| aggregation (C37-C40, C62, C63, C85, C86, C94) | `PudaModel`, `SpecPuda`, `SpecPuda2`, `SpecPuda3`, `PudaProofs*`, `Prop_Puda`, `Prop_Puda2`, `Prop_Puda3` | `src/puda` |
| CRC and byte conversions (C41-C45) | `CrcTables` (generated by `tools/crctables.py`), `CrcModel`, `SpecCrc`, `CrcProofs*`, `Prop_Crc` | `includes/crc.hpp`, `src/utilities/utilities.cpp` |
| AES (C46-C49, C58, C72, C104) | `AesModel`, `SpecAes`, `SpecCount`, `AesProofs*`, `CountProofs`, `Prop_Aes`, `Prop_Count` | `src/utilities/aes.cpp` |
| distances of the CRC (C112) | `SpecHd`, `HdMath*`, `HdProofs*`, `Prop_Hd` | `includes/crc.hpp`, `src/utilities/aes.cpp` |
| AES-128 itself (C111) | `Aes128`, `SpecAes2`, `Aes128Proofs*`, `Prop_Aes2` | FIPS 197; `src/utilities/aes.cpp` |
| OPPRF (C50-C54, C59-C61, C78-C83, C87-C89, C91, C101-C103) | `OpprfModel`, `SpecOpprf`, `SpecOpprf2` (transcripts), `SpecOpprf3` (changed transcripts), `SpecOpprf4` (the order of the ciphertexts), `SpecOpprf5` (any block function), `SpecOpprf6` (histories of calls), `AesProofs3`, `OpprfProofs*`, `OpprfCase`, `OpprfCase2`, `OpprfCase3`, `OpprfCase4`, `OpprfCase5`, `OpprfCase6` (complete runs), `Prop_Opprf`, `Prop_Opprf2`, `Prop_Opprf3`, `Prop_Opprf4`, `Prop_Opprf5`, `Prop_Opprf6` | `src/opprf` |
| Operation sequences (C84, C97, C99) | `TraceModel`, `TraceModel2` (model functions with events), `SpecTrace` to `SpecTrace3`, `TraceProofs` to `TraceProofs3`, `Prop_Trace` to `Prop_Trace3` | `includes/ecc_template.hpp`, `src/dme`, `src/puda`, `src/elgamal`, `src/ot`, `src/opprf` |
| correctDecryption (C98) | `CounterModel`, `CounterProofs`, `Prop_Counter` | `src/opprf` |
| the commented check of `Verify` (C109, C110) | `SpecPair`, `PairMath`, `PairProofs`, `Prop_Pair` | `src/puda/puda.cpp`, curve constants |
| reductions to Diffie-Hellman (C105-C108, C113-C116) | `SpecDdh*`, `CountMath`, `DdhProofs*`, `DdhMany*`, `DdhServe*`, `DdhHear*`, `DdhChoose*`, `DdhWire*`, `DdhCases*`, `Prop_Ddh*` | `src/elgamal`, `src/dme`, `src/ot`, `src/opprf` |
| cheating receiver (C117) | `SpecCheat`, `CheatProofs*`, `CheatCase`, `Prop_Cheat` | `src/dme/dme.cpp`, `src/ot/ot.cpp`, `src/opprf/opprf.cpp` |
| receiver with points off the curve (C118) | `SpecTrick`, `TrickRoots`, `TrickMath`, `TrickProofs*`, `TrickCase`, `Prop_Trick` | `includes/ecc_template.hpp`, `src/dme/dme.cpp`, `src/ot/ot.cpp`, `src/opprf/opprf.cpp` |
| transfers beside ideal worlds (C119, C120), on any string (C123) | `SpecIdeal`, `IdealProofs*`, `IdealCase`, `Prop_Ideal`, `SpecSend`, `SendProofs*`, `Prop_Send`, `ComposeProofs`, `ComposeCase`, `Prop_Compose` | `src/dme/dme.cpp`, `src/ot/ot.cpp` |
| the oblivious PRF with a cheating client (C121, C122, C124) | `SpecClient`, `SpecClient2`, `ClientMath`, `ClientProofs*`, `ClientCase*`, `Prop_Client*` | `src/opprf/opprf.cpp`, `src/dme/dme.cpp` |
| Points off the curve (C100) | `OffMath` (the cubics with a node and with a cusp), `SpecOff`, `OffProofs`, `OffProofs2`, `Prop_Off` | `includes/ecc_template.hpp`, `src/dme` |
| Histories of point operations (C95) | `HistModel`, `SpecHist`, `HistProofs`, `Prop_Hist` | `includes/ecc_template.hpp` |
| The two builds (C96) | all models; `SpecErase`, `EraseProofs`, `Prop_Erase` | `includes`, `src`, `testsuit` |
| byte buffers (C92) | `HeapModel` (model functions with the buffers they allocate), `SpecHeap`, `HeapProofs`, `HeapProofs2`, `Prop_Heap` | `src/utilities`, `includes/crc.hpp`, `src/opprf` |
| failing draws (C90) | `SpecDraw`, `DrawProofs`, `Prop_Draw` | `src/dme`, `src/ot`, `src/elgamal` |
| ElGamal (C55, C93) | `ElgamalModel`, `SpecElgamal`, `SpecElgamal2`, `ElgamalProofs`, `ElgamalProofs2`, `Prop_Elgamal`, `Prop_Elgamal2` | `src/elgamal` |
| ownership of curves (C56) | `OwnModel`, `SpecOwn`, `OwnProofs`, `Prop_Own` | constructors and destructors of all classes with owning pointers |
| text (C69-C71) | `TextModel`, `SpecText`, `TextProofs*`, `Prop_Text` | string constructors and `operator<<` of `includes` |
| test programs (C73-C77) | `TestModel`, `SpecTest`, `TestCert` (generated by `tools/testcert.py`), `TestProofs*`, `Prop_Test` | `testsuit/*.cpp` |
| known answers | `Kat` (the numbers in the repository's field and curve tests, computed with the model) | `testsuit` |
| generators (C57) | `RngModel`, `SpecRng`, `RngProofs`, `Prop_Rng` | all calls that draw random values |

## 2. Method per property

* C01-C03, C06: operators as functions on `{value; modulus}`; `Z.modulo`; inverse by extended Euclid; proofs by congruence.
* C04: Pocklington certificates, checked by computation, criterion proved from Fermat's little theorem.
* C05: induction over a list of operations, refinement to residue arithmetic.
* C07, C13: `n*G = 0` by checking a chain of doublings and additions (`ECCert`); no 2-torsion because Cardano's resolvent is
  not a cube (`NoRoot`); every point is in `<G>` because otherwise three cosets would exceed `2p+1` points (pigeonhole).
* C08-C12, C14, C17-C19: refinement of the C++ operators to the chord-tangent group; the group law itself is
  proved for an arbitrary field (associativity by polynomial identities modulo the curve equation plus case analysis).
* C15, C16: Euler criterion for p = 3 mod 4.
* C20-C25, C64, C65: Lagrange interpolation, root counting.
* C26-C36, C66-C68: module arguments over Z/n on top of the EC refinement; perfect-hiding claims as bijections on randomness.
* C37-C40: induction over users.  C62, C63: the linear relations between ciphertexts, and between tags, solved explicitly.
* C85, C86, C94: the keys that make other messages fit are solved for, and shown to be the only ones.
* C41-C45: GF(2)-linearity of the CRC register; tables checked by computation (finite domain) and lifted to all lengths.
* C46-C49, C58, C72: CTR mode over an arbitrary block function; C72 from the linearity of both layers.
* C50-C54, C59-C61: state machine over 16 rounds, invariant "client key = key of comparison of the processed prefixes".
* C78-C83: the messages of a run in terms of discrete logarithms; other draws with the same messages solved for explicitly,
  round by round, with uniqueness from a nonzero determinant.
* C87, C88: two runs of the client side by side, related round by round.
* C89: induction over the rounds with the invariant of C50, following the index of the ciphertext that passes the check; the threshold part is arithmetic of prefixes.
* C90: each condition for failure is an equation of degree one in the draw counted, over the field of order n.
* C91: the letters that the client does not follow are permuted at each level, the branch it did not choose is adjusted by the draws of a messy CRS, and the key streams under the keys it does not get are changed by the difference of the two plaintexts; the messages are then equal round by round.
* C92: the functions with a memory give the values of those without (`gives`, composed like the functions); each leaves or at least adds a number of blocks, composed the same way.
* C84: invariant of the double-and-add loop (no addition of equal or opposite points for reduced scalars).
* C97: what is read off a sequence is composed like the functions (`sees`); the search of the aggregator by induction over its loop.
* C98: induction over the calls.  C99: counts of one event in the functions with events, and C89.
* C100: the formulas on y^2 = (x+1)^2 (x-2) and y^2 = x^3 are products and sums in the field; simulation of the loop of operator*.
* C101-C103: an invariant over all histories relates the server to the fresh server after one preparation; the shares of a round
  satisfy the same equation after every history; the bypass reuses the lemmas about honest rounds with another threshold.
* C104: the accepted ciphertexts are the image of an interval of messages, less those whose ciphertext gets shorter, under an injective map.
* C105-C108: games are counted over all draws and all coins of the adversary; bijections between the draws of two games turn one count into the other, and two games that agree outside a set of draws differ by at most the size of the set.
* C109, C110: the multiplicative order of p modulo n from certified factorisations; homomorphisms from the group of points into finite abelian groups by Lagrange's theorem; the check as an equation between logarithms.
* C111: AES-128 as in FIPS 197 (checked against the examples of the standard), each round inverted step by step; counter mode over a permutation; counting of blocks.
* C112: no four of the first 5275 and no six of the first 209 powers of x cancel, by a search over binary tries of words that is proved complete; sharpness by explicit multiples of the polynomial.
* C113: every ciphertext of the service is a re-randomisation of one Diffie-Hellman triple by its own pair of draws. Off ab the pair maps linearly onto two independent draws, and the adaptively chosen messages are taken off one after the other by a bijection that carries the ciphertexts seen so far; on ab the triple is an encryption. Both counts are exact.
* C114: the draws of a conversation are changed step by step by a bijection whose state is the branch, the key and what has been heard. On ab the ciphertext of the receiver's branch uses two draws whose combination with the string is the re-randomised second element; on another element that ciphertext and the one of the other branch are invertible linear images of the draws, shifted by the messages. Strings with a zero or singular branch, a key drawn as zero and the draws that hit ab are the loss, counted by unions of products.
* C115: C114 replaces the ciphertexts of both conversations by random elements; what is left are the keys, told apart as in C108 by distinguishers that draw the random elements themselves. The coins are numbered, so that the messages need to be valid only for coins that can occur.
* C116: an evaluation is one of the conversations of C115: induction over the rounds shows that `exchanges` sends exactly what `overheard` says, with the rows of the prepared server as messages, and that preparing and masking do not look at the string.
* C117: with the logarithms (x, y) of the key and (a, b) of a branch, either (x, y) = k(a, b), and k opens the ciphertext, or for every d two draws can be moved so that the first half of the ciphertext stays and the second moves by d, which is a bijection of the draws. Strings with a key for both branches are those whose halves are multiples of each other; they are counted by the first half and the factor. The infinite key is followed through `Enc`, `encMsgs` and `runOTRound`; the rounds after it are those of C50.
* C118: the addition never reads the curve's b, so (15, y) is added as a point of the curve with another b; y is chosen so that it is a flex there, which makes its multiples T, -T, infinity. The sum of T and a curve point m is computed by the chord rule, since no curve point has the abscissa 15 (`TrickRoots`: 15^3 - 3*15 + b is not a square, by Euler's criterion), and adding -T gives m back by a field identity, unless the sum has the abscissa 15 itself; it never has, because a certain cubic has no root modulo p (`no_tangent`). That a valid sum is -m is another field identity. The count is by residues modulo three.
* C119: for the branch that `FindMessy` names, the bijection of the draws of C117 turns the answer with the message into the answer with infinity. The theorem is by induction on the number of transfers, with the counts after each possible answer summed along that bijection (`along`), so that the next key and the next messages may depend on the answer.
* C120: a key of `TrapKeyGen` with the draw y*r is the key of `KeyGen` for branch 1 with the draw r, and its second secret key is r itself as a field element, so that `Dec` returns literally the same thing for any ciphertext. The draws are multiplied by 1 or y according to the choice, which is a bijection; the induction is that of C119.
* C121: in every round one branch of the PRF transfer is hidden by a messy branch. If it is branch 1, the messages of the other branch agree already; if it is branch 0, the scalar of the share is moved by 2^i (a - a') / r, so that branch 1 agrees. The draws of the hidden branch are moved to keep its ciphertext. All moves of the scalars are made good by the PRF key, which is drawn last, so that the mask point stays the same. The rows of AES ciphertexts do not depend on the secret at all.
* C122: what C121 needs of the string is that every key has a branch whose pair of draws can be moved; if a key has none, its points are multiples of both pairs of the string, and the multiples open both messages of every round.
* C123: a key either reveals or hides the message of a branch (C117); if it hides it, the two draws of the branch can be moved so that the answer is that of any other message. Both branches are moved at once, and the induction is that of C119.
* C124: the share of branch 1 in round r is 2^(r-1) times the secret plus the product of the two draws, which is read off the answer of a round (C122); the pairs with product zero modulo a prime are counted.
* C125: the aggregate depends on the sums of the draws only; for fixed draws of all senders but the first, adding their sum modulo n is a bijection on the draws of the first. The rest is C117 and C123 for one sender.
* C126: the condition on the logarithms of a string (C117) is solved for the logarithms that the two modes produce.
* C127: on logarithms the aggregate is a sum over all answers, so the others' share is a constant; a judge of the moved aggregate is a judge of the aggregate of C125.
* C128: sums of logarithms as for C127, and induction over the tree of proxies; that an aggregate is an answer of points of the curve again is C08.
* C95: forward simulation between programs on point objects and programs on the curve group, one lemma per instruction; the abstract machine is shown deterministic.
* C96: a relation between the outcomes of the two builds that `bind`, folds and loops preserve; proved function by function, up to the test programs.
* C69-C71: positional notation by induction on the digits; character classes by computation over the 256 characters.
* C55, C93: as C26.  C56: heap model of owning objects, induction over histories.  C57: deterministic generator state.

## 3. Trusted base

### 3.1 Logic

* The kernel of Coq 8.16.1, including its virtual machine (`vm_compute` is used for the certificates and the CRC tables; no
  `native_compute`).
* Every theorem of every `Prop_*.v` is followed by `Print Assumptions`, and each prints `Closed under the global context`: no
  axiom is used, neither of this development nor of the standard library.
* `coqchk` lists seven constants of the standard library (`Coq.ssr.ssrunder.Under_rel.*`, an opaque module of the
  ssreflect plugin that is loaded with it).  No theorem here depends on them.
* Sections use `Variable`/`Hypothesis`, always inside a `Section`; they are discharged at its end.

### 3.2 Reading the statements

To trust a theorem one reads the `XModel.v` against the cited lines, `SpecX.v` against the English, and the theorem.  The
proofs, certificates and mathematical files need not be read.

### 3.3 What is modelled

Every function with a body in the files listed in section 1, except those of 3.4.  In particular: the arithmetic of
`mpz_class` is that of `Z`; `size_t` is 64 bits, `int` 32, `short` 16, and conversions, wrap-around and signed overflow
are explicit where the code relies on them (thresholds in `getShares`, lengths in the CRC and AES code, branch values,
rounds, 16-bit messages).

### 3.4 What is not modelled

* The build files, and the terminal output of the test programs.
* `Curve::generateKeyPair`, `ecc_template.hpp:658-663`, beyond its product: it passes a base-class `Point` where a `Point_XXX` is
  expected and has no conversion for it, so an instantiation would probably not compile; its one caller, `ElGamal::keyGen`,
  is in a module the build leaves out.
* Getters that return a constant member (`getOrder`, `getPrime`, `getA`, `getB`, `getCofactor`); they are inlined.
* Functions that are declared but have no body anywhere (`Point::operator*=(mpz)`, `OPPRFserver::Enc`,
  `OPPRFclient::getKeyi`, all of `topprf.hpp`), and the empty modules (`dopprf`, `kob`, `vsa`).
* Exhaustion of memory, except for vectors of shares (`cap` in `ShamirModel`) and the room behind a `malloc` block where the
  CRC code writes past its end (`room`).  The buffers of `getRawMpz`, which are never released, are in `HeapModel`; they change
  no result (`C92_values`).  `BN`/`EVP` contexts on error paths are left out.
* Time, caches and other side channels, except the sequence of point operations (`TraceModel`, `TraceModel2`); threads (all shared state is unsynchronised; executions are sequential here).
* Running time: the hiding claims are either information-theoretic (bijections between random draws) or reductions (C105-C108, C113-C116) that write out, for every adversary, the distinguisher whose Diffie-Hellman advantage bounds the adversary's. That no efficient distinguisher exists is not stated.

### 3.5 Assumptions about the surroundings

They are parameters or definitions in the model, not axioms:

* GMP: `mpz_mod` is `Z.modulo` for positive moduli; `mpz_invert` yields the inverse in `[0, m)` when there is one and
  leaves its operand undefined otherwise; `mpz_powm`, `mpz_export`, `mpz_import`, `mpz_div_2exp` (rounding down),
  `get_str(2)` as documented.  Division by zero aborts.  `mpz_set_str` follows its source (`TextModel`); streams have their
  initial flags.
* The generators of GMP and libc: arbitrary functions of their state (`RngModel`), arbitrary draws elsewhere;
  `get_z_range(n)` lies in `[0, n)`, `get_z_bits(k)` in `[0, 2^k)` where a theorem says so.
* `std::random_shuffle` as in libstdc++: two calls of `rand()` choose the permutation of three elements (`OpprfModel`,
  `RngModel`); correctness theorems hold for every permutation.
* OpenSSL: AES-128 is an arbitrary function from key and block to block (`block`), except in C111 where it is FIPS 197 (`Aes128`); `EVP_aes_128_ctr` is CTR mode with a 128-bit
  big-endian counter; initialisation with a null key leaves it unset.
* The allocator: any (`OwnModel`: any that hands out addresses not in use; `heap`, `room`, `after_iv` in `AesModel`).
* Curve objects are never modified after construction, so every live object holds the constants of its class.
