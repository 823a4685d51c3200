{"id": "C01", "title": "Field construction is canonical reduction", "statement": "Constructing a field element from any integer v (negative, zero, larger than the modulus) stores the unique r with 0<=r<p and r congruent to v, and modulus p; constructing twice from congruent integers gives objects that compare ==.", "quantifier": "all integers v, all four field classes", "why_tests_cant": "integers are unbounded; a test samples a few", "anchors": ["includes/field_template.hpp: PrimeField(v,prime)", "src/fields/field_secp256r1.cpp", "src/fields/field_bn254.cpp"]}
{"id": "C02", "title": "Field +, -, unary -, *, integer *, square compute exact modular arithmetic", "statement": "Each operator on elements of one field class returns the element congruent to the exact integer result, in canonical form, and never faults; the compound forms (+=, -=, *=, /=) leave the object equal to what the binary form returns, including when the operand aliases the target.", "quantifier": "all pairs of field elements and all integers", "why_tests_cant": "256-bit operand space", "anchors": ["includes/field_template.hpp: operator+ operator- operator* square operator+= operator-= operator*= operator/="]}
{"id": "C03", "title": "Inversion and division", "statement": "For every non-zero a, a*a.invert()==1 and (b/a)*a==b; for a==0 the inverse does not exist and the library hands GMP's failure result on unchecked (distinct outcome).", "quantifier": "all a, b of a field class", "why_tests_cant": "256-bit operand space, and the one failing input is never hit by random tests", "anchors": ["includes/field_template.hpp: invert operator/ operator/="]}
{"id": "C04", "title": "The four moduli are prime, so the classes are fields", "statement": "The moduli of the secp256r1 and bn254 base and scalar field classes are prime; hence products of non-zero elements are non-zero and every non-zero element is invertible.", "quantifier": "all elements of all four classes", "why_tests_cant": "primality ranges over all divisors of a 256-bit number", "anchors": ["src/fields/field_secp256r1.cpp", "src/fields/field_bn254.cpp"]}
{"id": "C05", "title": "Any history of compound field operations tracks exact integers", "statement": "Starting from any constructed element, after any sequence of compound updates (+=, -=, *=, *= integer, /= by a non-zero element) the stored value is canonical and equals the value of the same sequence evaluated in the field of residues.", "quantifier": "all operation sequences", "why_tests_cant": "unbounded histories", "anchors": ["includes/field_template.hpp: operator+= operator-= operator*= operator/="]}
{"id": "C06", "title": "Changing the modulus of an element breaks closure", "statement": "With setField, an element whose modulus differs from its class makes binary operators return an element of the class modulus rather than the operand's, and the stored value is not re-reduced: 'the result lives in the operand's field' is false. In a Debug build mixed-modulus operators abort; in the build the project configures (NDEBUG) they silently compute.", "quantifier": "all elements and moduli", "why_tests_cant": "needs a witness over all moduli; the default tests never call setField", "anchors": ["includes/field_template.hpp: setField operator+ (assert)", "CMakeLists.txt: CMAKE_BUILD_TYPE"]}
{"id": "C07", "title": "Curve constants are a prime-order group", "statement": "For both curves: the generator satisfies the curve equation, p = 3 mod 4, the curve is non-singular, the declared order n is prime, n*G is infinity and no smaller positive multiple of G is.", "quantifier": "all multiples 0<k<n of G", "why_tests_cant": "there are 2^256 multiples", "anchors": ["src/ecc/ecc_secp256r1.cpp", "src/ecc/ecc_bn254.cpp"]}
{"id": "C08", "title": "Closure: point addition of valid points", "statement": "For all points that pass isValid and refer to a live curve object, P+Q (and +=) returns without fault a point that passes isValid, namely the chord-and-tangent sum.", "quantifier": "all pairs of valid points", "why_tests_cant": "2^512 pairs including the doubling, inverse and infinity cases", "anchors": ["includes/ecc_template.hpp: Point::operator+ operator+="]}
{"id": "C09", "title": "Abelian group laws for +", "statement": "(P+Q)+R and P+(Q+R) denote the same point; P+Q and Q+P too; infinity is neutral; P + (0 - y mirrored P) is infinity.", "quantifier": "all triples of valid points", "why_tests_cant": "associativity ranges over 2^768 triples, with many degenerate cases", "anchors": ["includes/ecc_template.hpp: Point::operator+"]}
{"id": "C10", "title": "pointDouble agrees with P+P", "statement": "For every valid finite point pointDouble returns P+P with no division by zero; called on the default infinity it dereferences a null curve.", "quantifier": "all valid points", "why_tests_cant": "2-torsion absence is a statement on all points", "anchors": ["includes/ecc_template.hpp: Point::pointDouble"]}
{"id": "C11", "title": "Scalar multiplication is repeated addition", "statement": "P*a equals P added to itself (a mod n) times for every integer a and for every field scalar a; it never faults on a valid point and yields a valid point.", "quantifier": "all valid points and all integers", "why_tests_cant": "unbounded scalars and points", "anchors": ["includes/ecc_template.hpp: Point::operator*"]}
{"id": "C12", "title": "Scalar multiplication is a module action", "statement": "P*(a+b)=P*a+P*b, (P*a)*b=P*(a*b), (P+Q)*a=P*a+Q*a, with scalars taken in the scalar field; negative integers give the mirrored point.", "quantifier": "all valid points P,Q, all scalars", "why_tests_cant": "see above", "anchors": ["includes/ecc_template.hpp: Point::operator*"]}
{"id": "C13", "title": "Every valid point has order n", "statement": "Every valid finite point is a multiple of the generator and has exact order n: there is no small subgroup and no 2-torsion on either curve.", "quantifier": "all valid points", "why_tests_cant": "counting 2^256 points", "anchors": ["src/ecc/ecc_secp256r1.cpp: order cofactor", "src/ecc/ecc_bn254.cpp"]}
{"id": "C14", "title": "Subtraction", "statement": "P-Q is P plus the mirror image of Q for finite Q. For Q = infinity (for instance the result of multiplying by 0) the claim P-infinity=P is false: in the configured build a bogus off-curve point is used, in a Debug build a null pointer is dereferenced.", "quantifier": "all valid points", "why_tests_cant": "the failing operand is one point out of 2^256", "anchors": ["includes/ecc_template.hpp: Point::operator- operator-="]}
{"id": "C15", "title": "Point lookup by x", "statement": "evaluateP(x) returns a valid point with abscissa x exactly when one exists, and infinity otherwise; evaluatePneg returns its mirror image; evaluatePy2 is the right-hand side.", "quantifier": "all field elements x", "why_tests_cant": "half of 2^256 inputs fail; Euler's criterion", "anchors": ["includes/ecc_template.hpp: evaluateP evaluatePneg evaluatePy2"]}
{"id": "C16", "title": "Compressed point encoding round-trips", "statement": "setEncodedX(getEncodedX(P)) restores P for every valid finite P; two valid points with the same encoding are equal; an encoding of a non-residue silently yields infinity with no curve.", "quantifier": "all valid points, all encodings", "why_tests_cant": "2^256 points", "anchors": ["includes/ecc_template.hpp: getEncodedX setEncodedX"]}
{"id": "C17", "title": "isValid decides curve membership", "statement": "isValid is true exactly for infinity and for points with a live curve whose coordinates satisfy the equation modulo the curve prime; false when the curve pointer is null.", "quantifier": "all coordinates", "why_tests_cant": "2^512 coordinate pairs", "anchors": ["includes/ecc_template.hpp: isValid"]}
{"id": "C18", "title": "Point equality is an equivalence and is crash-free on valid points", "statement": "On valid points == never faults and holds exactly when both are infinity or both have the same coordinates.", "quantifier": "all pairs of valid points", "why_tests_cant": "null/short-circuit corner case on a single point", "anchors": ["includes/ecc_template.hpp: Point::operator=="]}
{"id": "C19", "title": "Curve lifetime", "statement": "All point operators applied to valid points only read curve objects referenced by finite operands; they fault with use-after-free when a curve they need is dead, and every finite result refers to an operand's curve.", "quantifier": "all points, all sets of live curve objects", "why_tests_cant": "dangling pointers are invisible to tests that happen to work", "anchors": ["includes/ecc_template.hpp: Point::curve"]}
{"id": "C20", "title": "Threshold reconstruction", "statement": "For all 1<=t<=n<2^64, every secret and every coefficient draw, any selection of at least t distinct shares produced by getShares, in any order, reconstructs the secret.", "quantifier": "all t, n, secrets, draws, subsets, orders", "why_tests_cant": "exponentially many subsets", "anchors": ["src/shamirss/shamirss.cpp: getShares reconSecret evalPoly"]}
{"id": "C21", "title": "Reconstruction is interpolation at zero", "statement": "reconSecret on any list of shares with pairwise distinct indices returns the value at 0 of the unique polynomial of degree < k through them; on no shares it returns 0.", "quantifier": "all share lists", "why_tests_cant": "unbounded lists", "anchors": ["src/shamirss/shamirss.cpp: reconSecret"]}
{"id": "C22", "title": "Repeated index", "statement": "If two shares in the list carry the same index, reconstruction divides by zero (distinct outcome), whatever the values.", "quantifier": "all share lists with a repeated index", "why_tests_cant": "unbounded lists", "anchors": ["src/shamirss/shamirss.cpp: reconSecret"]}
{"id": "C23", "title": "Secrecy below the threshold fails", "statement": "'t-1 shares are compatible with every secret' is false of this code: coefficients are drawn from 0..99, so one share of a 2-of-n sharing determines the secret up to 100 candidates.", "quantifier": "all shares and secrets", "why_tests_cant": "a universally quantified secrecy claim needs a counting argument", "anchors": ["src/shamirss/shamirss.cpp: getShares (rand()+1)%100"]}
{"id": "C24", "title": "getShares shape and edge arguments", "statement": "getShares(t,n,s) returns exactly n shares with indices 1..n, the k-th value being the polynomial value at k; t=0 wraps to 2^64-1 coefficients; a rand() of RAND_MAX overflows int.", "quantifier": "all t, n, draws", "why_tests_cant": "size_t wrap-around and RAND_MAX are never sampled", "anchors": ["src/shamirss/shamirss.cpp: getShares"]}
{"id": "C25", "title": "Share-wise addition is secret addition", "statement": "Adding two sharings of the same shape share by share and reconstructing gives the sum of the secrets (below any threshold subset of size >= max t).", "quantifier": "all pairs of sharings", "why_tests_cant": "unbounded", "anchors": ["src/shamirss/shamirss.cpp"]}
{"id": "C26", "title": "Dual-mode encryption decrypts", "statement": "For every CRS of valid points, either branch b, every key pair from KeyGen(b), every valid message point and encryption randomness, Dec(sk, Enc(pk,b,m)) denotes m, provided neither u*sk nor mv is infinity.", "quantifier": "all CRS, keys, messages, randomness", "why_tests_cant": "randomised over 2^1024 draws", "anchors": ["src/dme/dme.cpp: KeyGen Enc Dec"]}
{"id": "C27", "title": "Decryption on degenerate randomness fails", "statement": "The proviso of the previous property is necessary: if sk=0 or u is infinity, Dec does not return the message (bogus point in the configured build, null dereference in Debug).", "quantifier": "all keys and randomness", "why_tests_cant": "events of probability 2^-256", "anchors": ["src/dme/dme.cpp: Dec", "includes/ecc_template.hpp: operator-"]}
{"id": "C28", "title": "FindMessy returns the messy branch", "statement": "In messy mode with distinct trapdoor exponents and non-degenerate CRS, FindMessy(pk) is the branch opposite to the one pk was generated for.", "quantifier": "all keys", "why_tests_cant": "randomised", "anchors": ["src/dme/dme.cpp: DME_DDH(mode_t) FindMessy"]}
{"id": "C29", "title": "The messy branch hides the message perfectly", "statement": "In messy mode with distinct trapdoor exponents and non-degenerate CRS, for every public key pair of points on which FindMessy answers b (and, when b=1, whose g is finite), every ciphertext produced on branch b for message m is produced for any other message m' by exactly one choice of randomness. Without the proviso on g it is false: for the key of two infinities FindMessy answers 1, but branch 1 carries the message in the clear.", "quantifier": "all keys, messages, ciphertexts", "why_tests_cant": "statistical claim over all randomness", "anchors": ["src/dme/dme.cpp: Enc FindMessy"]}
{"id": "C30", "title": "Trapdoor keys open both branches in decryption mode", "statement": "In dec mode with non-zero trapdoor, TrapKeyGen's two secret keys decrypt branch 0 and branch 1 respectively; with y=0 the division has no inverse.", "quantifier": "all trapdoors, messages, randomness", "why_tests_cant": "randomised", "anchors": ["src/dme/dme.cpp: TrapKeyGen"]}
{"id": "C31", "title": "Decryption mode hides the branch perfectly", "statement": "In dec mode with non-zero trapdoor every public key generated for branch 0 is generated for branch 1 by exactly one secret key, and conversely.", "quantifier": "all keys", "why_tests_cant": "statistical claim over all keys", "anchors": ["src/dme/dme.cpp: KeyGen"]}
{"id": "C32", "title": "Integer message encoding", "statement": "encode terminates on every integer; decode(encode m)=m exactly when 0<=m, and one of the 1024 abscissae m*1024+i lies on the curve (below the prime); out-of-range or negative m do not round-trip.", "quantifier": "all integers m", "why_tests_cant": "unbounded; runs of non-residues cannot be sampled", "anchors": ["src/dme/dme.cpp: encode decode"]}
{"id": "C33", "title": "Homomorphic evaluation", "statement": "Dec of Eval(c,c') is the sum of the two messages under the same key and branch, provided the combined ciphertext is non-degenerate.", "quantifier": "all keys, messages, randomness", "why_tests_cant": "randomised", "anchors": ["src/dme/dmhe.cpp: Eval"]}
{"id": "C34", "title": "Ciphertext equality is vacuous", "statement": "'c == c2 implies same components' is false: ciphertext == compares an object with itself and returns true for every pair of well-formed ciphertexts. CRS, public-key and key-pair equality do decide equality.", "quantifier": "all pairs of ciphertexts", "why_tests_cant": "tests only ever compare messages", "anchors": ["src/dme/dme.cpp: CTXT::operator== CRS_DDH::operator== PKEY::operator== KeyPair::operator=="]}
{"id": "C35", "title": "Oblivious transfer delivers the selected message", "statement": "In any history of selections and transfers, the receiver's decryption of the sender's pair gives exactly the message of the last selected branch (non-degenerate randomness); decrypting before any selection reads an uninitialised branch.", "quantifier": "all histories, messages, randomness", "why_tests_cant": "unbounded histories", "anchors": ["src/ot/ot.cpp: selectMsg encMsgs decryptMsg decryptMsgDecode"]}
{"id": "C36", "title": "Distributed OT aggregates", "statement": "For every number k>=1 of senders, decrypting the proxy's aggregate yields the sum of all senders' messages on the selected branch; an empty vector is out of bounds.", "quantifier": "all k, messages, randomness", "why_tests_cant": "unbounded number of senders", "anchors": ["src/ot/dot.cpp: aggregate"]}
{"id": "C37", "title": "PUDA aggregation returns the sum", "statement": "For every number of users, every key draw, every timestamp and all messages whose sum is below 65535, Agg on all ciphertexts returns the sum of the messages and the sum of the tags.", "quantifier": "all user counts, keys, timestamps, messages", "why_tests_cant": "unbounded number of users", "anchors": ["src/puda/puda.cpp: Setup Enc Tag Agg compute_dlog"]}
{"id": "C38", "title": "PUDA sums that do not fit are reported as 0", "statement": "If the sum is 65535 or more (and below the group order) Agg returns 0, indistinguishable from a genuine zero sum; in particular 65535 itself is lost.", "quantifier": "all user counts and messages", "why_tests_cant": "boundary of an exhaustive discrete-log search", "anchors": ["src/puda/puda.cpp: compute_dlog"]}
{"id": "C39", "title": "PUDA verification accepts everything", "statement": "'Verify accepts only tags of the claimed sum' is false: Verify returns true for every key, sum, tag and timestamp. The aggregate tag does satisfy the relation the commented-out pairing equation would check.", "quantifier": "all arguments", "why_tests_cant": "negative claim", "anchors": ["src/puda/puda.cpp: Verify"]}
{"id": "C40", "title": "PUDA at timestamp 0 does not encrypt", "statement": "For t=0 the ciphertext is g1*m for every key, so equal messages give equal ciphertexts whatever the key; for t with t mod n non-zero, distinct keys give distinct ciphertexts.", "quantifier": "all keys and messages", "why_tests_cant": "single bad timestamp among 2^32", "anchors": ["src/puda/puda.cpp: Enc Tag"]}
{"id": "C41", "title": "Table CRC equals the polynomial CRC", "statement": "For every buffer content, length, initial value and buffer alignment, the slicing-by-8 routine, the single-table routine and the bit-by-bit CRC-32C register agree, on little- and big-endian hosts; aligned word reads stay inside the buffer. The register is the remainder of x^32 times the message by the Castagnoli polynomial.", "quantifier": "all buffers, lengths, alignments", "why_tests_cant": "unbounded buffers; nine 256-entry tables", "anchors": ["includes/crc.hpp: calculate_crc32c crc32c_sb8_64_bit multitable_crc32c singletable_crc32c tables"]}
{"id": "C42", "title": "CRC append/validate/remove round-trip", "statement": "For every n>0 (when the allocation has 4 spare bytes, little-endian host) validateCRC(appendCRC(n)) is true and removeCRC(appendCRC(n)) = n; for n<0 the sign is lost; on a big-endian host the appended value validates exactly when its CRC reads the same in both byte orders.", "quantifier": "all positive integers", "why_tests_cant": "unbounded", "anchors": ["includes/crc.hpp: appendCRC validateCRC removeCRC"]}
{"id": "C43", "title": "CRC memory safety", "statement": "appendCRC writes 4 bytes past the buffer it obtained for every input (out of bounds unless the allocator over-allocates), and writes through null for 0; validateCRC reads before the buffer for every value below 2^24.", "quantifier": "all integers", "why_tests_cant": "undefined behaviour that happens to work", "anchors": ["includes/crc.hpp: appendCRC validateCRC", "src/utilities/utilities.cpp: getRawMpz"]}
{"id": "C44", "title": "CRC accepts exactly appended values and detects bursts", "statement": "validateCRC(n), when memory-safe, is true iff |n| = appendCRC(m) for some m>0; changing at most 4 consecutive bytes of an appended value, an odd number of bits, or two bits less than 2^31-16 places apart is always detected (values below 2^32 bytes).", "quantifier": "all integers, all error patterns of <= 32 bits", "why_tests_cant": "unbounded", "anchors": ["includes/crc.hpp: validateCRC"]}
{"id": "C45", "title": "Byte export/import", "statement": "setRawMpz(getRawMpz(n)) = |n| for every integer; export has no leading zero byte and length 0 exactly for 0; importing ignores leading zero bytes.", "quantifier": "all integers, all byte strings", "why_tests_cant": "unbounded", "anchors": ["src/utilities/utilities.cpp: getRawMpz setRawMpz"]}
{"id": "C46", "title": "AES-CTR integer encryption round-trip condition", "statement": "For every 16-byte key and plaintext m>0 of at most 128 bytes, decrypt(encrypt(m)) = m exactly when the first ciphertext byte is non-zero, so the unconditional round-trip claim is false.", "quantifier": "all keys, plaintexts, key streams", "why_tests_cant": "fails once in 256 keys", "anchors": ["src/utilities/aes.cpp: encrypt decrypt"]}
{"id": "C47", "title": "AES memory safety", "statement": "Keys below 2^120 are read past their buffer, plaintexts above 128 bytes overflow the stack buffer, the default IV string is empty so 16 bytes are read from a 1-byte string; keys agreeing in their 16 leading bytes are interchangeable.", "quantifier": "all keys and plaintexts", "why_tests_cant": "undefined behaviour that happens to work", "anchors": ["src/utilities/aes.cpp: encrypt decrypt init", "includes/aes.hpp: iv"]}
{"id": "C48", "title": "AES argument order", "statement": "The public header declares encrypt(key, plaintext) and decrypt(key, cipher) but the definitions take (plaintext, key): a caller following the header encrypts the key under the plaintext.", "quantifier": "all keys and plaintexts", "why_tests_cant": "a round-trip test using swapped arguments on both sides can still pass by accident", "anchors": ["includes/aes.hpp: encrypt decrypt", "src/utilities/aes.cpp"]}
{"id": "C49", "title": "Authenticated encryption with CRC", "statement": "On a little-endian host decryptCRC(k, encryptCRC(k,m)) = m for every m>0 of at most 124 bytes, key of at least 16 bytes, sufficient malloc block and non-zero first ciphertext byte; it returns 0 when the CRC does not match; a result other than 0 always is a value whose CRC matched; the call reads before its buffer exactly when the decrypted number is below 2^24.", "quantifier": "all keys and messages", "why_tests_cant": "unbounded", "anchors": ["src/utilities/aes.cpp: encryptCRC decryptCRC"]}
{"id": "C50", "title": "OPPRF delivers kopprf + ga*x for x <= theta", "statement": "For every threshold, client input x <= theta, secret point, key material and shuffles, a run whose encryptions are non-degenerate ends with the client holding kopprf + ga*x.", "quantifier": "all 2^32 (theta,x) pairs, all key draws and permutations", "why_tests_cant": "test suite tries three x for one theta", "anchors": ["src/opprf/opprf.cpp: prepareKeysAndInputs runOTRound runOTRound_end sendEncryptedMasks unmaskResult"]}
{"id": "C51", "title": "OPPRF comparison chain", "statement": "After the last round the client's symmetric key is the lt, eq or gt key of bit 0 according to whether x<theta, x=theta or x>theta; so for x>theta it unmasks with the random point instead of the mask.", "quantifier": "all (theta,x) pairs and draws", "why_tests_cant": "2^32 pairs", "anchors": ["src/opprf/opprf.cpp: prepareKeysAndInputs"]}
{"id": "C52", "title": "OPPRF shuffles do not matter", "statement": "The client's key and result are independent of the permutations applied by the server, when no wrong ciphertext passes the CRC check.", "quantifier": "all permutations", "why_tests_cant": "permutations are random in tests", "anchors": ["src/opprf/opprf.cpp: runOTRound sendEncryptedMasks"]}
{"id": "C53", "title": "OPPRF reuse", "statement": "After clean() on both sides any further evaluation behaves like a fresh one, whatever calls were made before; without client clean() the next result is offset by the previous one; preparing twice keeps the first keys.", "quantifier": "all histories of evaluations", "why_tests_cant": "unbounded histories", "anchors": ["src/opprf/opprf.cpp: clean prepareKeysAndInputs"]}
{"id": "C54", "title": "OPPRF round bounds", "statement": "The server's tables cover rounds 0..16 and every other round indexes out of bounds. The client's shift is defined for rounds 1..32 (bit round-1 of the input, 0 from round 17 on); round 0, negative rounds and 33 and above are undefined, and so is any round before setMessage.", "quantifier": "all rounds", "why_tests_cant": "undefined behaviour", "anchors": ["src/opprf/opprf.cpp: runOTRound runOTRound_start", "includes/opprf.hpp: setMessage"]}
{"id": "C55", "title": "ElGamal decrypts", "statement": "decrypt(sk, encrypt(sk*G, m)) = m for every encodable integer m and non-degenerate randomness; keyGen falls off its end without returning.", "quantifier": "all keys, messages, randomness", "why_tests_cant": "randomised, and the module is not built by the project", "anchors": ["src/elgamal/elgamal.cpp", "includes/elgamal.hpp: keyGen"]}
{"id": "C56", "title": "Object ownership", "statement": "In any history that constructs and destroys encryption objects without copying them, every curve is freed exactly once; copying one (implicit copy constructor) and destroying both frees twice.", "quantifier": "all histories of construct/copy/destroy", "why_tests_cant": "unbounded histories; elision hides it in tests", "anchors": ["includes/dme.hpp: DME_DDH::curve", "src/dme/dme.cpp: ~DME_DDH", "src/puda/puda.cpp: ~Puda"]}
{"id": "C57", "title": "Key generation is reproducible across processes", "statement": "'Two processes draw independent secrets' is false: the generators are default-initialised and never seeded, so equal call histories yield equal secrets in every process.", "quantifier": "all call histories", "why_tests_cant": "a single-process test cannot see it", "anchors": ["includes/ecc_template.hpp: rand(gmp_randinit_default)", "src/utilities/utilities.cpp: rand"]}
{"id": "C58", "title": "AES key stream reuse", "statement": "AES::iv is never changed between calls, so for every key and every two messages of equal byte length the exclusive or of the two ciphertexts is the exclusive or of the messages.", "quantifier": "all keys, message pairs, initialisation vectors and block functions", "why_tests_cant": "needs every key and message pair", "anchors": ["src/utilities/aes.cpp: encrypt init"]}
{"id": "C59", "title": "Short OPPRF keys abort the evaluation", "statement": "If one of the 48 level keys drawn by prepareKeysAndInputs is below 2^120, the evaluation fails: for levels 1..15 already in prepareKeysAndInputs, for level 0 at the latest in sendEncryptedMasks (the AES key schedule reads 16 bytes from a shorter buffer).", "quantifier": "all draws, all levels and letters, all thresholds, inputs and block functions", "why_tests_cant": "each key is short with probability 1/256 and the read past the buffer is silent", "anchors": ["src/opprf/opprf.cpp: prepareKeysAndInputs sendEncryptedMasks", "src/utilities/aes.cpp: encrypt"]}
{"id": "C60", "title": "OPPRF setSecret validates only in debug builds", "statement": "With assertions setSecret accepts a finite point exactly when it satisfies the curve equation; without them it stores any point.", "quantifier": "all points and servers", "why_tests_cant": "tests are built one way and use valid points", "anchors": ["src/opprf/opprf.cpp: setSecret"]}
{"id": "C61", "title": "OPPRF unmaskResult and a zero draw", "statement": "When a mask opens but the point drawn by unmaskResult only to obtain a curve pointer is the point at infinity, setEncodedX dereferences a null curve.", "quantifier": "all clients, masks and draws divisible by the order", "why_tests_cant": "probability 1/order, and undefined behaviour", "anchors": ["src/opprf/opprf.cpp: unmaskResult", "includes/ecc_template.hpp: setEncodedX getRandomPoint"]}
{"id": "C62", "title": "One known message opens all of a user's ciphertexts", "statement": "The mask of a ciphertext is linear in the timestamp: from one ciphertext of a known message at a timestamp other than 0, anyone computes with public values the messages (below 65535) of all other ciphertexts of that user at all timestamps; two ciphertexts at one timestamp differ by the difference of the messages.", "quantifier": "all keys, hash points, messages, timestamps and ciphertexts", "why_tests_cant": "tests only run the honest protocol", "anchors": ["src/puda/puda.cpp: Enc compute_dlog"]}
{"id": "C63", "title": "Two tags determine all tags", "statement": "From the tags of (m1,t1) and (m2,t2) with m1*t2 - m2*t1 invertible modulo the order, the tag of every message at every timestamp is a combination with coefficients computed from the messages and timestamps alone.", "quantifier": "all tag keys, messages, timestamps", "why_tests_cant": "tests only run the honest protocol", "anchors": ["src/puda/puda.cpp: Tag"]}
{"id": "C64", "title": "A holder of one share steers the reconstruction", "statement": "For every set of distinct indices and every amount d there is a c, depending only on the indices, such that adding c to one share's value adds d to the reconstructed secret, whatever the shares; and every change of one share's value changes the result.", "quantifier": "all numbers of shares, indices, values and amounts", "why_tests_cant": "tests reconstruct from honest shares", "anchors": ["src/shamirss/shamirss.cpp: reconSecret"]}
{"id": "C65", "title": "One share too few", "statement": "t-1 distinct shares reconstruct the secret exactly when the last coefficient drawn by getShares, (rand()+1) % 100, is 0.", "quantifier": "all thresholds, numbers of shares, draws, secrets and selections", "why_tests_cant": "the failing draws are one in a hundred and reconstruction never reports success or failure", "anchors": ["src/shamirss/shamirss.cpp: getShares reconSecret"]}
{"id": "C66", "title": "Decrypting a ciphertext of the other branch", "statement": "Decrypting on branch b a ciphertext made for the other branch gives the message plus r*(s*(a_b-a_b')+t*(b_b-b_b')) times the generator, where a, b are the discrete logarithms of the CRS; it is the message exactly when that factor is divisible by the order.", "quantifier": "all encryption objects, branches, draws and messages", "why_tests_cant": "tests print one wrong decryption at most and cannot relate it to the CRS", "anchors": ["src/dme/dme.cpp: KeyGen Enc Dec"]}
{"id": "C67", "title": "Dichotomy for an arbitrary CRS", "statement": "For every CRS with finite g0, g1 a public key of one branch is also a public key of the other branch exactly when the CRS is a Diffie-Hellman quadruple; if it is not, the message sent on the other branch is perfectly hidden, whoever created the CRS.", "quantifier": "all CRSs, keys, branches, messages and draws", "why_tests_cant": "statement about all keys and all randomness", "anchors": ["src/dme/dme.cpp: DME_DDH KeyGen Enc"]}
{"id": "C68", "title": "The creator of the CRS breaks the transfer", "statement": "The creator of a messy CRS learns the selected branch of every receiver that uses it, after any history; the creator of a decryption-mode CRS reads both messages of every sender that uses it, with a public key that honest receivers of either branch could have published.", "quantifier": "all receiver histories, senders, messages and draws", "why_tests_cant": "tests only run the honest protocol", "anchors": ["src/ot/ot.cpp: selectMsg encMsgs", "src/dme/dme.cpp: FindMessy TrapKeyGen"]}
{"id": "C69", "title": "Numbers as text", "statement": "set_str accepts exactly the strings made of white space, an optional minus sign, directly a digit, then digits and white space, in bases 2 to 62, and reads them to their positional value; other strings leave the variable unchanged; base 0 is decided by the prefix; nothing after a NUL is read; the constructor of mpz_class throws on other strings; get_str is read back exactly; the scalar multiplication's loop over get_str(2) sees the binary digits; the hexadecimal literals in the code denote the constants used by the model.", "quantifier": "all strings, integers and bases 0 and 2 to 62", "why_tests_cant": "unbounded strings", "anchors": ["includes/ecc_template.hpp: operator*", "src/ecc: constructors", "src/fields: constructors"]}
{"id": "C70", "title": "Points from strings", "statement": "Point(Px, Py, c, base) holds the residues of the two denoted numbers; every finite valid point is recovered from its coordinates' strings; a malformed abscissa silently becomes 0 and a malformed ordinate silently becomes the abscissa; character pointers give the same point, null pointers an exception.", "quantifier": "all strings, curves, bases and points", "why_tests_cant": "unbounded strings; errors are ignored silently", "anchors": ["includes/ecc_template.hpp: Point(string, string, Curve, int) Point(char, char, Curve, int)"]}
{"id": "C71", "title": "Printed form determines the value", "statement": "operator<< is injective: on field elements (value and modulus), on valid points up to equality of points, and on curves up to operator==.", "quantifier": "all field objects, points and curves", "why_tests_cant": "statement about all pairs", "anchors": ["includes/field_template.hpp: operator<<", "includes/ecc_template.hpp: operator<<"]}
{"id": "C72", "title": "The CRC is no authentication", "statement": "appendCRC is linear over exclusive or, and so is encryptCRC: from the ciphertext of an unknown message m under an unknown key and from any change d that spares the leading byte one obtains, by xoring appendCRC(d), exactly the ciphertext encryptCRC gives for m xor d; decryptCRC accepts it and returns m xor d whenever it accepted the original.", "quantifier": "all block functions, keys, vectors, messages up to 124 bytes, changes, allocators and addresses", "why_tests_cant": "an attack on every key and message; a test shows one", "anchors": ["src/utilities/aes.cpp: encryptCRC decryptCRC", "includes/crc.hpp: appendCRC validateCRC"]}
{"id": "C73", "title": "The field and point tests for all draws", "statement": "test_fields returns 0. test_ecc returns 0 whenever neither of its two random points is the point at infinity, and dereferences a null pointer otherwise.", "quantifier": "all draws, both build modes, all addresses of the curve", "why_tests_cant": "the tests run with one pair of draws; the failing draws have negligible probability", "anchors": ["testsuit/test_fields.cpp: main", "testsuit/test_ecc.cpp: main"]}
{"id": "C74", "title": "The secret sharing and aggregation tests for all draws", "statement": "test_shamirss returns 0 unless one of the six values of rand() is RAND_MAX, in which case a signed addition overflows; test_puda returns 0 for all draws.", "quantifier": "all sequences of rand() values and all draws", "why_tests_cant": "rand() is never seeded, so every run draws the same values", "anchors": ["testsuit/test_shamirss.cpp: main", "testsuit/test_puda.cpp: main"]}
{"id": "C75", "title": "The CRC and AES tests for all draws", "statement": "test_crc returns 0 exactly for non-zero numbers whose byte buffer has four spare bytes, and on a big-endian host only when the CRC is a palindrome; test_aes returns 0 exactly when the key has sixteen bytes, the number is not 0, there is room for the check and the number's leading byte differs from the first byte of the key stream.", "quantifier": "all numbers, keys, block functions, allocators, addresses", "why_tests_cant": "test_aes fails for one draw in about 128, which a single run does not show", "anchors": ["testsuit/test_crc.cpp: main", "testsuit/test_aes.cpp: main"]}
{"id": "C76", "title": "The dual-mode encryption and oblivious transfer tests for all draws", "statement": "test_dme and test_ot return 0 whenever, in the group of the curve, no key product and no ciphertext is the point at infinity, the keys of one branch do not open the other, and the number drawn survives its encoding; compiled with asserts they return 0 only then.", "quantifier": "all draws whose reference string is finite, all keys, messages and nonces, any addresses", "why_tests_cant": "each run checks one set of draws; the draws that fail are a negligible part that a run never meets", "anchors": ["testsuit/test_dme.cpp: main", "testsuit/test_ot.cpp: main"]}
{"id": "C77", "title": "The oblivious PRF test for all inputs", "statement": "test_opprf returns 0 for every three inputs and all draws with which nothing degenerates: clean() on server and client makes each of the three evaluations independent of those before it, and the curve moved by setSecret is the one the comparison needs.", "quantifier": "all inputs, secrets, reference strings, keys and nonces that are not degenerate; any block cipher", "why_tests_cant": "the test draws three inputs from an unseeded rand() and compares with one secret", "anchors": ["testsuit/test_opprf.cpp: main", "src/opprf/opprf.cpp: setSecret, clean"]}
{"id": "C78", "title": "A transcript of the oblivious PRF does not depend on the client's input", "statement": "With a reference string made in decryption mode, every transcript of an evaluation (the client's public keys, the server's answers and masks) that one input produces is produced by every other input too, with exactly one choice of secret keys of the client in the range of the draws; the server and anyone else seeing all messages learn nothing about the input.", "quantifier": "all inputs, all draws of client and server, all server states, all reference strings of decryption mode with nonzero draws", "why_tests_cant": "secrecy is a statement about all inputs and keys that could have led to a transcript; a run sees one", "anchors": ["src/opprf/opprf.cpp: runOTRound, sendEncryptedMasks", "src/dme/dme.cpp: KeyGen, DME_DDH(mode_t)"]}
{"id": "C79", "title": "The trapdoor of the reference string breaks the server's secrecy", "statement": "Whoever knows the first draw of a decryption-mode reference string and the client's keys computes, from the transcript of a single evaluation, the PRF value of every input up to the threshold, and so the server's secret point itself.", "quantifier": "all inputs of the evaluation and all inputs up to the threshold, all secrets, all draws that are not degenerate", "why_tests_cant": "no test reuses a transcript, and the claim covers all inputs", "anchors": ["src/opprf/opprf.cpp: runOTRound, unmaskResult", "src/dme/dme.cpp: DME_DDH(mode_t), TrapKeyGen"]}
{"id": "C80", "title": "The creator of a messy-mode reference string reads the client's input", "statement": "With a reference string made in messy mode, FindMessy applied to the public keys of the 16 rounds gives the complement of every bit of the client's input.", "quantifier": "all inputs, all nonzero keys, all servers, all messy reference strings with distinct nonzero draws", "why_tests_cant": "tests never run FindMessy against a complete evaluation", "anchors": ["src/opprf/opprf.cpp: runOTRound", "src/dme/dme.cpp: FindMessy, DME_DDH(mode_t)"]}
{"id": "C81", "title": "One preparation must not serve two evaluations", "statement": "If two clients evaluate distinct inputs up to the threshold after one prepareKeysAndInputs, both succeed and their two results determine the PRF value of every input, above the threshold too.", "quantifier": "all pairs of distinct inputs up to the threshold, all secrets, all draws that are not degenerate, all target inputs", "why_tests_cant": "the test program prepares anew for each evaluation, and the claim quantifies over all target inputs", "anchors": ["src/opprf/opprf.cpp: prepareKeysAndInputs, runOTRound"]}
{"id": "C82", "title": "Transcripts of the oblivious PRF are malleable", "statement": "Someone between the parties who adds a multiple of the generator to the second point of the PRF ciphertexts of each round makes the client accept a result shifted by exactly the sum of these multiples, without knowing any key; keys and masks still check.", "quantifier": "all clients, inputs, nonzero keys, transcripts that the client accepts and all shifts that avoid the point at infinity", "why_tests_cant": "no test changes messages on the way", "anchors": ["src/opprf/opprf.cpp: runOTRound, unmaskResult", "src/dme/dme.cpp: Dec"]}
{"id": "C83", "title": "The transcript hides the server's secret beyond one value", "statement": "With a CRS whose two branches are independent (messy position), for every transcript of a client with input x and every other secret of the server there is exactly one choice of the draws the client has no part in (the PRF point, the sixteen scalars, the nonces of the branches not asked for) that gives the same transcript and the same PRF value at x.", "quantifier": "all servers, secrets, CRSs, inputs, thresholds and draws", "why_tests_cant": "a statement about all other secrets and about the number of draws that explain a transcript", "anchors": ["src/opprf/opprf.cpp: prepareKeysAndInputs runOTRound sendEncryptedMasks setSecret", "src/ot/ot.cpp: encMsgs", "src/dme/dme.cpp: Enc"]}
{"id": "C84", "title": "The sequence of point operations is the scalar", "statement": "Multiplying a finite point by a scalar doubles log2(s) times and adds once per binary digit 1; the order of doublings and additions determines the scalar. An onlooker who tells them apart reads the discrete logarithm of a random point off its creation, a secret key off KeyGen and off Dec, and a message off Enc with the public key alone.", "quantifier": "all curves, finite points, scalars, keys, nonces and messages", "why_tests_cant": "tests compare results, not the operations performed; the claim is about every scalar", "anchors": ["includes/ecc_template.hpp: operator*, operator+, pointDouble", "src/dme/dme.cpp: KeyGen, Enc, Dec"]}
{"id": "C85", "title": "One timestamp shows the aggregator the sum and nothing else", "statement": "The parameters, the aggregation and verification keys and the ciphertexts and tags of all users at one timestamp other than 0 fit other messages exactly when those have the same sum modulo the group order, and then with exactly one choice of the users' keys; with keys drawn uniformly all messages with the same sum are equally likely.", "quantifier": "all numbers of users, messages, keys, hash points other than infinity and timestamps other than 0", "why_tests_cant": "secrecy is about all keys at once; tests look at one run", "anchors": ["src/puda/puda.cpp: Setup, Enc, Tag"]}
{"id": "C86", "title": "Two timestamps give a user's messages away", "statement": "From two ciphertexts of one user at timestamps t1 and t2 anyone computes (t2*m1 - t1*m2) times the generator, without a key or a known message. The pairs of 16-bit messages that agree with it lie on a line through (m1, m2) with steps t1/gcd and t2/gcd; when the timestamps are coprime and one is 65536 or more, as with consecutive Unix times, the messages are the only pair. Nothing else is in the two ciphertexts.", "quantifier": "all keys, timestamps, messages and guesses", "why_tests_cant": "tests decrypt with the aggregation key; the claim is about outsiders and all guesses", "anchors": ["src/puda/puda.cpp: Enc"]}
{"id": "C87", "title": "The client looks at its own branches only", "statement": "The client of the oblivious PRF uses, in every round, only the ciphertexts of the branch its input bit asks for: transcripts that agree there give the same result or fault. So a round sent without its branch 1 goes unnoticed when the bit is 0 and makes the client read past the end of the vector when it is 1, and which of the sixteen changed transcripts do so spells the input.", "quantifier": "all clients, inputs, draws, transcripts and rounds", "why_tests_cant": "tests run a server that sends both branches; the claim is about all transcripts", "anchors": ["src/opprf/opprf.cpp: runOTRound_end", "src/ot/ot.cpp: decryptMsg, decryptMsgDecode"]}
{"id": "C88", "title": "Shifting branches changes the secret", "statement": "PRF ciphertexts whose two branches are shifted by different multiples of the generator are accepted, and the client's result moves by the shifts of the branches its input asks for. With branch 1 of every round shifted by k times the weight of its bit, the client gets, for every input, exactly what the secret a + k would have given it; whoever does this knows neither the secret nor the input.", "quantifier": "all servers, clients, inputs, draws and shifts", "why_tests_cant": "tests do not change messages; the claim is about all changes of this kind", "anchors": ["src/opprf/opprf.cpp: runOTRound_end, unmaskResult"]}
{"id": "C89", "title": "The order of the ciphertexts reveals the comparison", "statement": "In each of the rounds 15 to 1 and among the masks, the place at which the client of the oblivious PRF finds the ciphertext it accepts and the two values of rand() behind the shuffle determine how the first bits of its input compare with those of the threshold. rand() is not seeded, so the values are the same in every process: the client learns the bits of the threshold down to the first in which it differs from the input, exactly these, and the whole threshold if it equals the input. To someone who does not know the values a place says nothing.", "quantifier": "all servers, clients, inputs, thresholds and draws for which the session is correct; all pairs of thresholds; all places and letters", "why_tests_cant": "a test sees one order; the claim is about all inputs, thresholds and shuffles", "anchors": ["src/opprf/opprf.cpp: runOTRound, sendEncryptedMasks (std::random_shuffle)"]}
{"id": "C90", "title": "How many draws make decryption fail", "statement": "With a nonzero key, for every first draw of Enc exactly two values of the second draw make Dec miss the message, and exactly one if the message is infinity. The same holds for a transfer after any history of the receiver, and for an aggregate of any number of senders in the draw of any one of them. The key 0 decrypts nothing, and the reference string is finite exactly when no draw used for it is 0. ElGamal decryption with asserts fails for exactly two draws, 0 and another one; without asserts every draw except 0 decrypts.", "quantifier": "all reference strings, branches, nonzero keys, messages and first draws; all histories of the receiver; all numbers of senders and positions among them; all residues as the draw counted", "why_tests_cant": "the failing draws are two of about 2^256 and depend on everything else; a test will not meet them", "anchors": ["src/dme/dme.cpp: KeyGen, Enc, Dec", "src/ot/ot.cpp: encMsgs, decryptMsg", "src/elgamal: encrypt, decrypt"]}
{"id": "C91", "title": "What a client of the oblivious PRF learns when the block function may be any function", "statement": "Take two servers with the same common reference string, any secrets and any thresholds that lie on the same side of the client's input (input at most the threshold in both, or above it in both). For every block function and all draws of a session with the first server there are a block function that agrees with it under every key the client receives, and draws of the second server in the ranges of the generators, such that the session with the second server has the same messages, the same key and the same result. Below the threshold the second server's PRF key is the one that gives the same PRF value; above it the mask must have the same number of bytes. So the messages show the client at most the side, the PRF value below the threshold and the length of the mask above it, if the block cipher is an ideal function and the values of rand() are unknown.", "quantifier": "all pairs of servers, clients, inputs, draws in range with 48 distinct keys, non-degenerate messy CRS, block functions", "why_tests_cant": "a statement about two servers, all draws and all block functions", "anchors": ["src/opprf/opprf.cpp: prepareKeysAndInputs, runOTRound, sendEncryptedMasks, unmaskResult", "src/utilities/aes.cpp: encryptCRC, decryptCRC"]}
{"id": "C92", "title": "The byte buffers of the CRC and AES code keep every key and are never released", "statement": "The buffers that getRawMpz has allocated are never released. An encryption with a checksum leaves its key once and its plaintext with the checksum twice; a decryption leaves the ciphertext, the key and the decrypted bytes, the latter twice if the check succeeds. No later call releases or changes a block that was there before. prepareKeysAndInputs leaves 270 blocks, in which the bytes of all 48 keys of the server are, and clean() removes none of them; a server that prepares and cleans again and again needs memory without bound. After every round below the sixteenth the client's memory has the key it had and the key it found. None of this changes a result.", "quantifier": "all sequences of calls on a server and a client, all memories, draws, keys, block functions and allocators that hand out blocks not in use", "why_tests_cant": "a leak shows in no result; which bytes stay in memory is not visible to a test of the values, and the claim is about every sequence of calls", "anchors": ["src/utilities/utilities.cpp: getRawMpz", "includes/crc.hpp: appendCRC, validateCRC, removeCRC", "src/utilities/aes.cpp: encrypt, decrypt, encryptCRC, decryptCRC", "src/opprf/opprf.cpp: prepareKeysAndInputs, sendEncryptedMasks, runOTRound_end, unmaskResult, clean"]}
{"id": "C93", "title": "ElGamal ciphertexts can be added, changed and re-randomised without a key", "statement": "The componentwise sum of two ElGamal ciphertexts under one public key is a ciphertext of the sum of the two points, with the sum of the draws, and decrypts to the decoding of that sum. Whoever knows the point in a ciphertext turns it into a ciphertext of any other point with the same draw, without any key. A draw that is used twice shows in the first components, and then one of the two points gives the other. Adding a ciphertext of the point at infinity gives every ciphertext of the same point, for exactly one draw each. The public key and a ciphertext determine the point and the draw modulo the order; the ciphertext alone is one of any point, under exactly one key.", "quantifier": "all live objects, valid public keys and points, draws and ciphertexts made by encrypt, both builds", "why_tests_cant": "statements about all keys, points and draws, and about the existence of exactly one draw or key", "anchors": ["src/elgamal/elgamal.cpp: encrypt, decrypt, decode"]}
{"id": "C94", "title": "What the aggregator learns over any number of timestamps, alone or with some of the users", "statement": "Let the aggregator see the ciphertexts and tags of all users at any list of timestamps, and know the keys of any of the users. Other messages fit all of this exactly when there is a shift for every user, none for those whose keys are known, with sum 0 modulo the order, such that the messages of every user at time t differ by t times the shift of the user. The keys that make them fit are determined if a timestamp is not 0. At one timestamp the aggregator and those users learn the sum of the messages of the others and nothing else; at two timestamps or more each user has a single unknown, and the combinations of C86 are revealed for every user.", "quantifier": "all numbers of users and timestamps, all messages, draws and sets of users whose keys are known, both builds", "why_tests_cant": "a statement about all keys that could have produced the same ciphertexts, over all numbers of timestamps", "anchors": ["src/puda/puda.cpp: Setup, Enc, Tag, Agg"]}
{"id": "C95", "title": "Any history of point operations, with curve objects created and destroyed in between", "statement": "Consider any program over any number of point, scalar and curve variables, made of the constructors, copies, sums, differences, doublings, multiples, random points and scalars, lookups of abscissas, encodings, comparisons, validity tests and field operations of the library, with curve objects constructed and destroyed at any point. It computes what the same program computes in the curve group: at the end every point variable holds the point of the group and refers to its curve object, every scalar variable the residue, and the printed values are the same; or it stops with the same fault at the same step. The one exception is a subtraction with the point at infinity in a build without asserts. If no curve object is destroyed, the only faults are a null pointer (an operation that needs the curve object of the point at infinity) and a division by zero, and both builds do the same up to that exception.", "quantifier": "all programs, all initial states that represent group elements, both builds, both curves", "why_tests_cant": "sequences of operations of any length over any number of objects, with all interleavings of object lifetimes", "anchors": ["includes/ecc_template.hpp: Point, Curve, all operators", "includes/field_template.hpp: compound operators"]}
{"id": "C96", "title": "Asserts have no effect but to stop the program", "statement": "For every operation of the library and every test program, and for all arguments, states and draws, valid or not: the build with asserts has the same outcome as the build without, fault included, or stops with a fault of an assert: a failed assert, a curve object that the comparison in an assert cannot read, or, for setSecret only, a division by a zero modulus while the point is tested. So a program that ends normally with asserts ends with the same values when it is compiled with -DNDEBUG.", "quantifier": "all arguments of all modelled functions, well-formed or not, all sets of live objects", "why_tests_cant": "a comparison of two builds over all inputs, including malformed objects", "anchors": ["includes/field_template.hpp: asserts of the operators", "includes/ecc_template.hpp:316,356", "src/opprf/opprf.cpp: setSecret, runOTRound_end, unmaskResult", "testsuit/*.cpp"]}
{"id": "C97", "title": "What the sequences of point operations of the protocols tell", "statement": "For an onlooker who tells doublings from additions, as in C84: (1) the events recorded change no outcome; (2) Puda::Enc shows the timestamp, the user's key and the message, Tag the timestamp, the tag key, the secret a and the message; (3) Agg shows the timestamp, the aggregator's key and then 0, 1, 2, ... up to the sum, so that the number of multiplications is the sum and 3, and shows also when there is no sum below 65535; (4) ElGamal encryption shows the message to whoever has the public key, decryption the secret key; (5) the receiver of an oblivious transfer performs the same operations for both choices, and an OPPRF client starts a round with the same operations whatever its input and the round; (6) at the end of a round the number of multiplications is the place of the ciphertexts that opened and 2, so that the server, which chose the places, learns which of its three keys the client holds; (7) the server prepares with the same operations for all thresholds, and they show every scalar it draws and the logarithms of its points.", "quantifier": "all keys, messages, timestamps, ciphertext lists, inputs, rounds, thresholds and draws; points valid and finite where stated", "why_tests_cant": "a statement about the operations performed, not about results, for all secrets; the comparisons are between executions with different secrets", "anchors": ["src/puda/puda.cpp:20-28,65-91", "src/elgamal/elgamal.cpp:10-23", "src/ot/ot.cpp:9-26", "src/opprf/opprf.cpp:33-93,166-202", "includes/ecc_template.hpp:391-411"]}
{"id": "C98", "title": "correctDecryption counts its calls", "statement": "In any sequence of fewer than 2^31 calls of OPPRFclient::correctDecryption, on any clients and with any points, the calls number 1, 5, 9, ... answer true and the others false; the call number 2^31 is a signed overflow. The answers depend on the number of calls only and are no function of the client and the point.", "quantifier": "all sequences of calls, of any length, all clients and points", "why_tests_cant": "needs 2^31 calls to reach the overflow; the independence of the argument is over all arguments", "anchors": ["src/opprf/opprf.cpp:154-158"]}
{"id": "C99", "title": "The client's number of multiplications tells the server about its input", "statement": "(1) At the end of every round but the first, a client that finds its key in the ciphertext of index p has called the point multiplication p + 2 times, for any ciphertexts and keys. (2) Over a session the server, which chose the shuffles, reads from these fifteen numbers how the 15 proper prefixes of the client's input compare with those of its threshold. (3) These comparisons fix the bits of the input, its last bit aside, from the highest one to the first that differs from the threshold's, and nothing else; when no such bit differs they fix all bits but the last.", "quantifier": "all clients, ciphertexts and keys in (1); all servers, thresholds, inputs and draws of a session that meets no accident in (2); all inputs and thresholds in (3)", "why_tests_cant": "relates the number of operations, which no result shows, to the input, for all inputs and thresholds", "anchors": ["src/opprf/opprf.cpp:52-93,166-202", "src/ot/ot.cpp:21-26", "includes/ecc_template.hpp:391-411"]}
{"id": "C100", "title": "Points off the curve are computed with, and the results tell the secret scalar", "statement": "(1) Sum, difference, doubling, product and comparison of points never read the constant term of the curve: for all point objects they return what those of a class with another constant term return. (2) On the points of y^2 = (x+1)^2 (x-2), which isValid rejects on secp256r1, multiplication by s is the s-th power in the field. (3) Dec of the dual-mode scheme answers two keys alike on a ciphertext of such points exactly if these powers are equal; for a point of prime order m, exactly if the keys are equal modulo m, in both builds, and decrypting with 0, ..., m-1 finds the remainder; nine explicit ciphertexts, the first one made of (3, 4) and (6, 14), fix the key modulo a number of 94 bits. (4) FindMessy tells whether the trapdoor has a chosen remainder modulo m. (5) On bn254 the points of y^2 = x^3 reveal any scalar below the prime by one division.", "quantifier": "all points, classes and constant terms in (1); all points of the singular cubics, all scalars, keys and trapdoors, both builds", "why_tests_cant": "needs a point no constructor of the library produces by itself, and compares the answers of all pairs of keys", "anchors": ["includes/ecc_template.hpp:163-169,307-341,354-362,391-411,496-502,528-540,554-579", "src/dme/dme.cpp:284-298"]}
{"id": "C101", "title": "Any sequence of calls on one OPPRF server behaves like one preparation of a fresh one", "statement": "For a server as constructed and every finite sequence of prepareKeysAndInputs, runOTRound, sendEncryptedMasks and clean that runs through: (1) with nothing prepared since the last clean an evaluation has the outcome it has on the fresh server; otherwise it has the outcome of an evaluation with the keys and scalars of the first preparation since then and the points of the new one. (2) All answers to runOTRound and sendEncryptedMasks are those of the fresh server after that one preparation. (3) sendEncryptedMasks with nothing prepared reads outside a vector. (4) Every sequence of proper calls runs through: rounds 0 to 16 with valid public keys, masks only when prepared and when the mask and the random point are finite with nonzero abscissa and malloc left room, sixteen-byte keys in the first preparation since clean. (5) A mask at infinity dereferences a null curve.", "quantifier": "all histories of any length, all fresh servers, draws, keys and environments", "why_tests_cant": "unbounded sequences of calls in any order; the vectors grow without limit and only an invariant over all of them shows which entries are read", "anchors": ["src/opprf/opprf.cpp:33-162", "includes/opprf.hpp"]}
{"id": "C102", "title": "Asking for both branches of one OPPRF round gives the server's secret away", "statement": "(1) After any history in which a round has something to transfer, the two branches of round r are w*G and (2^(r-1)*a + w)*G for the same w, where a*G is the server's secret. (2) The server answers a round as often as it is asked; a client that asks for branch 0 and later for branch 1 of the same round, with public keys as selectMsg makes them, gets the secret as half^(r-1) times the difference of the two answers, whatever calls other than a preparation or clean come in between; in round 16 clean does not help, because it leaves Sl0 and Sl1. (3) With the secret, the PRF value at one input not above the threshold gives the values at all inputs.", "quantifier": "all histories, rounds 1 to 16, keys and draws for which the transfers are not degenerate, all calls in between", "why_tests_cant": "the attack takes two sessions of the receiver against one state of the sender, in any order of the other calls", "anchors": ["src/opprf/opprf.cpp:33-162"]}
{"id": "C103", "title": "Preparing twice without clean lets a client pass the threshold", "statement": "A client evaluates at an input not above the threshold and keeps the last key. If the server then calls prepareKeysAndInputs again without clean, the client runs the rounds of the next evaluation at any input x2, opens the mask with the old key and has the value of the PRF at x2 under the new PRF key, also when x2 is above the threshold.", "quantifier": "all servers, clients, thresholds, inputs and draws of the two evaluations that satisfy the conditions of an honest run", "why_tests_cant": "needs an evaluation whose key is carried over into another one, and the algebra of the result", "anchors": ["src/opprf/opprf.cpp:33-95,116-136,204-229"]}
{"id": "C104", "title": "How many ciphertexts pass the CRC of decryptCRC under an arbitrary key", "statement": "On a little-endian host, for every key of at least sixteen bytes with key stream s0, s1, ... and every length n: (1) of the 255*256^(n-1) positive integers of n bytes, 5 <= n <= 128, exactly 255*256^(n-5) are decrypted to a message (a result other than 0) if s0 = 0, and one less otherwise, so the check lets one in 2^32 pass whatever the key; (2) for 4 <= n <= 128 exactly 2^24 make decryptCRC read outside its buffer, none if s0 = 0; (3) all below 2^24 do; (4) none below 2^32 gives a message.", "quantifier": "all block functions, keys, initialisation vectors, lengths and ciphertexts", "why_tests_cant": "a statement about the number of elements of a set of up to 256^128 ciphertexts", "anchors": ["src/utilities/aes.cpp:40-159", "includes/crc.hpp"]}
{"id": "C105", "title": "ElGamal encryption is as hard to break as decisional Diffie-Hellman, with exact counts", "statement": "Count, over all private keys k, all draws r and all coins of the adversary (any finite coin set), how often an arbitrary function A says yes to the public key k*G and the ciphertext eg_encrypt makes of a message chosen after seeing the public key. (1) For two ways M0, M1 to choose a valid message, order*(N0-N1) = g0-g1, where g0 and g1 are the exact advantages (times coins and order^3) of the two distinguishers 'add the message to the third element, ask A' for (aG,bG,abG) against (aG,bG,cG). (2) Against a random point (getRandomPoint) the difference is exactly one such advantage. (3) Conversely every Diffie-Hellman distinguisher gives an adversary with the same advantage, for every way of choosing the message.", "quantifier": "all live curves, ElGamal objects, finite coin sets, adversaries and message choices", "why_tests_cant": "a statement about the number of yes-answers of every function over all of the order^2 or order^3 draws", "anchors": ["src/elgamal/elgamal.cpp", "includes/elgamal.hpp"]}
{"id": "C106", "title": "The strings of DME_DDH(messy) and DME_DDH(dec) are indistinguishable under Diffie-Hellman", "statement": "Count over all draws of the two constructors and over any finite coin set how often an arbitrary function A of (g0,g1,h0,h1) says yes: Nd for dec, Nm for messy. With g the exact Diffie-Hellman advantage (times coins and order^4) of the distinguisher that draws w and asks A about (wG, wX, wY, wZ): |order*Nd - Nm - g| <= K*2*order^3, where K is the number of coins; that is, the advantage of A is that of the distinguisher up to 2/order.", "quantifier": "all live curves, finite coin sets and adversaries", "why_tests_cant": "a statement about the number of yes-answers of every function over all of the order^4 draws", "anchors": ["src/dme/dme.cpp:139-178", "includes/dme.hpp"]}
{"id": "C107", "title": "The public key of a receiver hides its branch under Diffie-Hellman", "statement": "Count over all draws of the string and of selectMsg and over any finite coin set how often an arbitrary function A of the string and the public key says yes, for branch 0 (N0) and branch 1 (N1). With g0, g1 the exact Diffie-Hellman advantages (times coins and order^6) of the distinguishers that put the first element in one half of the string, draw the other half and make the public key from the other two elements: |order*(N0-N1) - (g0-g1)| <= K*4*order^5 with the string of DME_DDH(), K*2*order^5 with that of DME_DDH(messy).", "quantifier": "all live curves, finite coin sets and adversaries", "why_tests_cant": "a statement about the number of yes-answers of every function over all of the order^5 draws", "anchors": ["src/dme/dme.cpp:139-217", "src/ot/ot.cpp"]}
{"id": "C108", "title": "All public keys of a receiver, and the message of an OPPRF client, are hidden under Diffie-Hellman", "statement": "Count over all draws of the string (DME_DDH() or DME_DDH(messy)) and of n calls of selectMsg and over any finite coin set how often an arbitrary function A of the string and all n public keys says yes. For two lists of branches of the same length n, |order^(n+2)*(N-N') - (g1+g2-g1'-g2')| <= K*12*order^(2n+5), where g1, g2, g1', g2' are the exact Diffie-Hellman advantages (times coins and order^(2n+6)) of four written-out distinguishers; so the advantage of A is at most four such advantages plus 12/order, however many keys there are. The keys an OPPRF client sends in its sixteen rounds are such keys for the bits of its message, so the same holds for two messages x, x' of a client that has received the string (also when a point of the string is infinite); and the keys do not depend on the ciphertexts the client accepts in between.", "quantifier": "all live curves, finite coin sets, adversaries, lists of branches and messages", "why_tests_cant": "a statement about the number of yes-answers of every function over all of the order^(n+4) draws", "anchors": ["src/ot/ot.cpp", "src/dme/dme.cpp:139-217", "src/opprf/opprf.cpp:161-202"]}
{"id": "C109", "title": "No pairing fits the curve that PUDA uses, so the check left in the comment of Verify would accept everything", "statement": "For k > 0 the order n of secp256r1 divides p^k - 1 exactly if (n-1)/3 divides k; for bn254 exactly if 12 divides k. Every map from pairs of points into a finite abelian group that turns sums on the left into products is constant unless n divides the size of the group; so it is constant on secp256r1 for the units of any field with p^k elements, k < (n-1)/3 (a number above 2^254). With such a map in the place of e, the equation in the comment of Puda::Verify holds for every sum, every tag and every timestamp: on this curve it is no better than 'return true'.", "quantifier": "all exponents k, all finite abelian groups, all maps additive in the first argument, all public parameters, verification keys, sums, tags and timestamps", "why_tests_cant": "(n-1)/3 has 254 bits, and the maps are arbitrary functions", "anchors": ["src/puda/puda.cpp:94-98", "includes/puda.hpp:13-20", "src/ecc/ecc_secp256r1.cpp:11-24", "src/ecc/ecc_bn254.cpp:11-24", "src/fields/field_secp256r1.cpp"]}
{"id": "C110", "title": "With a pairing the check in the comment of Verify would be exact for one timestamp, reject honest sums that do not fit, and accept forged tags after two timestamps", "statement": "Let e be bilinear on the curve with e(G,G) not neutral. After a run of Setup, Enc, Tag and Agg the check of the comment accepts a sum with a valid tag exactly if the tag is the aggregate tag plus a*(sum - real sum)*G, so one tag per sum. It accepts the result of the honest aggregator exactly if the real sum is below 65535, or a is zero. From the aggregate tags of two timestamps with s1*t2 - s2*t1 invertible, two multiplications and one addition make a tag that is accepted for any chosen sum at any chosen timestamp.", "quantifier": "all bilinear maps into all abelian groups, numbers of users, keys, messages, timestamps, sums and tags", "why_tests_cant": "the check is not implemented, and the maps are arbitrary", "anchors": ["src/puda/puda.cpp:30-98"]}
{"id": "C111", "title": "With AES-128 itself, equal plaintext blocks never give equal ciphertext blocks, and one initial vector in 256 lets every message be recovered", "statement": "AES-128 as in FIPS 197, built from its S-box (inverse in GF(2^8), then the affine map), row shifts, column mixing and key schedule, maps blocks to blocks and is a permutation of the blocks for every key. Hence under AES::encrypt two blocks of key stream less than 2^128 apart are never equal, and two equal full blocks of the message are never two equal blocks of the ciphertext. For every key of at least 16 bytes exactly 256^15 of the 256^16 initial vectors let AES::decrypt recover every positive message of at most 128 bytes. The examples of FIPS 197 and SP 800-38A run through the model.", "quantifier": "all keys, blocks, initial vectors, messages of at most 128 bytes and positions", "why_tests_cant": "256^16 vectors and blocks; the absence of equal key stream blocks is a statement about all counters", "anchors": ["src/utilities/aes.cpp:40-142"]}
{"id": "C112", "title": "The CRC notices every change of up to five bits in numbers of at most 659 bytes, and so in everything AES can carry, but not more", "statement": "Two different numbers of at most 659 bytes that validateCRC accepts differ in at least six bits, of at most 26 bytes in at least eight. Every accepted number of more than 27 bytes has an accepted one of the same length six bits away, every one of more than 660 bytes one four bits away. A change of two bits is accepted exactly if their places in the order of the register differ by a multiple of 2^31-1. Two different ciphertexts of the same length that decryptCRC accepts under one key differ in at least six bits.", "quantifier": "all numbers of up to 659 (26, 2^32) bytes, all changed bits, all keys, vectors, block functions and ciphertexts", "why_tests_cant": "choosing four of 5272 bits gives 3*10^13 changes per number", "anchors": ["includes/crc.hpp: calculate_crc32c, appendCRC, validateCRC", "src/utilities/aes.cpp:145-165"]}
{"id": "C113", "title": "Any number of ElGamal encryptions under one key, with messages chosen adaptively, is as hard to break as decisional Diffie-Hellman, without loss in the number of messages", "statement": "An encryption service makes n ciphertexts under one public key; each message is chosen by an arbitrary function of the public key and all earlier ciphertexts. Count over all keys, draws and coins how often an arbitrary function says yes to the public key and the n ciphertexts. (1) For two ways to choose messages, order^(n+1)*(order-1)*(N0-N1) = g0-g1, where g0, g1 are the exact Diffie-Hellman advantages of two distinguishers that make every ciphertext out of their three elements and a fresh pair of draws. (2) Against a service that encrypts random points (getRandomPoint): order*(order-1)*(order^n*N-W) = g.", "quantifier": "all live curves, ElGamal objects, numbers of messages, finite coin sets, adversaries and adaptive message choices", "why_tests_cant": "a statement about all functions over order^(2n+3) draws", "anchors": ["src/elgamal/elgamal.cpp:10-17", "includes/elgamal.hpp"]}
{"id": "C114", "title": "Someone who listens to any number of oblivious transfers on a fresh random string learns nothing about the messages, unless decisional Diffie-Hellman is easy", "statement": "A conversation is any list of steps: the receiver sends a key for a given branch (selectMsg), or the sender sends a pair of ciphertexts under the last key (encMsgs); both work on copies of a string made by DME_DDH() on a third curve object, and the string is heard too. The two messages of each pair are chosen by an arbitrary function of the string and everything heard before. Count over all draws and coins how often an arbitrary function says yes to the string and the whole conversation. (1) Against the conversation in which every pair of ciphertexts is four random elements, |order^3*(N-W) - g| <= (4+k)*K*order^(d+6), where k is the number of keys, d the number of draws of the conversation, K the number of coins and g the exact Diffie-Hellman advantage of a distinguisher that is written out. (2) For two ways to choose the messages the same holds with two distinguishers and twice the loss. As a probability the loss is (4+k)/order.", "quantifier": "all live curve objects, conversations that start with a key, finite coin sets, adversaries and adaptive message choices", "why_tests_cant": "a statement about all functions over order^(d+7) draws", "anchors": ["src/ot/ot.cpp:9-34", "src/dme/dme.cpp:243-268", "src/dme/dme.cpp:169-220"]}
{"id": "C115", "title": "Someone who listens to any number of oblivious transfers learns nothing about the receiver's choices either, unless decisional Diffie-Hellman is easy", "statement": "Take two conversations as in C114 with keys and ciphertexts at the same places, but any branches and any (adaptive) choices of the messages. The numbers of draws and coins for which an arbitrary function says yes to the string and the whole conversation differ, multiplied by order^(n+2), from order^(n-1)*(g-g') + (g1+g2-g1'-g2') by at most (20+2n)*K*order^(d+n+5), where n is the number of keys, d the number of draws of the conversation, K the number of coins, and g, g', g1, g2, g1', g2' are the exact Diffie-Hellman advantages of six distinguishers that are written out. As a probability the loss is (20+2n)/order. The messages need to be on the curve only for coins that can occur.", "quantifier": "all live curve objects, pairs of conversations of one shape that start with a key, finite coin sets, adversaries and adaptive message choices", "why_tests_cant": "a statement about all functions over order^(d+7) draws", "anchors": ["src/ot/ot.cpp:9-34", "src/dme/dme.cpp:243-268", "src/dme/dme.cpp:169-220"]}
{"id": "C116", "title": "Someone who listens to a whole evaluation of the oblivious PRF learns nothing about the input, the threshold or the secret, unless decisional Diffie-Hellman is easy", "statement": "Take two evaluations by freshly made servers and clients, on a string of DME_DDH(), with any inputs, thresholds and secrets and the same draws of the server outside the transfers. An arbitrary function sees the string, the sixteen keys, all ciphertexts in the order in which they are sent and the encrypted masks, and knows all draws but those of the string and the transfers. The numbers N, N' of draws and coins for which it says yes differ, multiplied by order^18, from order^15*(g-g') + (g1+g2-g1'-g2') by at most 52*K*order^285, where g, g', g1, g2, g1', g2' are the exact Diffie-Hellman advantages of six distinguishers that are written out and K is the number of coins: of K*order^268 cases, the loss is 52/order. The masks depend on neither threshold nor secret. The servers' own work succeeds whenever the secret is finite, the threshold has 16 bits, the keys have 16 bytes and the two masking points can be encoded.", "quantifier": "all live curve objects, inputs, thresholds, secrets, server draws (which may depend on the coins), finite coin sets and adversaries", "why_tests_cant": "a statement about all functions over order^268 draws", "anchors": ["src/opprf/opprf.cpp:10-31", "src/opprf/opprf.cpp:33-93", "src/opprf/opprf.cpp:96-135", "src/opprf/opprf.cpp:161-170", "src/ot/ot.cpp:9-34", "src/dme/dme.cpp:169-268"]}
{"id": "C117", "title": "A cheating receiver: one transfer gives at most one message to every public key but one, on all but about one in n of the strings; the key of two infinities gets both", "statement": "Let the receiver send any public key of curve points. Then each of the two messages is either perfectly hidden by the sender's answer (every function of the answer accepts equally often over all draws, whatever the message) or determined by the answer, and never both. Of the n^4 strings of DME_DDH(), n being the group order, exactly (n^2-1)(n-1) have a key other than the one of two infinities that reveals both messages; on all others every such key leaves one message perfectly hidden. The key of two infinities is not refused: encMsgs sends both messages in the clear on every string. In the oblivious PRF one such key in any round yields the server's secret, and a client that sends it in round 16 and otherwise follows the protocol with an input not above the threshold computes, from one evaluation in which every round is asked for once, the values at all inputs, also above the threshold.", "quantifier": "all public keys of curve points, strings, messages, draws, histories of the server, rounds and inputs", "why_tests_cant": "a statement about all functions of the answer over order^4 draws, and a key the library's own receiver sends only with probability 1/order", "anchors": ["src/dme/dme.cpp:169-177", "src/dme/dme.cpp:243-268", "src/ot/ot.cpp:28-42", "src/opprf/opprf.cpp:96-114", "src/opprf/opprf.cpp:172-227"]}
{"id": "C118", "title": "A receiver that sends a point off the curve gets both messages of a transfer, up to three guesses each", "statement": "Let T be a certain finite point with the abscissa 15, which is not on secp256r1 and which isValid rejects; the addition of the library makes it a point of order three. The public key (T, T) is not refused by encMsgs or by the oblivious PRF. On every string, for all messages on the curve and all draws, encMsgs returns two ciphertexts, and each message is the second part of its ciphertext, or the sum of that with T or with the mirror image of T. If isValid accepts the second part, then it is the message or its negative. For exactly ((n^2+2)/3)^2 of the n^4 draws, n being the group order, both messages stand in the clear. In any loaded round of the oblivious PRF the key gives nine candidates for the server's secret, one of which is the secret.", "quantifier": "all strings, messages, draws, curve objects, histories of the server and rounds", "why_tests_cant": "the point has to be found first, and the claim is about all messages and all order^4 draws", "anchors": ["includes/ecc_template.hpp:307-341", "includes/ecc_template.hpp:391-411", "src/dme/dme.cpp:243-268", "src/ot/ot.cpp:28-42", "src/opprf/opprf.cpp:96-114", "src/opprf/opprf.cpp:172-227"]}
{"id": "C119", "title": "Any number of transfers with a cheating receiver: the answers can be simulated from one message of each transfer", "statement": "Let the string be one of DME_DDH(messy) whose two trapdoor exponents differ. Let a receiver make each public key as it likes from the answers so far, of points of the curve and not both infinite, and let the messages depend on the answers so far as well. Then the answers of encMsgs to any number of transfers have the same distribution as those of somebody who has the trapdoor, asks for the one message of every transfer that FindMessy does not name, and encrypts infinity in the place of the other: every function of the answers says yes equally often over all draws. So the answers say nothing at all about the messages of the branches that FindMessy names. With the key of two infinities this fails on every string, in the worst possible way.", "quantifier": "all receivers, messages, numbers of transfers, functions of the answers, messy strings and draws", "why_tests_cant": "an equality of counts over order^(4n) draws for all strategies of the receiver and all functions of what it sees", "anchors": ["src/dme/dme.cpp:139-167", "src/dme/dme.cpp:243-268", "src/dme/dme.cpp:295-298", "src/ot/ot.cpp:28-42"]}
{"id": "C120", "title": "Any number of transfers with a cheating sender: what the receiver sends and gets can be simulated without its choices", "statement": "Let the string be one of DME_DDH(dec) with a non-zero trapdoor. Let the receiver choose its branches by any rule from all that happened so far, and let the sender answer each public key by any list of pairs of points, also off the curve, by any rule. Then the public keys together with what decryptMsg returns (a point or an error) have the same distribution as in a world in which somebody with the trapdoor sends keys of TrapKeyGen, opens both parts of each answer with the two secret keys, and the receiver is handed the one that it wants: every function of the exchanges says yes equally often over all draws. So a sender that sees the public keys learns nothing about the choices, even if these depend on earlier outcomes. With a zero trapdoor it fails, because TrapKeyGen fails.", "quantifier": "all senders, choices, numbers of transfers, functions of the exchanges, strings of the decryption mode and draws", "why_tests_cant": "an equality of counts over order^n draws for all strategies and all functions of what is seen", "anchors": ["src/dme/dme.cpp:139-167", "src/dme/dme.cpp:196-217", "src/dme/dme.cpp:284-287", "src/dme/dme.cpp:301-306", "src/ot/ot.cpp:9-21"]}
{"id": "C121", "title": "Any number of evaluations of the oblivious PRF with a cheating client: what it sees says nothing about the secret", "statement": "Let the string be one of DME_DDH(messy) with r1 and r2 different. Let a client make all public keys of any number of evaluations as it likes, each from all answers so far, as long as a key consists of points of the curve that are not both infinite. Then all it sees, the ciphertexts of all rounds and the masks, has the same distribution for any two servers that differ in their secret only: every function of it says yes equally often over all draws of the transfers, of the scalars that hide the shares and of the PRF keys. The AES keys (of full length), the scalar r (not zero), the shuffles and the random mask may be any, also depending on what was seen before. The server never fails in a round.", "quantifier": "all clients, numbers of evaluations, secrets, thresholds, functions of the answers, block functions, messy strings and draws", "why_tests_cant": "an equality of counts over order^(18n) draws and more for all strategies and all functions of what is seen", "anchors": ["src/opprf/opprf.cpp:33-94", "src/opprf/opprf.cpp:96-114", "src/opprf/opprf.cpp:116-135", "src/opprf/opprf.cpp:137-153", "src/dme/dme.cpp:139-167", "src/dme/dme.cpp:243-272", "src/ot/ot.cpp:28-42"]}
{"id": "C122", "title": "For which strings the oblivious PRF keeps the secret from a client that cheats", "statement": "Let a client make all public keys of any number of evaluations as it likes, each from all answers so far, out of points of the curve that are not both infinite, on any string whatever. If the string is not one of those of C117 on which some such key reveals both messages of a transfer, then all the client sees has the same distribution for any two servers that differ in their secret only. If it is one of those, then there is one public key that makes the secret a function of the answer of any single round, for every server on that string and all draws. So a string given by somebody else hides the secret either completely or not at all; of the strings of DME_DDH() exactly (n^2-1)(n-1) of n^4 do not hide it.", "quantifier": "all strings of points of the curve, clients, numbers of evaluations, secrets, thresholds, functions of the answers, block functions and draws", "why_tests_cant": "an equality of counts over all draws for all strategies, and a dichotomy over all strings", "anchors": ["src/opprf/opprf.cpp:33-94", "src/opprf/opprf.cpp:96-114", "src/opprf/opprf.cpp:116-135", "src/opprf/opprf.cpp:137-153", "src/dme/dme.cpp:169-194", "src/dme/dme.cpp:243-272", "src/ot/ot.cpp:28-42"]}
{"id": "C123", "title": "Transfers compose: what every single answer hides stays hidden over any number of transfers", "statement": "Take any string and a receiver that makes its public keys by any rule from the answers so far, out of points of the curve, the key of two infinities included. Let the sender's messages be given by any rule from the answers so far. If two such rules give the same message wherever the key does not hide it (in the sense of C117, for a single transfer), then the answers to any number of transfers have the same distribution with both: every function of the answers says yes equally often over all draws. If they differ in a message of the first transfer that the key reveals, some function says yes always with the one and never with the other.", "quantifier": "all strings of points of the curve, receivers, rules for the messages, numbers of transfers, functions of the answers and draws", "why_tests_cant": "an equality of counts over order^(4n) draws for all strategies and all functions of the answers", "anchors": ["src/ot/ot.cpp:28-42", "src/dme/dme.cpp:243-272"]}
{"id": "C124", "title": "When one round of the oblivious PRF gives the secret away to a client that asks for branch 1", "statement": "Let a client send a key that is good for branch 1 (the one of an honest client with that bit set is) in any one round of an evaluation, on any string. There is a function of the answer, the same for all servers, secrets and draws, whose value is the server's secret exactly when the draw of the point r or the scalar of that round is a multiple of the group order n. Of the n^2 pairs of the two draws these are exactly 2n - 1. So the proviso of C121 and C122 on r cannot be dropped.", "quantifier": "all strings of points of the curve, keys that reveal branch 1, servers, secrets, rounds and draws", "why_tests_cant": "for random draws the event has a probability of about 2/n; no test meets it, and none shows that it is the only one", "anchors": ["src/opprf/opprf.cpp:33-93", "src/opprf/opprf.cpp:96-115"]}
{"id": "C125", "title": "Distributed transfer: the aggregate shows the receiver the sums of the messages and nothing else about them, whatever key it sends", "statement": "Let any positive number of senders answer the same public key of points of the curve on the same string, and let the receiver see only what DOTprxy::aggregate makes of the answers. Every function of the aggregate says yes exactly n^(4(k-1)) times as often, over all draws of the k senders, as over the draws of one sender whose two messages are the two sums (n is the group order). So two lists of senders with the same sums on the branches that the key does not hide (C117) are seen equally often to do whatever one asks for, and the sum of a branch that the key reveals is a function of the aggregate.", "quantifier": "all strings and keys of points of the curve, numbers of senders, messages, functions of the aggregate and draws", "why_tests_cant": "an equality of counts over n^(4k) draws for all functions of the aggregate", "anchors": ["src/ot/dot.cpp:6-18", "src/dme/dmhe.cpp:6-9", "src/ot/ot.cpp:28-42"]}
{"id": "C126", "title": "Which strings of DME_DDH(messy) and DME_DDH(dec) let one key reveal both messages of a transfer", "statement": "Some public key other than that of two infinities reveals both messages of a transfer on a string of DME_DDH(messy) exactly when the two drawn exponents agree modulo the group order n and both drawn points are finite; on a string of DME_DDH(dec) exactly when the drawn scalar is nonzero and the drawn point finite. In messy mode these are exactly n(n-1)^2 of the n^4 strings, in decryption mode n(n-1)^2 of the n^3. With C122 this says for every string that the library makes in a mode whether the oblivious PRF keeps the secret on it from a cheating client.", "quantifier": "all draws of both constructors, all public keys of points of the curve, messages and draws of the sender", "why_tests_cant": "counts over all strings of the group order, and a statement about all keys for each of them", "anchors": ["src/dme/dme.cpp:139-184", "src/ot/ot.cpp:28-42"]}
{"id": "C127", "title": "A distributed transfer in which some senders work with the receiver", "statement": "Whatever answers of points of the curve the proxy takes in besides those of the honest senders, before them or after them, the aggregate is that of the honest senders moved on each branch by the sums of the points of the others. So for every public key of points of the curve, any other answers (which may depend on the key) and every judge, honest senders with the same sums on each branch, or on the branches that the key does not hide, give exactly the same number of draws to which the judge says yes: a receiver and any number of dishonest senders learn of the single honest messages nothing beyond those sums.", "quantifier": "all numbers of honest senders and of others, all well-formed answers of the others, all public keys of points of the curve, judges and draws of the honest senders", "why_tests_cant": "a distribution over all draws of all honest senders, against all answers the others could send", "anchors": ["src/ot/dot.cpp:6-18", "src/dme/dmhe.cpp:6-9", "src/ot/ot.cpp:28-42"]}
{"id": "C128", "title": "Order and hierarchy of proxies do not change an aggregate", "statement": "DOTprxy::aggregate of any positive number of answers of points of the curve ends normally and gives, on each branch, the sums of the two points of their ciphertexts; the result is again an answer of points of the curve. Giving the answers in another order leaves the points unchanged. In every hierarchy of proxies, in which each proxy takes in answers of senders and aggregates of other proxies, the top proxy gives the same points as one proxy that takes in the answers of all senders.", "quantifier": "all positive numbers of answers, all well-formed answers (also with more than two ciphertexts), all permutations, all finite hierarchies", "why_tests_cant": "no bound on the depth or the width of the hierarchy, and associativity and commutativity of the addition for all points", "anchors": ["src/ot/dot.cpp:6-18", "src/dme/dmhe.cpp:6-9"]}
