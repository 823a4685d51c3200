{
 "C06": {
  "note": "Includes refutations of two claims that fail for mixed classes; see the _refuted theorems."
 },
 "C14": {
  "note": "P - infinity is wrong; refuted claim in C14_minus_infinity_refuted."
 },
 "C23": {
  "note": "Perfect secrecy fails for the library's coefficients (refuted) and holds for uniform ones."
 },
 "C27": {
  "note": "Negative result: the proviso of C26 is necessary."
 },
 "C29": {
  "note": "Holds with the proviso that g is finite when FindMessy answers 1; without it refuted."
 },
 "C34": {
  "note": "The claim for ciphertexts is refuted; the other structures' == is exact."
 },
 "C38": {
  "note": "Negative result; 65535 is reported as 0."
 },
 "C39": {
  "note": "The soundness claim is refuted; the pairing relation is proved for every bilinear map."
 },
 "C46": {
  "note": "Block function arbitrary. The unconditional claim is refuted; the exact condition is proved."
 },
 "C47": {
  "note": "Negative results with the exact safe set."
 },
 "C48": {
  "note": "Negative result: calls written after the header encrypt the key under the message."
 },
 "C58": {
  "note": "Negative result (two-time pad)."
 },
 "C50": {
  "note": "Proviso good_draws: 16-byte keys, encodable ciphertexts, no false CRC match, no degenerate transfer. An infinite secret point is outside server_ready."
 },
 "C51": {
  "note": "Same proviso as C50."
 },
 "C54": {
  "note": "Statement amended to the exact ranges of both sides."
 },
 "C59": {
  "note": "Negative result."
 },
 "C60": {
  "note": "Negative result for release builds."
 },
 "C61": {
  "note": "Negative result."
 },
 "C55": {
  "note": "Degenerate draws characterised and treated separately; keyGen and outliving copies are negative results."
 },
 "C56": {
  "note": "All allocators that do not hand out an address in use; exceptions thrown inside constructors are not modelled."
 },
 "C57": {
  "note": "Negative result, for every behaviour of GMP and libc."
 },
 "C62": {
  "note": "Negative result: the attack is spelled out with the library operators."
 },
 "C63": {
  "note": "Negative result; coefficients are given explicitly."
 },
 "C64": {
  "note": "Negative result."
 },
 "C65": {
  "note": "Exact condition for t-1 shares."
 },
 "C66": {
  "note": "Exact result of decrypting on the wrong branch, with the conditions under which Dec avoids the degenerate cases of C27."
 },
 "C67": {
  "note": "Covers the randomised constructor and received CRSs; C29 and C31 are the two ends."
 },
 "C68": {
  "note": "Negative result about the trust placed in the creator of the CRS."
 },
 "C69": {
  "note": "set_str is modelled after the GMP source, including base 0; bases 1 and below 0 are not covered."
 },
 "C70": {
  "note": "The two malformed cases are negative results."
 },
 "C71": {
  "note": "Streams with initial flags."
 },
 "C72": {
  "note": "Negative result about integrity. C72_forge holds on either byte order; C72_accepted on little-endian hosts (elsewhere even honest ciphertexts fail, C42_big_endian)."
 },
 "C73": {
  "note": "All of both programs is modelled (TestModel) except terminal output; the exceptional draws of test_ecc are shown to fault."
 },
 "C74": {
  "note": "Both programs are covered for every draw."
 },
 "C75": {
  "note": "Exact conditions for both programs, with a corollary for glibc's allocator; the AES block function is arbitrary."
 },
 "C76": {
  "note": "Both directions in a build with asserts, sufficiency in any build; the conditions are stated on the discrete logarithms of the draws."
 },
 "C77": {
  "note": "Sufficient condition (good_draws of C50) for each of the three evaluations; the temporaries of lines 19-20 are dead when server and client use the string."
 },
 "C78": {
  "note": "Perfect secrecy of the input against the whole transcript, for decryption-mode reference strings; C80 is the converse for messy mode."
 },
 "C79": {
  "note": "Negative result about the trust placed in the creator of the reference string; the good_draws hypothesis is that of C50 for the evaluated input."
 },
 "C80": {
  "note": "Negative result about the trust placed in the creator of the reference string."
 },
 "C81": {
  "note": "Negative result about reuse. C81_factor gives the factor for every target input."
 },
 "C82": {
  "note": "Negative result about integrity. C82_anyone shows how a shifted ciphertext is made with the library's own functions."
 },
 "C83": {
  "note": "The draws are in the range of the generator, so for uniform draws the transcript and the value at x have the same distribution for every secret. The server and the client may use different curve objects; the ciphertexts agree up to these, everything else is equal. The client's key draws and the point r must not vanish modulo the order. C79 shows that the premise on the CRS is needed: in decryption mode with a known trapdoor all values leak."
 },
 "C84": {
  "note": "Negative result about side channels, at the granularity of calls of operator*, pointDouble and the cases of operator+. C84_outcomes ties the instrumented functions to those of the model. Time, caches and the arithmetic below the point operations are not modelled."
 },
 "C85": {
  "note": "The hash point is not infinity and the timestamp is not 0 (see C40 for 0). Two ciphertexts of one user at different timestamps are the subject of C86."
 },
 "C86": {
  "note": "Negative result: the hash of the timestamp is a fixed point times the timestamp, so the masks of different timestamps are linearly related."
 },
 "C87": {
  "note": "Negative result: the lengths of the vectors received are not checked."
 },
 "C88": {
  "note": "Negative result; C82 is the case of equal shifts. The shifted ciphertexts must be finite points."
 },
 "C89": {
  "note": "Negative result about the code as it stands (C57: no call of srand). Draws as in C50."
 },
 "C90": {
  "note": "The draws counted are residues in [0, order), which is what the generator returns. What the draw 0 does to ElGamal without asserts is in C55."
 },
 "C91": {
  "note": "The CRS is in messy mode (a0*b1 <> a1*b0 modulo the order), as in C83; in decryption mode the branches are not hidden from the creator of the CRS (C79). The draws of rand() may change with the server: C89 is about the case that they are known. The block function is any function on sixteen bytes: nothing is claimed for AES itself."
 },
 "C92": {
  "note": "Only the buffers of getRawMpz are in the memory of the model, not the numbers of GMP, the vectors or the contexts of OpenSSL. The four bytes that appendCRC writes behind its block count as part of it (room). C92_values shows that the model with buffers computes what the model of C41-C54 computes. The client's numbers of blocks are lower bounds, because failing checks leave more."
 },
 "C93": {
  "note": "Differences of points are taken as P + (-1)*Q, because operator- fails at infinity (C14). Decryption of the sum has the provisos of C55. Equality of ciphertexts is equality of the points they stand for."
 },
 "C94": {
  "note": "The hash point is not the point at infinity (draw not divisible by the order). C85 is the case of one timestamp and no known keys. The tagging key a is common to all users (Setup); knowing it does not change the statement, because the views already fix it through the verification key and the other draws are compared under the same a."
 },
 "C95": {
  "note": "The program is a list of instructions over variables numbered by natural numbers; a curve object is its address. The compound operators assign the result of the binary one. Single operations are C07-C19; here they are composed."
 },
 "C96": {
  "note": "Where no ciphertext opens, the build with asserts stops and the other one throws; this is a fault of both. The converse is false: the cases beside the theorems give values without asserts and faults with them."
 },
 "C97": {
  "note": "Part (6) is stated for a round that ends normally. The operands of a sum are computed from left to right. Comparisons of points, encoding and the AES code record no events."
 },
 "C98": {
  "note": "No code calls the function; the counter is a static variable shared by all clients."
 },
 "C99": {
  "note": "Operator * counted as in C97; a server would learn the number by the time of the client's answer."
 },
 "C100": {
  "note": "Only OPPRFserver::setSecret calls isValid, inside an assert; a receiver that builds points by Point(x, y, curve) from what it is sent must do so itself."
 },
 "C101": {
  "note": "C53 is the case of complete evaluations one after the other; this one has the calls in any order and number."
 },
 "C102": {
  "note": "The model of clean follows src/opprf/opprf.cpp:137-152. A server that refuses a second request for a round would have to keep track of the rounds served, which the class does not."
 },
 "C103": {
  "note": "C53 shows that clean between two evaluations makes them independent."
 },
 "C104": {
  "note": "An exact count, by an explicit duplicate-free enumeration of the accepted ciphertexts."
 },
 "C105": {
  "note": "The reduction is exact (no slack): equality of integers counting draws. Efficiency of adversaries is not modelled; the distinguishers are written out and use A once."
 },
 "C106": {
  "note": "The example shows why slack is needed: a test with advantage about 1/order whose distinguisher has advantage zero."
 },
 "C107": {
  "note": "With DME_DDH(dec) the branch is hidden whoever computes: C31."
 },
 "C108": {
  "note": "Random self-reducibility: each key is made of the three elements of the challenge and two draws, so the loss does not grow with the number of keys. A client that rejects an answer reveals more than its keys; that is not covered by C108_answers."
 },
 "C109": {
  "note": "The degrees come from factorisations of (n-1)/3 and 12 into certified primes and one exponentiation tree; the constancy from a Lagrange argument."
 },
 "C110": {
  "note": "Says what an implementation of the comment would achieve: hash*t is linear in t, so tags of two timestamps span all others."
 },
 "C111": {
  "note": "The block function is defined here and no longer arbitrary; the standard's test vectors are Examples."
 },
 "C112": {
  "note": "A meet-in-the-middle search over tries, run by the kernel's machine and proved complete; extends C44."
 },
 "C113": {
  "note": "Random self-reduction, counted exactly; extends C105."
 },
 "C114": {
  "note": "Also covers singular strings, zero keys and points at infinity that arise; these are what the loss counts."
 },
 "C115": {
  "note": "Combines C114 for both conversations with the argument of C108 for the keys between random ciphertexts."
 },
 "C116": {
  "note": "An evaluation is shown to be a conversation of C115 whose messages are the rows of the prepared server. The client's side of a complete session adds nothing to the transcript (C78_transcript)."
 },
 "C117": {
  "note": "C117_refused_refuted is the refutation of the claim that the key of two infinities is refused. Keys off the curve are not covered. C117_session has the provisos of C50 for the honest rounds."
 },
 "C118": {
  "note": "C118_refused_refuted is the refutation of the claim that a public key off the curve is refused. C117 is about keys of curve points."
 },
 "C119": {
  "note": "Receivers are deterministic functions of the answers; one that tosses coins is a mixture of these. Keys off the curve are not covered (see C118). C119_infinite_key_refuted is the refutation without the proviso on infinite keys."
 },
 "C120": {
  "note": "Public keys are seen as points of the group. An error of decryptMsg is recorded and the transfers go on; whoever stops at an error sees a part of that. C120_zero_trapdoor_refuted is the refutation without the proviso on the trapdoor."
 },
 "C121": {
  "note": "Ciphertexts are seen as pairs of points of the group. The provisos are r != 0, AES keys of full length and a pair of public points that are not both infinite; C117 shows what happens with two infinities."
 },
 "C122": {
  "note": "The provisos are those of C121: r != 0, AES keys of full length. The number of strings is C117_strings."
 },
 "C123": {
  "note": "Answers are seen as points of the group. The messages of a transfer may depend on the answers before it."
 },
 "C124": {
  "note": "One round of a freshly prepared server. The function is existentially quantified before the server, its draws and the round."
 },
 "C125": {
  "note": "The receiver sees the aggregate as points of the group; the answers of the single senders go to the proxy only."
 },
 "C126": {
  "note": "The string is given to the sender as in OTsndr(crs)."
 },
 "C127": {
  "note": "The others have chosen their answers before the honest senders draw; an answer has at least two ciphertexts of points of the curve."
 },
 "C128": {
  "note": "A hierarchy is a tree; each proxy in it has at least one answer or proxy below it."
 }
}