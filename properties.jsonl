{"id": "C01", "title": "Secret key byte round trip", "statement": "For every 48-byte string b, SecretKey::from_bytes(b) succeeds and as_bytes() of the result is exactly b.", "quantifier": "all 2^384 byte strings of length 48", "why_tests_cant": "2^384 inputs; a limb carry or shift slip shows only on particular bit patterns", "anchors": ["src/keys.rs: SecretKey::from_bytes, SecretKey::as_bytes", "amcl/src/bls381/big.rs: frombytearray, tobytearray, fshl, fshr, norm"]}
{"id": "C02", "title": "Secret key length check", "statement": "SecretKey::from_bytes(b) returns Err(IncorrectSize) exactly when len(b) != 48, and otherwise Ok; it never panics.", "quantifier": "all byte strings of every length", "why_tests_cant": "unbounded set of lengths and contents", "anchors": ["src/keys.rs: SecretKey::from_bytes"]}
{"id": "C03", "title": "Secret key equality is byte equality", "statement": "Two decoded secret keys compare equal iff the byte strings they were decoded from are equal.", "quantifier": "all pairs of 48-byte strings", "why_tests_cant": "pairs of 384-bit strings", "anchors": ["src/keys.rs: impl PartialEq for SecretKey"]}
{"id": "C04", "title": "Compressed public key decoder: total and exact error classification", "statement": "PublicKey::from_bytes never panics; it returns IncorrectSize iff the length is not 48, else InvalidCFlag iff the top bit is clear, else (infinity flag set) Ok(infinity) iff all remaining bits are zero and BadPoint otherwise, else BadPoint iff x^3+4 is not a nonzero square mod q, else Ok.", "quantifier": "all byte strings", "why_tests_cant": "the accept/reject boundary is the set of quadratic residues of a 381-bit field", "anchors": ["src/keys.rs: PublicKey::from_bytes", "src/amcl_utils.rs: decompress_g1", "amcl/src/bls381/ecp.rs: new_big", "amcl/src/bls381/big.rs: jacobi"]}
{"id": "C05", "title": "Decoded public keys are on the curve", "statement": "Whenever PublicKey::from_bytes or from_uncompressed_bytes returns Ok, the key is a point of y^2 = x^3 + 4 over F_q (or the point at infinity).", "quantifier": "all byte strings", "why_tests_cant": "needs the Jacobi-symbol algorithm and the square-root exponentiation to be right for every field element", "anchors": ["src/keys.rs: PublicKey::from_bytes, from_uncompressed_bytes", "amcl/src/bls381/ecp.rs: new_big, new_bigs", "amcl/src/bls381/fp.rs: sqrt, jacobi"]}
{"id": "C06", "title": "Compressed public key round trip", "statement": "For every public key pk, PublicKey::from_bytes(pk.as_bytes()) is Ok of a key equal to pk.", "quantifier": "all curve points, in particular all keys derived from a secret key", "why_tests_cant": "fails only for about one key in 4500, so small test suites pass", "anchors": ["src/keys.rs: PublicKey::as_bytes, from_bytes", "src/amcl_utils.rs: compress_g1, decompress_g1, calc_a_flag"]}
{"id": "C07", "title": "Compressed public key encodings are canonical", "statement": "If PublicKey::from_bytes(b) is Ok(pk) then pk.as_bytes() = b, so a key has one accepted encoding.", "quantifier": "all byte strings", "why_tests_cant": "the violating encodings are the few with x >= q", "anchors": ["src/amcl_utils.rs: decompress_g1, compress_g1"]}
{"id": "C08", "title": "The point at infinity has exactly one compressed encoding", "statement": "PublicKey::from_bytes(b) is Ok(infinity) iff b is 0xC0 followed by 47 zero bytes, and infinity encodes to that string; likewise for Signature with 95 zero bytes.", "quantifier": "all byte strings of every length", "why_tests_cant": "negative claim over every other byte string", "anchors": ["src/amcl_utils.rs: compress_g1, decompress_g1, compress_g2, decompress_g2"]}
{"id": "C09", "title": "Sign flag of the compressed form", "statement": "The a_flag bit of pk.as_bytes() is floor(2*y/q) for the key's y coordinate, as documented in calc_a_flag.", "quantifier": "all field elements y < q", "why_tests_cant": "wrong only on two narrow windows of y", "anchors": ["src/amcl_utils.rs: calc_a_flag"]}
{"id": "C10", "title": "Uncompressed public key round trip", "statement": "For every public key pk (including infinity), from_uncompressed_bytes(pk.as_uncompressed_bytes()) is Ok of a key equal to pk.", "quantifier": "all curve points", "why_tests_cant": "all points of a 381-bit curve", "anchors": ["src/keys.rs: as_uncompressed_bytes, from_uncompressed_bytes", "amcl/src/bls381/ecp.rs: new_bigs, getx, gety"]}
{"id": "C11", "title": "Uncompressed decoder: exact acceptance", "statement": "from_uncompressed_bytes never panics; IncorrectSize iff length != 96; else Ok(infinity) iff all bytes zero; else Ok iff y^2 = x^3+4 mod q for the two big-endian 48-byte halves; else BadPoint.", "quantifier": "all byte strings", "why_tests_cant": "acceptance set is a curve over a 381-bit field", "anchors": ["src/keys.rs: from_uncompressed_bytes", "amcl/src/bls381/ecp.rs: new_bigs, rhs"]}
{"id": "C12", "title": "Uncompressed encodings are canonical", "statement": "If from_uncompressed_bytes(b) is Ok(pk) then pk.as_uncompressed_bytes() = b.", "quantifier": "all byte strings", "why_tests_cant": "violations need coordinates >= q", "anchors": ["src/keys.rs: from_uncompressed_bytes"]}
{"id": "C13", "title": "Serialization agrees with equality", "statement": "pk1 == pk2 implies pk1.as_bytes() = pk2.as_bytes(), and pk1.as_bytes() = pk2.as_bytes() implies pk1 == pk2.", "quantifier": "all pairs of public keys, however constructed", "why_tests_cant": "the two failures need special representations (x stored as q) or special y", "anchors": ["src/keys.rs: as_bytes, PartialEq", "src/amcl_utils.rs: compress_g1", "amcl/src/bls381/ecp.rs: equals"]}
{"id": "C14", "title": "Compressed signature decoder: total and exact error classification", "statement": "Signature::from_bytes never panics; IncorrectSize iff length != 96, else InvalidCFlag iff top bit clear, else for the infinity flag Ok(infinity) iff the rest is zero and BadPoint otherwise, else Ok or BadPoint according to whether x^3+4(1+i) is a square in F_q2.", "quantifier": "all byte strings", "why_tests_cant": "acceptance set over F_q2", "anchors": ["src/signature.rs: Signature::from_bytes", "src/amcl_utils.rs: decompress_g2", "amcl/src/bls381/fp2.rs: sqrt"]}
{"id": "C15", "title": "Decoded signatures are on the twist", "statement": "Whenever Signature::from_bytes (or AggregateSignature::from_bytes) returns Ok, the point satisfies y^2 = x^3 + 4(1+i) over F_q2 or is infinity.", "quantifier": "all byte strings", "why_tests_cant": "needs the F_q2 square root to be right for every element", "anchors": ["src/signature.rs: Signature::from_bytes", "src/amcl_utils.rs: decompress_g2", "amcl/src/bls381/ecp2.rs: new_fp2"]}
{"id": "C16", "title": "Compressed signature round trip", "statement": "For every signature sig, Signature::from_bytes(sig.as_bytes()) is Ok of an equal signature.", "quantifier": "all points of the twist, in particular all produced signatures", "why_tests_cant": "fails only for rare y", "anchors": ["src/signature.rs: as_bytes, from_bytes", "src/amcl_utils.rs: compress_g2, decompress_g2, calc_a_flag"]}
{"id": "C17", "title": "Encoded sizes and flags", "statement": "as_bytes of any public key is 48 bytes and of any signature 96 bytes, the top bit of the first byte is always set, the infinity bit is set iff the point is infinity; as_uncompressed_bytes is 96 bytes.", "quantifier": "all points in any internal representation", "why_tests_cant": "all representations reachable through arithmetic", "anchors": ["src/amcl_utils.rs: compress_g1, compress_g2", "src/keys.rs: as_uncompressed_bytes"]}
{"id": "C18", "title": "Decoded keys are in the prime-order group", "statement": "Every key accepted by PublicKey::from_bytes has order dividing r.", "quantifier": "all byte strings", "why_tests_cant": "random bytes almost always decode to a point outside the subgroup, tests only decode honest keys", "anchors": ["src/amcl_utils.rs: decompress_g1", "amcl/src/bls381/rom.rs: CURVE_ORDER"]}
{"id": "C19", "title": "Public key derivation is scalar multiplication", "statement": "For every 48-byte secret key s, PublicKey::from_secret_key gives exactly [s]G (s-fold sum of the generator in the curve group) and does not panic or overflow.", "quantifier": "all 2^384 secret keys", "why_tests_cant": "signed-window recoding and unnormalised limb arithmetic over all scalars", "anchors": ["src/keys.rs: PublicKey::from_secret_key", "amcl/src/bls381/ecp.rs: mul, add, dbl, select"]}
{"id": "C20", "title": "Secret keys act modulo the group order", "statement": "Secret keys congruent mod r give the same public key and the same signatures; in particular distinct secret keys s and s+r are accepted and indistinguishable.", "quantifier": "all pairs of congruent secret keys", "why_tests_cant": "needs [r]G = O and the group law", "anchors": ["src/keys.rs: SecretKey::from_bytes, PublicKey::from_secret_key"]}
{"id": "C21", "title": "Public key aggregation is the group sum, independent of order and grouping", "statement": "AggregatePublicKey built by any sequence of new/add/add_aggregate/from_public_keys equals the curve-group sum of the keys added, so permuting or regrouping the keys gives an equal aggregate.", "quantifier": "all finite lists of public keys (any curve points), all permutations and groupings", "why_tests_cant": "unbounded lists; needs associativity of the implemented addition incl. doubling, inverse and infinity cases", "anchors": ["src/aggregates.rs: AggregatePublicKey::{new,add,add_aggregate,from_public_keys}", "amcl/src/bls381/ecp.rs: add, affine"]}
{"id": "C22", "title": "Aggregating keys corresponds to adding secret keys", "statement": "The aggregate of the public keys of s1..sn equals the public key of (s1+...+sn) mod r.", "quantifier": "all lists of secret keys", "why_tests_cant": "unbounded lists of 384-bit scalars", "anchors": ["src/aggregates.rs: AggregatePublicKey", "src/keys.rs: from_secret_key"]}
{"id": "C23", "title": "Signature aggregation is the group sum, independent of order and grouping", "statement": "AggregateSignature built by any sequence of add/add_aggregate equals the sum in the twist group.", "quantifier": "all finite lists of signatures (any twist points)", "why_tests_cant": "unbounded lists", "anchors": ["src/aggregates.rs: AggregateSignature::{new,add,add_aggregate}", "amcl/src/bls381/ecp2.rs: add"]}
{"id": "C24", "title": "Aggregating signatures on one message corresponds to adding secret keys", "statement": "The aggregate of signatures by s1..sn on the same (msg,d) equals the signature by (s1+...+sn) mod r.", "quantifier": "all lists of secret keys, all messages and domains", "why_tests_cant": "unbounded lists", "anchors": ["src/aggregates.rs: AggregateSignature::add", "src/signature.rs: Signature::new"]}
{"id": "C25", "title": "Empty aggregate is neutral", "statement": "A new aggregate plus one key (or signature) equals that key (or signature), and a new aggregate serializes to the infinity encoding.", "quantifier": "all curve points", "why_tests_cant": "identity case of the complete formulas for every point", "anchors": ["src/aggregates.rs: new, add"]}
{"id": "C26", "title": "Point equality is equality of affine points", "statement": "== on keys and signatures holds iff the two denote the same affine point (both infinity or equal coordinates), regardless of the internal projective representation.", "quantifier": "all pairs of projective representations", "why_tests_cant": "representation space is unbounded", "anchors": ["amcl/src/bls381/ecp.rs: equals", "amcl/src/bls381/ecp2.rs: equals"]}
{"id": "C27", "title": "Hash input is injective in message and domain", "statement": "The byte strings hashed for the real and imaginary parts differ whenever (msg,d) differ, and the real-part input never equals an imaginary-part input for the same or any other (msg,d).", "quantifier": "all pairs of messages of any length and 64-bit domains", "why_tests_cant": "unbounded messages", "anchors": ["src/amcl_utils.rs: hash_on_g2, hash"]}
{"id": "C28", "title": "Hash-to-curve lands on the curve at the first valid x", "statement": "For every (msg,d) the pre-cofactor point has x = (re+k, im) for the least k >= 0 for which the curve has a point the square-root routine finds, and the result is the cofactor multiple of an on-curve point.", "quantifier": "all hash values, i.e. all pairs of 384-bit integers", "why_tests_cant": "loop runs a data-dependent number of times", "anchors": ["src/amcl_utils.rs: map_to_g2, hash_on_g2, multiply_cofactor"]}
{"id": "C29", "title": "Hash-to-curve picks the larger y", "statement": "The point chosen before cofactor multiplication is the one with the lexicographically larger y (imaginary part first).", "quantifier": "all hash values", "why_tests_cant": "the failing case needs a purely real y", "anchors": ["src/amcl_utils.rs: map_to_g2, cmp_fp2"]}
{"id": "C30", "title": "Hashed and unhashed interfaces agree", "statement": "Signature::new(msg,d,sk) equals Signature::new_hashed(h1,h2,sk), and verify(msg,d,pk) = verify_hashed(h1,h2,pk), where h1,h2 are the two 48-byte zero-extended digests.", "quantifier": "all messages, domains, keys", "why_tests_cant": "all messages", "anchors": ["src/signature.rs: new, new_hashed, verify, verify_hashed", "src/amcl_utils.rs: hash_on_g2"]}
{"id": "C31", "title": "Hashed interface reads exactly 48 bytes of each part", "statement": "new_hashed/verify_hashed depend only on the first 48 bytes of each argument and panic when one is shorter.", "quantifier": "all byte strings", "why_tests_cant": "all lengths", "anchors": ["src/amcl_utils.rs: map_to_g2", "src/signature.rs: new_hashed"]}
{"id": "C32", "title": "Honest signatures verify", "statement": "For every secret key s not divisible by r and every (msg,d), Signature::new(msg,d,s).verify(msg,d,pk(s)) is true.", "quantifier": "all secret keys, messages, domains", "why_tests_cant": "needs the whole pairing stack for all inputs; provable here relative to bilinearity of the pairing", "anchors": ["src/signature.rs: Signature::new, verify", "src/amcl_utils.rs: ate_pairing"]}
{"id": "C33", "title": "Verification for the zero key", "statement": "For a secret key congruent to 0 mod r the signature (infinity) verifies under its public key (infinity) like any other honest signature.", "quantifier": "all messages", "why_tests_cant": "special point at infinity inside the Miller loop", "anchors": ["amcl/src/bls381/pair.rs: ate", "src/signature.rs: verify", "src/keys.rs: SecretKey::from_bytes"]}
{"id": "C34", "title": "Honest aggregate signatures verify", "statement": "If every signer i signs the same (msg,d) and the sum of the secret keys is not 0 mod r, the aggregate signature verifies under the aggregate public key.", "quantifier": "all finite lists of secret keys, all messages", "why_tests_cant": "unbounded lists", "anchors": ["src/aggregates.rs: AggregateSignature::verify"]}
{"id": "C35", "title": "verify_multiple guards", "statement": "verify_multiple returns false without panicking when the key list is empty or msg.len() != 32*n, for every signature.", "quantifier": "all key lists, all message byte strings", "why_tests_cant": "unbounded lists", "anchors": ["src/aggregates.rs: AggregateSignature::verify_multiple"]}
{"id": "C36", "title": "Honest multi-message aggregates verify", "statement": "If for each of n >= 1 32-byte messages m_i a nonempty set of signers with key sum not 0 mod r signs m_i, the aggregate of all signatures verifies under verify_multiple with the concatenated messages and the per-message aggregate keys.", "quantifier": "all n, all messages, all signer sets", "why_tests_cant": "unbounded", "anchors": ["src/aggregates.rs: AggregateSignature::verify_multiple"]}
{"id": "C37", "title": "verify_multiple agrees with verify on one message", "statement": "For a 32-byte message and one aggregate key, verify_multiple(msg,d,[apk]) = verify(msg,d,apk).", "quantifier": "all signatures, keys, messages, domains", "why_tests_cant": "all inputs", "anchors": ["src/aggregates.rs: verify, verify_multiple"]}
{"id": "C38", "title": "Random secret keys are reduced", "statement": "SecretKey::random yields a scalar in [0, r) whatever the generator state.", "quantifier": "all generator states / entropy", "why_tests_cant": "all entropy values", "anchors": ["src/keys.rs: SecretKey::random", "amcl/src/bls381/big.rs: randomnum", "amcl/src/bls381/dbig.rs: dmod"]}
{"id": "C39", "title": "The generator never indexes out of bounds and is a function of its seed", "statement": "RAND seeded from any byte string and asked for any number of bytes never panics, and two generators seeded alike yield the same stream.", "quantifier": "all seeds, all request counts", "why_tests_cant": "unbounded histories", "anchors": ["amcl/src/rand.rs: RAND", "src/rng.rs: get_seeded_rng"]}
{"id": "C40", "title": "SHA-256 is SHA-256", "statement": "HASH256 fed any byte sequence in any chunking returns the FIPS 180-4 digest of the concatenation.", "quantifier": "all byte strings shorter than 2^61 bytes, all chunkings", "why_tests_cant": "all lengths and chunkings", "anchors": ["amcl/src/hash256.rs: HASH256"]}
{"id": "C41", "title": "No arithmetic overflow in the field layer", "statement": "Every field operation applied to elements within the library's excess bookkeeping completes without i64/i128/i32 overflow and keeps that bookkeeping valid.", "quantifier": "all limb contents allowed by the excess counters", "why_tests_cant": "unnormalised limbs; worst cases are not reached by random tests", "anchors": ["amcl/src/bls381/fp.rs: FP", "amcl/src/bls381/big.rs: mul, sqr, monty", "amcl/src/bls381/fp2.rs: FP2"]}
{"id": "C42", "title": "Field operations are arithmetic modulo q", "statement": "add, sub, neg, mul, sqr, inverse, pow, sqrt, jacobi, equality and zero-test on FP compute the corresponding operation of the prime field F_q.", "quantifier": "all field elements in all representations", "why_tests_cant": "381-bit operands", "anchors": ["amcl/src/bls381/fp.rs: FP"]}
{"id": "C43", "title": "Multi-precision integer operations are exact", "statement": "Addition, subtraction, multiplication, squaring, shifting, comparison, rmod, dmod, div on normalised BIG/DBIG values agree with integer arithmetic.", "quantifier": "all normalised operands", "why_tests_cant": "carry propagation over all operands", "anchors": ["amcl/src/bls381/big.rs: BIG", "amcl/src/bls381/dbig.rs: DBIG"]}
{"id": "C44", "title": "Test for one", "statement": "BIG::isunity returns true exactly on the integer one.", "quantifier": "all normalised BIG values", "why_tests_cant": "the only true case is one single value", "anchors": ["amcl/src/bls381/big.rs: isunity"]}
{"id": "C45", "title": "F_q2 operations are arithmetic in F_q[i]", "statement": "add, sub, neg, conj, mul, sqr, inverse, equality on FP2 compute the operation of F_q[i], i^2=-1.", "quantifier": "all elements in all representations", "why_tests_cant": "762-bit operands", "anchors": ["amcl/src/bls381/fp2.rs: FP2"]}
{"id": "C46", "title": "F_q2 square root", "statement": "FP2::sqrt returns true iff the argument is a square in F_q2 and then leaves a root.", "quantifier": "all elements of F_q2", "why_tests_cant": "fails on a thin set: non-residues of F_q embedded in F_q2", "anchors": ["amcl/src/bls381/fp2.rs: sqrt"]}
{"id": "C47", "title": "Implemented point addition is the curve group law", "statement": "ECP::add, dbl, neg, affine (and ECP2's) compute the chord-and-tangent group law on all pairs of curve points including equal, opposite and infinity.", "quantifier": "all pairs of curve points in all representations", "why_tests_cant": "exceptional cases are measure zero", "anchors": ["amcl/src/bls381/ecp.rs: add, dbl, neg, affine", "amcl/src/bls381/ecp2.rs: add, dbl, neg, affine"]}
{"id": "C48", "title": "Curve points form an abelian group", "statement": "The addition implemented is associative and commutative with identity and inverses, on both curves.", "quantifier": "all triples of points", "why_tests_cant": "associativity over all triples", "anchors": ["amcl/src/bls381/ecp.rs: add", "amcl/src/bls381/ecp2.rs: add"]}
{"id": "C49", "title": "Scalar multiplication on the twist", "statement": "ECP2::mul(e) is the e-fold sum for every scalar.", "quantifier": "all scalars, all twist points", "why_tests_cant": "all scalars", "anchors": ["amcl/src/bls381/ecp2.rs: mul"]}
{"id": "C50", "title": "Rogue-key cancellation is possible", "statement": "For every public key pk that is a curve point there is another decodable point whose aggregate with pk is infinity (no proof of possession is enforced).", "quantifier": "all public keys", "why_tests_cant": "existence claim for all keys", "anchors": ["src/aggregates.rs: AggregatePublicKey::add"]}
{"id": "C51", "title": "Signature encodings are canonical", "statement": "Two different byte strings never decode to equal signatures.", "quantifier": "all pairs of byte strings", "why_tests_cant": "the failing strings have coordinates in [q, 2^381)", "anchors": ["src/signature.rs: Signature::from_bytes", "src/amcl_utils.rs: decompress_g2"]}
{"id": "C52", "title": "A signature is the secret multiple of the message point", "statement": "Signature::new(msg,d,sk) is the sk-fold sum of hash_on_g2(msg,d) in the twist group, for every secret key.", "quantifier": "all messages, domains and secret keys", "why_tests_cant": "all keys and messages", "anchors": ["src/signature.rs: Signature::new", "src/amcl_utils.rs: hash_on_g2"]}
{"id": "C53", "title": "The random byte stream is the documented generator", "statement": "The i-th byte of a seeded RAND is byte i mod 32 of the SHA-256 digest of 128 consecutive low bytes of a subtract-with-borrow generator (base 2^32, lags 21 and 6), seeded by mixing in the eight words of the SHA-256 digest of the seed; nothing else of the generator's earlier state matters.", "quantifier": "all seeds, all positions, all earlier states", "why_tests_cant": "unbounded positions; the wrap of the round buffer and the borrow cases t=pdiff are rare", "anchors": ["amcl/src/rand.rs: sbrand, sirand, fill_pool, seed, getbyte"]}
{"id": "C54", "title": "Random key pairs are consistent", "statement": "Keypair::random returns a secret key that is the first 510 bits of the stream modulo r, together with that multiple of the generator.", "quantifier": "all 256-byte entropy strings", "why_tests_cant": "all entropy values", "anchors": ["src/keys.rs: Keypair::random, SecretKey::random", "amcl/src/bls381/big.rs: randomnum"]}
{"id": "C55", "title": "F_q12 operations are arithmetic in the tower field", "statement": "mul, sqr, smul, inverse, conj, frob, usqr, norm, reduce and equality on FP12 compute the operation of the field F_q12 = F_q2[w]/(w^6-(1+i)); conj is x^(q^6), frob with the ROM constants is x^q, usqr is the square on elements of order dividing q^4-q^2+1.", "quantifier": "all FP12 values within the excess bookkeeping", "why_tests_cant": "4572-bit operands in redundant form", "anchors": ["amcl/src/bls381/fp12.rs: FP12", "amcl/src/bls381/fp4.rs: FP4", "amcl/src/bls381/rom.rs: FRA, FRB"]}
{"id": "C56", "title": "The final exponentiation is the power 3(q^12-1)/r", "statement": "fexp(m) = m^(3(q^12-1)/r) for every m, including 0.", "quantifier": "all FP12 values", "why_tests_cant": "the addition chain in the curve parameter is checked on single values by tests", "anchors": ["amcl/src/bls381/pair.rs: fexp"]}
{"id": "C57", "title": "The implemented pairing is the ate pairing", "statement": "ate followed by fexp equals the cube of the reduced ate pairing defined by Miller functions with lines and verticals, for every twist point and every curve point.", "quantifier": "all points of both curves, in all admissible representations with z = 1", "why_tests_cant": "Miller functions have degree about 2^64", "anchors": ["amcl/src/bls381/pair.rs: ate, fexp, linedbl, lineadd", "src/amcl_utils.rs: ate_pairing"]}
{"id": "C58", "title": "Bilinearity", "statement": "The pairing is additive in both arguments on the order-r group of the twist and the whole curve, its values are non-zero r-th roots of unity.", "quantifier": "all points", "why_tests_cant": "algebraic identity over all points", "anchors": ["amcl/src/bls381/pair.rs: ate, fexp"]}
{"id": "C59", "title": "Pairings with infinity are 1", "statement": "ate_pairing with either point at infinity is 1.", "quantifier": "all points", "why_tests_cant": "exceptional points", "anchors": ["amcl/src/bls381/pair.rs: ate"]}
{"id": "C60", "title": "Order of the twist and the range of hashing", "statement": "The twist has exactly h2*r points, h2 the cofactor of the ROM, its r-torsion is cyclic of order r, and hash_on_g2 always lands in it.", "quantifier": "all points of the twist; all messages and domains", "why_tests_cant": "point counting over F_q2", "anchors": ["src/amcl_utils.rs: hash_on_g2, map_to_g2", "amcl/src/bls381/rom.rs: CURVE_COF, CURVE_ORDER"]}
{"id": "C61", "title": "Verification is the pairing equation", "statement": "verify, verify_hashed and AggregateSignature::verify terminate and accept exactly when e(sig, G) = e(H(m), pk), for every signature and key the interface can produce, decoded ones outside the prime-order groups included.", "quantifier": "all signatures and keys, all messages and domains", "why_tests_cant": "needs the pairing for all points", "anchors": ["src/signature.rs: verify, verify_hashed", "src/aggregates.rs: AggregateSignature::verify"]}
{"id": "C62", "title": "Message points are never the identity", "statement": "map_to_g2 never returns infinity, so no signature is valid for all keys.", "quantifier": "all 48-byte pairs", "why_tests_cant": "the failing inputs are 13- and 23-torsion x coordinates", "anchors": ["src/amcl_utils.rs: map_to_g2", "src/signature.rs: verify_hashed"]}
{"id": "C63", "title": "Multi-message verification is the product equation", "statement": "verify_multiple accepts exactly when e(sig, G) is the product of e(H(m_i), pk_i).", "quantifier": "all signatures, all finite lists of messages and keys", "why_tests_cant": "unbounded lists", "anchors": ["src/aggregates.rs: AggregateSignature::verify_multiple"]}
{"id": "C64", "title": "What a key accepts", "statement": "For every public or aggregate key the interface can produce there is one multiplier k below r such that, for every message and domain, verify accepts among the signatures of the order-r group exactly the k-fold message point.", "quantifier": "all keys, signatures of order r, messages, domains", "why_tests_cant": "needs non-degeneracy of the pairing", "anchors": ["src/signature.rs: verify, verify_hashed", "src/aggregates.rs: AggregateSignature::verify"]}
{"id": "C65", "title": "Verification accepts exactly what signing returns", "statement": "For a key pair whose secret is not 0 mod r, verify returns true on a signature of the order-r group exactly when it equals the one Signature::new returns.", "quantifier": "all key pairs, signatures of order r, messages, domains", "why_tests_cant": "no test can try all other signatures", "anchors": ["src/signature.rs: new, verify"]}
{"id": "C66", "title": "Signatures are unique", "statement": "Two signatures of the order-r group accepted for the same message, domain and key are equal.", "quantifier": "all keys, all pairs of such signatures, all messages", "why_tests_cant": "no test can try all pairs", "anchors": ["src/signature.rs: verify"]}
{"id": "C67", "title": "Another key rejects", "statement": "A signature by one secret key is accepted under the public key of another exactly when the two secrets agree mod r (or the message point is infinity).", "quantifier": "all pairs of keys, all messages", "why_tests_cant": "all pairs of keys", "anchors": ["src/signature.rs: new, verify, new_hashed, verify_hashed"]}
{"id": "C68", "title": "Another message or domain is rejected", "statement": "A signature on (m1,d1) by a key that is not 0 mod r is accepted on (m2,d2) exactly when the two hash to the same point.", "quantifier": "all keys, all pairs of messages and domains", "why_tests_cant": "all pairs of messages", "anchors": ["src/signature.rs: new, verify", "src/amcl_utils.rs: hash_on_g2"]}
{"id": "C69", "title": "What verify_multiple accepts", "statement": "For every list of keys there are multipliers k_i such that verify_multiple accepts among the signatures of the order-r group exactly the sum of the k_i-fold message points; for derived keys the k_i are the secrets.", "quantifier": "all lists of keys and messages, all signatures of order r", "why_tests_cant": "unbounded lists", "anchors": ["src/aggregates.rs: AggregateSignature::verify_multiple"]}
{"id": "C70", "title": "Different keys accept different signatures", "statement": "No two unequal public keys accept the same signatures on all messages.", "quantifier": "all pairs of keys", "why_tests_cant": "the failing pairs differ by a point of small order", "anchors": ["src/keys.rs: PublicKey::from_bytes", "src/signature.rs: verify"]}
{"id": "C71", "title": "No universal signature for a key", "statement": "For no public key other than infinity is one signature accepted on every message whose point is not infinity.", "quantifier": "all keys and signatures", "why_tests_cant": "the failing key is the point with x = 0", "anchors": ["src/keys.rs: PublicKey::from_bytes", "src/signature.rs: verify"]}
{"id": "C72", "title": "Rogue keys", "statement": "For every public key and every secret key not 0 mod r there is a decodable key such that the aggregate of the two keys accepts, on every message, the signature of the secret key alone; the interface does not prevent it.", "quantifier": "all victims, all attackers, all messages", "why_tests_cant": "existence claim for all keys", "anchors": ["src/aggregates.rs: AggregatePublicKey::from_public_keys, AggregateSignature::verify"]}
{"id": "C73", "title": "The pairing is non-degenerate", "statement": "On the order-r group of the twist, pairing with the generator is injective; the pairing with a multiple of the generator is 1 only if one of the points is infinity.", "quantifier": "all points of order r", "why_tests_cant": "needs one pairing value and all points", "anchors": ["amcl/src/bls381/pair.rs: ate, fexp", "amcl/src/bls381/rom.rs: CURVE_GX, CURVE_GY"]}
{"id": "C74", "title": "Which keys have a secret key", "statement": "A public key (decoded, derived or aggregated) equals the key derived from some 48-byte secret below r exactly when r times its point is infinity.", "quantifier": "all public keys", "why_tests_cant": "existence of a discrete logarithm", "anchors": ["src/keys.rs: PublicKey::from_secret_key, PublicKey::from_bytes, SecretKey::from_bytes"]}
{"id": "C75", "title": "Order of the curve over F_q", "statement": "The curve y^2 = x^3 + 4 has exactly h1*r points over F_q, h1 = 0x396c8c005555e1568c00aaab0000aaab, and h1*r times every point is infinity.", "quantifier": "all points of the curve", "why_tests_cant": "point counting over F_q", "anchors": ["amcl/src/bls381/rom.rs: CURVE_ORDER, MODULUS", "src/keys.rs: PublicKey::from_bytes"]}
{"id": "C76", "title": "When two keys are interchangeable", "statement": "Let the message point not be infinity. Two public keys whose h1-multiples agree give the same verdict on every signature; two whose h1-multiples differ never both accept the same signature.", "quantifier": "all pairs of keys, all signatures, all messages", "why_tests_cant": "claim about all signatures for all pairs of keys", "anchors": ["src/signature.rs: verify, verify_hashed", "src/keys.rs: PublicKey::from_bytes"]}
{"id": "C77", "title": "Hashing to the curve always ends", "statement": "For every imaginary part there is a real part below q giving a point of the twist, so the search for an x coordinate ends for every pair of inputs of at least 48 bytes and hash_on_g2 returns for every message and domain.", "quantifier": "all inputs", "why_tests_cant": "a loop without a bound", "anchors": ["src/amcl_utils.rs: map_to_g2, hash_on_g2"]}
{"id": "C78", "title": "g1mul multiplies on the group of order r", "statement": "For every point P of the group of order r of the curve and every scalar v below 2^382, pair::g1mul(P, v) returns v times P and does not panic.", "quantifier": "all points of the group and all scalars", "why_tests_cant": "255-bit scalars; recoding and carry cases", "anchors": ["amcl/src/bls381/pair.rs: g1mul, glv", "amcl/src/bls381/ecp.rs: mul2"]}
{"id": "C79", "title": "g1mul multiplies on the whole curve", "statement": "For every point of the curve, in particular for every decoded public key, pair::g1mul(P, v) is v times P for every scalar v below r.", "quantifier": "all points of the curve and all scalars", "why_tests_cant": "needs points outside the group of order r", "anchors": ["amcl/src/bls381/pair.rs: g1mul, glv", "src/keys.rs: PublicKey::from_bytes"]}
{"id": "C80", "title": "Double scalar multiplication", "statement": "ECP::mul2(P, e, Q, f) returns eP + fQ for all points P, Q of the curve and all scalars with e + f + 4 below 2^404, without panic.", "quantifier": "all pairs of points and scalars", "why_tests_cant": "pairs of 400-bit scalars; exceptional additions in the table", "anchors": ["amcl/src/bls381/ecp.rs: mul2"]}
{"id": "C81", "title": "g2mul multiplies on the group of order r", "statement": "For every point Q of the group of order r of the twist and every BIG v, pair::g2mul(Q, v) returns v times Q and does not panic.", "quantifier": "all points of the group and all scalars", "why_tests_cant": "255-bit scalars; recoding and carry cases", "anchors": ["amcl/src/bls381/pair.rs: g2mul, gs", "amcl/src/bls381/ecp2.rs: mul4, frob"]}
{"id": "C82", "title": "g2mul multiplies on the whole twist", "statement": "For every point of the twist, in particular for every decoded signature, pair::g2mul(Q, v) is v times Q for every scalar v below r.", "quantifier": "all points of the twist and all scalars", "why_tests_cant": "needs points outside the group of order r", "anchors": ["amcl/src/bls381/pair.rs: g2mul, gs", "src/signature.rs: from_bytes"]}
{"id": "C83", "title": "Quadruple scalar multiplication", "statement": "ECP2::mul4 returns the sum of the four multiples for all points of the twist and all normalised scalars (the first below 2^406 - 1), without panic.", "quantifier": "all quadruples of points and scalars", "why_tests_cant": "quadruples of 400-bit scalars; exceptional additions in the table", "anchors": ["amcl/src/bls381/ecp2.rs: mul4"]}
{"id": "C84", "title": "gtpow is a power", "statement": "For every element z of F_q^12 with z^r = 1 and every BIG v, pair::gtpow(z, v) is z^v; FP12::pow4 is the product of four powers on the whole cyclotomic subgroup. Neither panics.", "quantifier": "all elements of the group and all exponents", "why_tests_cant": "255-bit exponents in a field of 4572 bits", "anchors": ["amcl/src/bls381/pair.rs: gtpow, gs", "amcl/src/bls381/fp12.rs: pow4"]}
{"id": "C85", "title": "Multiplication and power by a PIN", "statement": "For n at most 32 and every integer e, ECP::pinmul(e, n) is (e mod 2^n) times the point and FP12::pinpow(e, n) the power e mod 2^n of an element of the cyclotomic subgroup.", "quantifier": "all points or elements, all e, all n up to 32", "why_tests_cant": "all points and scalars", "anchors": ["amcl/src/bls381/ecp.rs: pinmul", "amcl/src/bls381/fp12.rs: pinpow"]}
{"id": "C86", "title": "Hashing to G1", "statement": "ECP::mapit(h), for any string of at least 48 bytes, ends within q rounds without panic and returns h1 times a point: the first abscissa u + k (u the integer of the first 48 bytes, mod q) whose points are on the curve and are not killed by the cofactor h1, taken with the even ordinate. The result is in the group of order r and is never the point at infinity. Shorter strings panic.", "quantifier": "all byte strings", "why_tests_cant": "2^384 strings; that the search ends and that the cofactor multiple has order r are facts about the curve", "anchors": ["amcl/src/bls381/ecp.rs: mapit, cfp, new_bigint"]}
{"id": "C87", "title": "Hashing to G2", "statement": "ECP2::mapit(h), for any string of at least 48 bytes, ends within q rounds without panic; it takes the first abscissa (1, u + k) of a point of the twist whose ordinate has a nonzero real part, with the ordinate whose real part is a square, and returns 3(x^2-1)h2 times that point, which is in the group of order r. The clearing with psi equals that multiplication on every point of the twist. Shorter strings panic.", "quantifier": "all byte strings; for the clearing all points of the twist", "why_tests_cant": "the clearing formula is an identity of endomorphisms of a group of 762-bit order", "anchors": ["amcl/src/bls381/ecp2.rs: mapit, frob"]}
{"id": "C88", "title": "Modular inverse", "statement": "For an odd modulus p with 1 < p < 2^405 and every normalised BIG a prime to p, BIG::invmodp does not panic and returns the c with 0 <= c < p and a c = 1 mod p. If a and p have a common factor (in particular for a = 0) the function does not end.", "quantifier": "all moduli and all integers below 2^406", "why_tests_cant": "termination of the binary algorithm for all 400-bit inputs", "anchors": ["amcl/src/bls381/big.rs: invmodp"]}
{"id": "C89", "title": "Modular power", "statement": "For every modulus m > 1 and all normalised BIGs x and e, BIG::powmod returns x^e mod m without panic; for e = 0 it returns 1 for every modulus.", "quantifier": "all moduli, bases and exponents below 2^406", "why_tests_cant": "400-bit exponents", "anchors": ["amcl/src/bls381/big.rs: powmod"]}
{"id": "C90", "title": "SHA-512", "statement": "HASH512 fed with a message in any number of pieces and then asked for the hash returns the SHA-512 of the message as defined by FIPS 180-4 (constants included) and is ready for the next message; it does not panic (in a build with overflow checks, for messages below 2^61 - 16 bytes).", "quantifier": "all messages and all ways of cutting them up", "why_tests_cant": "unbounded messages", "anchors": ["amcl/src/hash512.rs"]}
{"id": "C91", "title": "SHA-384", "statement": "HASH384 fed with a message returns its SHA-384 as defined by FIPS 180-4, in every build.", "quantifier": "all messages", "why_tests_cant": "the additions wrap only without overflow checks; test builds and release builds differ", "anchors": ["amcl/src/hash384.rs"]}
{"id": "C92", "title": "HMAC", "statement": "hmac with a key, a message and a tag length olen >= 4 that fits the given slice returns true and writes HMAC (RFC 2104) over SHA-256, SHA-384 or SHA-512, cut to olen bytes or extended by zeros on the left, and leaves the rest of the slice; it does not panic (in a build with overflow checks, for SHA-256 below 2^29 bytes and SHA-512). For olen < 4 it returns false and writes nothing.", "quantifier": "all keys, messages, tag lengths and slices", "why_tests_cant": "unbounded keys and messages, every length relation", "anchors": ["amcl/src/bls381/ecdh.rs: hmac, hashit"]}
{"id": "C93", "title": "KDF2", "statement": "kdf2 writes the first olen bytes of hash(z || 1 || p) || hash(z || 2 || p) || ..., the counters as 4 bytes (KDF2 of ISO 18033-2), and leaves the rest of the slice.", "quantifier": "all secrets, parameters and lengths", "why_tests_cant": "unbounded lengths and numbers of blocks", "anchors": ["amcl/src/bls381/ecdh.rs: kdf2, hashit"]}
{"id": "C94", "title": "KDF1", "statement": "kdf1 writes the first olen bytes of hash(z || 0) || hash(z || 1) || ..., the counters as 4 bytes (KDF1 of ISO 18033-2).", "quantifier": "all secrets and lengths", "why_tests_cant": "the first block has no counter: hashit skips it when it is 0", "anchors": ["amcl/src/bls381/ecdh.rs: kdf1, hashit"]}
{"id": "C95", "title": "PBKDF2", "statement": "pbkdf2 writes the first olen bytes of PBKDF2 (RFC 8018) with HMAC over the chosen hash function.", "quantifier": "all passwords, salts, repetition counts and lengths", "why_tests_cant": "wrong for lengths above a digest, for more than one repetition unless SHA-512, and for salts above 32 bytes", "anchors": ["amcl/src/bls381/ecdh.rs: pbkdf2"]}
{"id": "C96", "title": "Key pairs and Diffie-Hellman", "statement": "key_pair_generate writes the secret d (the given one, or 510 random bits, modulo r) on 48 bytes and 4 || x || y of d G on 97 bytes, without panic. ecpsvdp_dh with a secret and an encoding (SEC 1, compressed or not) of a point W returns the abscissa of (d mod r) W on 48 bytes, or an error if the string encodes no point or the product is infinity. Two key pairs with nonzero secrets agree on the abscissa of d1 d2 G.", "quantifier": "all secrets, random streams, strings of the right length and points of the curve", "why_tests_cant": "255-bit scalar multiplication on both sides", "anchors": ["amcl/src/bls381/ecdh.rs: key_pair_generate, ecpsvdp_dh", "amcl/src/bls381/ecp.rs: frombytes, tobytes"]}
{"id": "C97", "title": "Public key validation", "statement": "public_key_validate accepts exactly the encodings of points other than infinity that are in the group of order r.", "quantifier": "all byte strings", "why_tests_cant": "the code multiplies by the cofactor and checks for infinity, which accepts every point with a component of order r", "anchors": ["amcl/src/bls381/ecdh.rs: public_key_validate"]}
{"id": "C98", "title": "ECDSA signatures verify", "statement": "ecpsp_dsa returns, for the first pair of random numbers u, w for which they are not 0, c = x(u G) mod r and d = (e + s c)/u mod r, with e the digest of the message on 48 bytes; and whatever it returns is accepted by ecpvp_dsa with any encoding of the public key s G and the same message (s not 0 modulo r).", "quantifier": "all secrets, messages, hash functions and random streams", "why_tests_cant": "all nonces", "anchors": ["amcl/src/bls381/ecdh.rs: ecpsp_dsa, ecpvp_dsa"]}
{"id": "C99", "title": "ECDSA verification", "statement": "For every encoding of a point W of the group of order r (not infinity), ecpvp_dsa returns 0 exactly if 1 <= c, d < r and the abscissa of (e/d) G + (c/d) W is c modulo r, and the code for an invalid signature otherwise; it never panics.", "quantifier": "all messages, keys and byte strings c, d of at least 48 bytes", "why_tests_cant": "all possible signatures", "anchors": ["amcl/src/bls381/ecdh.rs: ecpvp_dsa", "amcl/src/bls381/ecp.rs: mul2"]}
{"id": "C100", "title": "ECDSA message integer", "statement": "The integer e of a message is the one of FIPS 186-4: the leftmost 255 bits of the digest (r has 255 bits).", "quantifier": "all messages", "why_tests_cant": "signatures made and checked by the same code agree whatever e is", "anchors": ["amcl/src/bls381/ecdh.rs: ecpsp_dsa, ecpvp_dsa, hashit"]}
{"id": "C101", "title": "AES", "statement": "After init with a key of 16 or 24 bytes, ecb_encrypt and ecb_decrypt are Cipher and InvCipher of FIPS 197 (on any AES object, without panic), and the second inverts the first.", "quantifier": "all keys and blocks", "why_tests_cant": "2^128 blocks and more keys; the tables are generated from the field", "anchors": ["amcl/src/aes.rs: init, ecb_encrypt, ecb_decrypt"]}
{"id": "C102", "title": "AES-256", "statement": "After init with a key of 32 bytes, ecb_encrypt is Cipher of FIPS 197.", "quantifier": "all keys and blocks", "why_tests_cant": "the key schedule leaves out the SubWord of every eighth word", "anchors": ["amcl/src/aes.rs: init"]}
{"id": "C103", "title": "Decryption inverts encryption", "statement": "In every mode, for every accepted key length (32 bytes too), an object initialised with the same key and initial vector decrypts the encryption of any sequence of blocks to that sequence and ends in the same state.", "quantifier": "all modes, keys, initial vectors and sequences of blocks", "why_tests_cant": "sequences of any length", "anchors": ["amcl/src/aes.rs: encrypt, decrypt"]}
{"id": "C104", "title": "CBC, CFB and OFB", "statement": "With keys of 16 or 24 bytes, encrypt computes CBC, CFB and OFB of SP 800-38A block by block (n-byte segments in the first n bytes of the block, the rest of the block unchanged), and never panics.", "quantifier": "all keys, initial vectors, segment lengths of the library and sequences of blocks", "why_tests_cant": "sequences of any length", "anchors": ["amcl/src/aes.rs: encrypt"]}
{"id": "C105", "title": "CTR", "statement": "encrypt in CTR mode computes CTR of SP 800-38A with its standard incrementing function, for any number of blocks, and never panics.", "quantifier": "all keys, initial vectors and sequences of blocks", "why_tests_cant": "the counter is little-endian, and a build with overflow checks panics when its first byte is 255", "anchors": ["amcl/src/aes.rs: encrypt, increment"]}
{"id": "C106", "title": "CBC encryption of a message", "statement": "cbc_iv0_encrypt with a key of 16 or 24 bytes returns AES-CBC with a zero initial vector of the message with PKCS #7 padding, and never panics.", "quantifier": "all keys and messages", "why_tests_cant": "messages of any length", "anchors": ["amcl/src/bls381/ecdh.rs: cbc_iv0_encrypt"]}
{"id": "C107", "title": "CBC decryption of a message", "statement": "cbc_iv0_decrypt returns the message if the ciphertext is a positive number of blocks whose decryption has valid padding, and None otherwise; it inverts cbc_iv0_encrypt.", "quantifier": "all keys and ciphertexts", "why_tests_cant": "the acceptance condition holds, but the bytes of the last block are replaced by the padding byte", "anchors": ["amcl/src/bls381/ecdh.rs: cbc_iv0_decrypt"]}
{"id": "C108", "title": "Keys of other lengths", "statement": "cbc_iv0_encrypt does not produce a ciphertext that can be decrypted without the key, whatever the length of the key.", "quantifier": "all keys", "why_tests_cant": "the false returned by init is ignored", "anchors": ["amcl/src/bls381/ecdh.rs: cbc_iv0_encrypt, cbc_iv0_decrypt", "amcl/src/aes.rs: init"]}
{"id": "C109", "title": "ECIES encryption", "statement": "ecies_encrypt draws d, writes V = d G, and returns AES-CBC of the message and writes the HMAC of ciphertext, p2 and its length, cut to the length of t, with the two halves of KDF2(V || x(d W), p1) as keys; None if d W is infinity. It never panics.", "quantifier": "all keys W, messages, parameters, hash functions and random streams; tags of at least 4 bytes", "why_tests_cant": "all inputs", "anchors": ["amcl/src/bls381/ecdh.rs: ecies_encrypt"]}
{"id": "C110", "title": "ECIES decryption", "statement": "ecies_decrypt with a tag of 4 to 32 bytes returns something exactly if the ciphertext has valid padding and the tag is the right one, and then the decrypted message (its last partial block damaged as in C107). What ecies_encrypt made for a key pair is accepted.", "quantifier": "all strings V, ciphertexts, tags, parameters and secrets", "why_tests_cant": "all forged ciphertexts", "anchors": ["amcl/src/bls381/ecdh.rs: ecies_decrypt"]}
{"id": "C111", "title": "ECIES tags of other lengths", "statement": "ecies_decrypt accepts a ciphertext only with its tag, whatever the length of the tag, and never panics.", "quantifier": "all tag lengths", "why_tests_cant": "tags of fewer than 4 bytes are compared with themselves; tags of more than 32 bytes overrun an array", "anchors": ["amcl/src/bls381/ecdh.rs: ecies_decrypt, hmac"]}
{"id": "C112", "title": "ECIES with a compressed key", "statement": "ecies_decrypt returns for every encoding V of a point that public_key_validate accepts.", "quantifier": "all encodings of valid public keys", "why_tests_cant": "97 bytes of V are read whatever its form", "anchors": ["amcl/src/bls381/ecdh.rs: ecies_decrypt"]}
{"id": "C113", "title": "GCM encryption", "statement": "With a key of 16 or 24 bytes, init, add_header on the pieces of a header, add_plain on the pieces of a plaintext and finish give the ciphertext and the tag of SP 800-38D for the whole header and the whole plaintext, for an initialisation vector of any length. Every piece but the last fills its blocks.", "quantifier": "all keys, initialisation vectors, headers, plaintexts and ways to cut them", "why_tests_cant": "the counter, the padding of both parts and the lengths must agree for every length and every cut", "anchors": ["amcl/src/gcm.rs: init, add_header, add_plain, finish, ghash, gf2mul, precompute, wrap"]}
{"id": "C114", "title": "GCM decryption", "statement": "add_cipher writes the plaintext that SP 800-38D gives and finish returns the tag to compare. What was encrypted is decrypted, with the same tag, however it is cut into pieces and for every key length that the cipher accepts.", "quantifier": "all keys, initialisation vectors, headers, ciphertexts and cuts", "why_tests_cant": "all ciphertexts", "anchors": ["amcl/src/gcm.rs: add_cipher, finish"]}
{"id": "C115", "title": "GCM pieces out of step", "statement": "Once a piece of header or data has not filled its last block, no further piece of the same kind is accepted: the call returns false and changes nothing.", "quantifier": "all states and pieces", "why_tests_cant": "all orders of calls", "anchors": ["amcl/src/gcm.rs: add_header, add_plain, add_cipher"]}
{"id": "C116", "title": "GCM does not overflow", "statement": "GCM never panics in a build with overflow checks.", "quantifier": "all inputs", "why_tests_cant": "`!c+1` overflows for c = 0: the product panics unless all 128 bits of its input are set, which the usual release build hides", "anchors": ["amcl/src/gcm.rs: gf2mul"]}
{"id": "C117", "title": "GCM with AES-256", "statement": "With a key of 32 bytes the ciphertext and tag are those of SP 800-38D.", "quantifier": "all keys of 32 bytes", "why_tests_cant": "the fault of the AES-256 key schedule shows only against outside vectors; GCM round trips hide it", "anchors": ["amcl/src/gcm.rs: init", "amcl/src/aes.rs: init"]}
{"id": "C118", "title": "SHA-3", "statement": "For a digest of n bytes, 0 < n < 100, new, process on every byte and hash write the sponge of FIPS 202 with a capacity of 2n bytes and the suffix 01 into the first n bytes of the array: SHA3-224, -256, -384 and -512 for n = 28, 32, 48 and 64. From n = 100 on the code panics.", "quantifier": "all messages whose padded length is below 2^64, all n, all arrays", "why_tests_cant": "every length of the message modulo the rate pads differently; the rate need not divide into lanes", "anchors": ["amcl/src/sha3.rs: new, init, process, hash, squeeze, transform"]}
{"id": "C119", "title": "SHAKE", "statement": "shake with olen > 0 writes the first olen bytes of SHAKE128 (n = 16) or SHAKE256 (n = 32) and leaves the rest of the array.", "quantifier": "all messages, all output lengths", "why_tests_cant": "outputs that end at, before and after each block boundary", "anchors": ["amcl/src/sha3.rs: shake, squeeze"]}
{"id": "C120", "title": "SHAKE with no output", "statement": "shake with olen = 0 writes nothing.", "quantifier": "all arrays", "why_tests_cant": "tests ask for some output: one byte is written, and an empty array panics", "anchors": ["amcl/src/sha3.rs: shake, squeeze"]}
{"id": "C121", "title": "SHA-3 object after hash", "statement": "After hash the object hashes the next message as a new one does, like those of hash256.rs, hash384.rs and hash512.rs.", "quantifier": "all pairs of messages", "why_tests_cant": "tests make a new object for each message; the code hashes the second message after the first one and its padding", "anchors": ["amcl/src/sha3.rs: hash"]}
{"id": "C122", "title": "Keccak-f", "statement": "transform is Keccak-f[1600] of FIPS 202: the offsets, the order of the lanes and the constants are those of the walk and of the shift register of the standard.", "quantifier": "all 2^1600 states", "why_tests_cant": "the rotations act on all states", "anchors": ["amcl/src/sha3.rs: transform, rotl, RC"]}
{"id": "C123", "title": "Double pairing", "statement": "ate2 followed by fexp gives the product of the two pairings that ate and fexp give, for any two pairs of points. As with ate, a pair of the point at infinity with a point of abscissa 0 or at infinity makes the result 0.", "quantifier": "all pairs of points, a point of order r where its partner is at infinity", "why_tests_cant": "all points", "anchors": ["amcl/src/bls381/pair.rs: ate2"]}
{"id": "C124", "title": "M-Pin identities, secrets and permits", "statement": "hash_id writes the hash cut or filled to 48 bytes. The point of a hash is the first point found by counting up the abscissa, cleared of its cofactor; it is unique and has order r. get_client_secret, get_client_permit and get_g1_multiple write s times such a point, get_server_secret s times the generator of G2. random_generate writes a number below r taken from 510 bits of the stream. client_1 that draws x does what it does with that x given.", "quantifier": "all identities, dates, secrets that r does not divide, streams", "why_tests_cant": "all scalars; the points come from a hash", "anchors": ["amcl/src/bls381/mpin.rs: hash_id, hashit, get_client_secret, get_client_permit, get_server_secret, get_g1_multiple, random_generate, client_1"]}
{"id": "C125", "title": "M-Pin shares", "statement": "recombine_g1 and recombine_g2 add points. Client secrets issued with two masters add up to the client secret of the sum of the masters.", "quantifier": "all masters, identities", "why_tests_cant": "all masters", "anchors": ["amcl/src/bls381/mpin.rs: recombine_g1, recombine_g2"]}
{"id": "C126", "title": "M-Pin factors", "statement": "extract_factor and restore_factor take off and add the low bits of the factor times the point of the identity, extract_pin the PIN modulo 10000. restore_factor undoes extract_factor unless the result in between is the point at infinity.", "quantifier": "all tokens, factors up to 32 bits, identities", "why_tests_cant": "all factors; a negative factor counts by its low bits", "anchors": ["amcl/src/bls381/mpin.rs: extract_pin, extract_factor, restore_factor"]}
{"id": "C127", "title": "M-Pin runs", "statement": "A whole run of hash_id, get_client_secret, extract_pin, get_server_secret, client_1, server_1, client_2, server_2, and get_client_permit if there is a date, is accepted if the PIN of client_1 is that of extract_pin modulo 10000 and otherwise rejected with -19. In the second case the two field elements written to e and f satisfy e f^p = f^v for the PIN p given and the true PIN v, with f not 1. get_y writes the hash modulo r.", "quantifier": "all identities, masters, random numbers, challenges and PINs up to an excluded coincidence modulo r", "why_tests_cant": "soundness against a wrong PIN is about all numbers; it needs bilinearity and non-degeneracy", "anchors": ["amcl/src/bls381/mpin.rs: hash_id, get_client_secret, get_client_permit, extract_pin, get_server_secret, client_1, server_1, client_2, server_2, get_y"]}
{"id": "C128", "title": "Decision of the M-Pin server", "statement": "server_2 accepts a commitment U and a response V for the identity A and the challenge y iff the cofactor kills V + s (yA + U). It answers -14 for strings that decode to no point and -11 for missing arguments, in the order of the checks.", "quantifier": "all strings, points of any order", "why_tests_cant": "points outside the group of order r never occur in tests", "anchors": ["amcl/src/bls381/mpin.rs: server_2"]}
{"id": "C129", "title": "Accepted M-Pin responses are in the group", "statement": "server_2 accepts only responses in the group of order r, so one per commitment and challenge.", "quantifier": "all responses", "why_tests_cant": "adding a point of order 3 to a good response goes unnoticed; a test would have to look for such points. With one, a commitment that depends on the challenge is answered without any secret", "anchors": ["amcl/src/bls381/mpin.rs: server_2"]}
{"id": "C130", "title": "M-Pin with an unsupported hash", "statement": "With a hash size other than 32, 48 and 64 the functions fail.", "quantifier": "all hash sizes", "why_tests_cant": "hash_id reports false, but server_1 ignores it and writes the same point for every identity", "anchors": ["amcl/src/bls381/mpin.rs: hashit, hash_id, server_1"]}
{"id": "C131", "title": "M-Pin PINs", "statement": "A run with another PIN than that of extract_pin is rejected.", "quantifier": "all pairs of PINs", "why_tests_cant": "PINs count modulo 10000, so longer ones that agree in the last four digits are the same", "anchors": ["amcl/src/bls381/mpin.rs: extract_pin, client_1"]}
{"id": "C132", "title": "M-Pin dates need a permit", "statement": "client_1 with a date fails if no permit is given.", "quantifier": "all arguments", "why_tests_cant": "the code returns 0 and adds the PIN twice to the token", "anchors": ["amcl/src/bls381/mpin.rs: client_1"]}
{"id": "C133", "title": "M-Pin transcript hash", "statement": "hash_all writes the hash of hid, xcid (xid if there is no xcid), sec, y, r and w, cut or filled to 48 bytes, if they have 484 bytes in all; it returns false and writes nothing if they have fewer, and panics if they have more.", "quantifier": "all parts of all lengths", "why_tests_cant": "the parts have any lengths", "anchors": ["amcl/src/bls381/mpin.rs: hash_all"]}
{"id": "C134", "title": "M-Pin precomputation", "statement": "precompute writes the pairings of the generator of G2 with the token and with the point of the identity, and returns -14 for a token that decodes to no point.", "quantifier": "all tokens on the curve, all identities", "why_tests_cant": "pairings of all points", "anchors": ["amcl/src/bls381/mpin.rs: precompute"]}
{"id": "C135", "title": "Decoding points from two numbers", "statement": "A number u and a parity s have one point: the first abscissa from u on with a point, and the ordinate of parity s. decoding writes the sum of the points of the two numbers and parities, if it is not the point at infinity, and returns -14 if bit 2 of the first byte is set.", "quantifier": "all strings", "why_tests_cant": "the search for the abscissa runs over quadratic residues", "anchors": ["amcl/src/bls381/mpin.rs: decoding, emap"]}
{"id": "C136", "title": "Encoding points as two numbers", "statement": "encoding draws u from 762 bits of the stream and a parity, and writes u and a number v in the run of abscissas that leads to that of P - W, W being the point of u, chosen by one more byte. decoding of the result gives back the string of P. A string that is not on the curve gives -14.", "quantifier": "all points P and streams, P - W not at infinity, no abscissa 0", "why_tests_cant": "the two numbers are random; the loops run over gaps between abscissas", "anchors": ["amcl/src/bls381/mpin.rs: encoding, emap, unmap", "amcl/src/bls381/ecp.rs: gets"]}
{"id": "C137", "title": "Decoded points are on the curve", "statement": "If decoding returns 0 then the string it writes encodes a point.", "quantifier": "all strings", "why_tests_cant": "opposite points add up to the point at infinity, and its leftover coordinates are written: 0 and 0 with different parities give (0, -128)", "anchors": ["amcl/src/bls381/mpin.rs: decoding"]}
{"id": "C138", "title": "M-Pin PIN error", "statement": "kangaroo panics on strings shorter than 576 bytes and not on longer ones with f of order dividing q^4 - q^2 + 1. If e f^p = f^v for f of order r, as server_2 leaves them after the PIN p for v, its answer is 0, the error p - v, or, only if p - v exceeds 200, a number smaller in absolute value than p - v. In general an answer d from the first comparison satisfies e f^d = 1; one from the second is dn - dm with e f^(dm + dn) = 1.", "quantifier": "all e, all f of order dividing q^4 - q^2 + 1", "why_tests_cant": "the walks depend on the bits of field elements; up to 1000 products", "anchors": ["amcl/src/bls381/mpin.rs: kangaroo", "amcl/src/bls381/fp12.rs: frombytes"]}
{"id": "C139", "title": "M-Pin diagnosis by the server", "statement": "If server_2 rejects and xid, e and f are given, it writes to e the pairing of the generator with V + s (yA + U) and to f that with yA + U, where for a date A and U are read from hid and xid; if one of these decodes to no point the result is -14 and only e is written.", "quantifier": "all strings, points of any order in the commitment and the response", "why_tests_cant": "the error path writes one of two outputs", "anchors": ["amcl/src/bls381/mpin.rs: server_2"]}
{"id": "C140", "title": "Field elements as bytes", "statement": "tobytes of FP12 writes the twelve coordinates on 48 bytes each, and frombytes reads them back; frombytes reads any 576 bytes as twelve numbers modulo q and panics on fewer.", "quantifier": "all elements in every representation, all strings", "why_tests_cant": "many representations of an element", "anchors": ["amcl/src/bls381/fp12.rs: tobytes, frombytes"]}
