# Design of the formal model

The code is read from /repo and is never built or run.
Everything below is about a Gallina model in `rocq/theories`.
The tie between model and code is the citation on each definition (`file:lines`) and nothing else.

## Layers of the model

| Layer | Models | Files |
|---|---|---|
| Machine integers | i64, i128, i32, usize, u8 arithmetic with debug-build overflow checks | `Prim.v` |
| Multi-precision | `amcl/src/bls381/big.rs`, `dbig.rs`, `rom.rs` | `Rom.v`, `Big.v` |
| Fields | `fp.rs` (Montgomery form, excess counter), `fp2.rs`, `fp4.rs`, `fp12.rs` | `Fp.v`, `Fp2.v`, `Fp4.v`, `Fp12.v` |
| Curves | `ecp.rs`, `ecp2.rs` | `Ecp.v`, `Ecp2.v` |
| Pairing | `pair.rs`: `linedbl`, `lineadd`, `ate`, `fexp`, `ate2` | `Pair.v`, `Pair2.v` |
| Modular inverse and power, longer hashes | `big.rs`: `invmodp`, `powmod`; `hash512.rs`, `hash384.rs` | `BigX.v`, `Hash512.v` |
| Multiplications with endomorphisms | `pair.rs`: `glv`, `gs`, `g1mul`, `g2mul`, `gtpow`; `mul2`, `mul4`, `pow4`, `pinmul`, `pinpow`, `mapit` | `Glv.v` |
| Encodings, hashing to the curve | `src/amcl_utils.rs` | `Utils.v` |
| Public interface | `src/keys.rs`, `src/signature.rs`, `src/aggregates.rs` (and the thin wrappers `src/g1.rs`, `src/g2.rs`) | `Api.v` |
| Key agreement, MACs, ECDSA, ECIES | `ecdh.rs` | `Ecdh.v`, `Ecies.v` |
| M-Pin | `mpin.rs` up to `server_2` | `Mpin.v` |
| M-Pin, further functions | `mpin.rs`: `emap`, `unmap`, `encoding`, `decoding`, `precompute`, `hash_all`; `gets` of `ecp.rs` | `Mpin2.v` |
| PIN error | `mpin.rs`: `kangaroo`; `frombytes` of `fp12.rs` | `Kang.v` |
| SHA-3 | `amcl/src/sha3.rs` | `Sha3.v` |
| AES, its modes, GCM | `amcl/src/aes.rs`, `amcl/src/gcm.rs` | `AesTab.v`, `Aes.v`, `Gcm.v` |
| Random numbers | `amcl/src/hash256.rs`, `amcl/src/rand.rs`, `src/rng.rs`, `BIG::random`, `BIG::randomnum` | `Hash256.v`, `Rand.v` |

The model is executable: every function is a total Gallina function on limb lists (7 limbs of 58 bits, as in the code).
`option` is the panic monad.
`None` means that the debug build of the code panics: overflow, index out of range, subtraction underflow.
Where a theorem says `f x = Some y` it therefore also says that no intermediate value overflows, so the release build computes the same.
`Result<_, DecodeError>` stays data inside `option`.
Loops run on `nat` fuel.
For loops with a static bound the fuel is that bound.
The search for an x coordinate (`map_to_g2`) has no bound in the code; the model gives it `map_fuel` (more than q) steps, and C77 shows that the fuel never runs out.

## Specification side

These files do not mention the model:

* `SpecBytes.v`: big-endian numbers, byte lists.
* `FieldQ.v`, `FieldQ2.v`: the field F_q as canonical residues, F_q2 = F_q[i].
* `SpecCurve.v`: affine points of y^2 = x^3 + b over any field, chord-and-tangent addition, n-fold sum.
* `Tower.v`: F_q4 = F_q2[s]/(s^2 - (1+i)), F_q12 = F_q4[w]/(w^3 - s), with textbook operations.
* `SpecPairing.v`: the ate pairing by its textbook definition (Miller loop on affine points, power (q^12-1)/r times 3).
* `SpecSha.v`, `SpecSha5.v`: FIPS 180-4. `SpecSha3.v`: FIPS 202. `SpecMac.v`: HMAC, KDF1, KDF2, PBKDF2. `SpecEcdh.v`: point encodings, ECDSA. `SpecAes.v`: FIPS 197, the modes of SP 800-38A, PKCS #7. `SpecEcies.v`: ECIES. `SpecGcm.v`: GCM as in SP 800-38D. `SpecMpin.v`: hashes, points and strings of M-Pin. `SpecMpin2.v`: the point of a number and a parity. `SpecRand.v`: the documented subtract-with-borrow generator.
* `NumT.v`: the numbers q and r, and their primality.

`Denote.v` and `DenoteT.v` say what a model value denotes: `ecp_pt`, `ecp2_pt` give the affine point of a triple.

## Proof files

| Files | Content |
|---|---|
| `PrimP`, `BigP`-`BigP5`, `BigL`, `LayerP` | limb arithmetic: value, limb bounds, no overflow |
| `NumT`, `Dig`, `PowD`, `PrimesD` | primality by Pocklington certificates; base-256 digit arithmetic that the kernel checks quickly |
| `FpP`, `FpP2`, `JacobiM`, `RecipP`, `JacP`, `Fp2P`, `Sqrt2P` | F_q and F_q2 operations, Jacobi symbol by quadratic reciprocity, square roots |
| `CurveP`, `GroupP`, `EcpP`, `EcpC`, `Ecp2P`, `Ecp2C`, `Ecp2L`, `WinP`, `GenP` | the group law (associativity from scratch), completeness of the projective formulas, window scalar multiplication, the generator has order r |
| `SkP`, `KeysP`-`KeysP3` | secret and public keys, encodings, aggregation |
| `Poly`, `SextP`, `SearchP`, `MapP`, `SigsP`, `SigsP2` | hashing to the curve, termination of the search (a sextic that is a square everywhere has a square leading shape), signatures |
| `HashP`, `RandP` | SHA-256, generator |
| `Tower`, `TowerP`, `KexpD`, `FrobP`, `CycP`, `Fp4P`, `Fp12P`, `NafP`, `FexpP` | tower arithmetic, Frobenius, final exponentiation |
| `LineP`, `PairP`-`PairP3`, `MillerP`-`MillerP3`, `PsiP`, `BilinP` | Miller loop, Weil reciprocity in the cases needed, bilinearity |
| `FinGrp`, `TwD`, `TwGrp`, `TwPts`, `TwPsi`, `TwistP`, `CvD`, `G1Grp`, `G1Ord` | number of points of the twist and of the curve, cyclicity of the r-torsion |
| `F12D`, `MillD`, `PairD`, `RootP` | the pairing of the generators is not 1, roots of unity |
| `VerifyP`-`VerifyP7` | verification |
| `RecodeP`, `Mul2P`, `Mul4P`, `Pow4P`, `PinP`, `GlvP` | signed recodings of one, two and four scalars, multiplications with endomorphisms |
| `InvP`, `HashQ` | binary inverse, modular power; SHA-512 and SHA-384 against `SpecSha5` |
| `EcdhH`, `EcdhK` | HMAC, key derivation, PBKDF2 against `SpecMac` |
| `EcdhP`, `EcdhQ`, `EcdhS` | encodings, Diffie-Hellman, key validation, ECDSA |
| `AesW`, `AesP`, `AesK`, `AesM` | AES tables, rounds, key schedule, modes |
| `EciesP`, `EciesQ` | CBC with padding, ECIES |
| `Sha3P`, `Sha3Q` | Keccak-f and absorbing; padding, squeezing, whole runs |
| `Ate2P`, `Ate2V` | the double Miller loop against the product of two |
| `MpinP` … `MpinV` | M-Pin: points and strings; secrets and factors; the client; the server; statements; whole runs; the decision and its faults |
| `MpinW`, `MpinX` | `hash_all`, `precompute`, `emap`, `unmap`; `encoding`, `decoding`, their round trip, opposite points |
| `KangP`, `MpinY` | `kangaroo`, bytes of F_q12; what `server_2` writes when it rejects |
| `GcmP`, `GcmQ`, `GcmR` | product of GCM blocks, GHASH and counter mode, whole runs |
| `KerP`, `TwPts2`, `ClearP`, `MapitP` | kernel of the cofactor clearing of G2, the searches of `mapit` |

The property theorems are in `Props*.v`; each is closed by `exact` of a lemma and followed by `Print Assumptions`.
Concrete cases meeting their hypotheses are in the `Ex*.v` file of the same name.

## How each property is handled

C01-C03 (`PropsSecretKey`): bytes <-> limbs is base-256 <-> base-2^58 conversion; the round trip follows by value.
C04, C05, C08, C14, C15 (`PropsKeys`, `PropsSigs`): case analysis of the decoders over the field layer; the Jacobi loop computes the quadratic character; the exponentiation computes the root.
C06, C07, C09, C12, C13, C16, C18, C29, C33, C39, C40, C44, C46, C49, C51, C59, C62, C70, C71, C79, C82, C91, C94, C95, C97, C100, C102, C105, C107, C108, C111, C112, C116, C117, C120, C121, C129, C130, C131, C132, C137: false of the code. Each has a `_refuted` theorem with a witness and the strongest true variant (an `_exact` theorem, or a `_partial` one that says on which inputs the property holds).
C10, C11, C17: affine coordinates out and in; the on-curve test is the equation.
C19-C25, C49, C52: window recoding invariant, group law, and the order of the generator. That nothing panics is part of the statement.
C26: cross-multiplication equality on non-degenerate triples.
C27: list reasoning on the hashed byte strings. Keccak-256 (external crate `tiny-keccak`) is a parameter `hash`; the premise `digests hash` says that it returns 32 bytes.
C28, C77: the first x that works; that there is one is proved by counting squares of a sextic over F_q.
C30, C31, C35, C37: equational on the interface model.
C32-C34, C36, C61-C73, C76 (`PropsVerify`, `PropsVerify2`, `PropsVerify3`): from bilinearity (C58), the order of the twist (C60), non-degeneracy (C73) and the order of the curve (C75). Nothing about the pairing is assumed.
C38, C39, C53, C54: `dmod` is reduction; pool and state indices stay in range for every history of calls.
C40: the buffered implementation equals a direct FIPS 180-4 definition up to 2^29 bytes, and the exact failure beyond.
C41-C43, C45: one lemma per operation with value, limb bounds and excess bounds.
C47, C48: projective formulas against the affine law, then associativity of the affine law.
C50, C72: the opposite point, and its use against aggregate keys.
C55-C59: the tower is a field, the Frobenius map is a power, the addition chain of `fexp` is the power 3(q^12-1)/r, the projective Miller loop equals the affine one up to factors the power kills.
C60, C75: point counts by exhibiting enough points of prime order and the Hasse-free bound from counting x coordinates.
C78, C80, C81, C83-C85 (`PropsGlv`): the recoded digits add up to the scalars; on the group of order r the endomorphism is a multiplication by a power of x, and the digits in base x (or x^2) add up modulo r.
C86, C87 (`PropsMapit`): the G1 search meets the generator's abscissa within q steps, and the cofactor does not kill the generator. For G2, the clearing is an endomorphism that kills points whose orders together give h2, so its image has exponent r; on that image it acts as the multiplication by 3(x^2-1)h2.

C88–C91 (`PropsInv`, `PropsSha`): the loops of `invmodp` carry round limits in the model; the theorems show that a bound on the rounds always suffices for coprime inputs and that no limit suffices otherwise, so the model's `None` is exactly non-termination. The SHA-512 rounds of `hash512.rs` use `wrapping_add`, those of `hash384.rs` plain `+`; two flags in the model say which additions are checked.
C92–C95 (`PropsMac`): `hashit` is the hash of the concatenation with the counter as 4 bytes, left out when it is 0; `hmac`, `kdf1`, `kdf2` and `pbkdf2` follow over `SpecMac` by induction on the blocks.
C96–C100 (`PropsEcdh`): the decoder is characterised on all strings (`decodes` in `SpecEcdh`); a round of signing is one of retry, success or division by zero depending on the random stream, and the equations of signing and verification are solved modulo the prime r. C97 and C100 fail by the sum of the generator with a point of order 3, and by a key chosen so that the FIPS integer gives the point at infinity.
C101–C108 (`PropsAes`): each table entry is computed from the field GF(2^8) by evaluation over the 256 bytes, so a round of the code is a round of FIPS 197 on words, and the decryption key is the encryption key under InvMixColumns. The schedule is FIPS 197 without the SubWord at words 4 modulo 8. Modes and padding follow by induction on the blocks, for an arbitrary cipher with an inverse.
C109–C112 (`PropsEcies`): composition of C92, C93, C96 and C106–C107.
C113–C117 (`PropsGcm`): the 128 precomputed rows are the multiples of H by x^i, so the masked sum is the product of SP 800-38D. GHASH over pieces is GHASH over their concatenation by induction on the pieces.
C118–C122 (`PropsSha3`): each step of a round is compared on 25 symbolic lanes; the invariant of `process` is that the state is the absorbed blocks with the rest of the message added.
C123 (`PropsAte2`): one pass of the double loop is one pass of each loop, with the two lines multiplied in.
C124–C132 (`PropsMpin`): every function is a combination of points of the group of order r (C75, C80, C86). The server's test is that the product of two pairings is 1, which by C58, C60 and C73 holds iff the cofactor kills V + s (yA + U); on the group of order r that is V = -s (yA + U), so a wrong PIN is one equation modulo r. C129 fails by a point of order 3.

C133–C137 (`PropsMpin2`): the search of `emap` ends because the generator's abscissa is reached, that of `unmap` because 0 is an abscissa; every number in the run that `unmap` finds leads `emap` back to the point. C137 fails since the complete addition of (0, 2) and (0, -2) leaves (0 : -128 : 0).
C138, C139 (`PropsKang`): both walks stay powers of f, times e for the second; the exponents stay below r, so an equation of powers is one of exponents. The sign of the second comparison's answer is wrong (C138_pin, third case); no witness is computed.
C140: the lemmas `fp12_bytes` and `fp12_read` of `KangP`, from the reading and writing of each coordinate.
C79, C82: off that group the endomorphism differs from the multiplication, so the scalar x^2 (or x) goes wrong.
C74: the r-torsion over F_q is cyclic, generated by the ROM generator.

## Trusted base

* Coq 8.16.1 kernel, including `vm_compute`.
* The model is what the citations say. Simplifications are noted in the comment of the definition concerned.
* `Print Assumptions` prints "Closed under the global context" under every property theorem, and for the two lemmas of C140 (run by hand). No axiom of the standard library is used, no axiom is declared.
* `coqchk` lists, for the whole context, the parameters of the module types in `Coq.ssr.ssrunder`; they come with the standard library and no theorem uses them.
* Only the standard library is imported.

## What is modelled and what is not

Modelled: every function the signature crate reaches, and of what it does not reach the multiplications with endomorphisms, hashing to the groups, `invmodp`, `powmod`, `hash384.rs`, `hash512.rs`, `aes.rs`, `gcm.rs`, `sha3.rs`, `ecdh.rs`, `ate2` and `mpin.rs` but for the key agreement.

Not modelled:
* Rust memory semantics, constant-time behaviour, aliasing; mutation is modelled by returning the new value.
* `tiny-keccak` (parameter), the entropy source behind `rand::Rng` (its bytes are a parameter).
* `Debug` formatting and hexadecimal strings.
* Configuration branches that are not compiled for this curve (for example the Edwards and Montgomery curve branches of `ecp.rs`, the 32-bit versions of `mul`, `sqr`, `monty`, the NOT_SPECIAL branches not taken).
* The other parts of the vendored library that the signature crate does not call: `bls383`, `secp256k1`, `nhs.rs`, and in `bls381` `compow`, the XTR functions and of `mpin.rs` `client_key` and `server_key`.

## Mutation log

`seeded/LOG.jsonl` has one entry per wrong edit of a model definition. How to read it:

* Every edited model still type-checks; a mutant dies when a proof file no longer compiles. `theorems_failed` begins with the lemma, as file and name, at which that happened. In all entries this is a lemma of a proof file, never a property theorem itself.
* The property theorems named after it were not seen to fail. They are those of the claim under `claim_broken` whose file depends on the lemma's file, so they are no longer built. The label `claim_broken` was assigned by hand when the edit was chosen, not found by the run.
* A lemma that no longer compiles shows that its proof does not carry over, not that its statement is false for the mutant.
* In ten entries the only evidence is "(no proof within 300 s)": the compiler was stopped, and no proof was rejected. Without the edit all files compile (`EcpC.v` and `KangP.v`, which were timed, in seconds), but this is weaker evidence, and the ten should be counted apart; their `note` says so.
* Four entries survived or are to be counted as survivors. `vm_step` was caught after C36 and C63 were proved. No property covers the value returned in CFB mode (`fell`) or the wiping of keys (`aes_end`; `gcm_finish` died only by the shape of a proof script).
