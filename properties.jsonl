{"id": "C01", "title": "Two's-complement byte codec round trip", "statement": "For every integer x, FromByteArray(ToByteArray(x)) returns x with a nil error.", "quantifier": "every integer x, of either sign and any size", "why_tests_cant": "the input space is infinite; the tests sample a handful of literals", "anchors": ["util/byteconversion/conversion.go: ToByteArray, FromByteArray, FlipBytes"]}
{"id": "C02", "title": "FromByteArray decodes two's complement", "statement": "FromByteArray returns an error exactly on the empty slice; on every other slice b of n bytes it returns the big-endian two's-complement value of b (unsigned value, minus 256^n when the top bit is set).", "quantifier": "every byte slice of every length", "why_tests_cant": "the input space is infinite; the tests sample a handful of literals", "anchors": ["util/byteconversion/conversion.go: FromByteArray"]}
{"id": "C03", "title": "ToByteArray is the minimal encoding", "statement": "The documentation of ToByteArray promises the minimum number of bytes, ceil((bitLength+1)/8). This holds for every integer except x = -2^(8k+7), for which the encoding has one superfluous leading 0xFF byte.", "quantifier": "every integer x", "why_tests_cant": "the failing inputs are a sparse infinite family (-128, -32768, ...) that sampling misses", "anchors": ["util/byteconversion/conversion.go: ToByteArray"]}
{"id": "C04", "title": "ConvertToBigInt / ParseInput decode exactly the signed decimal lists", "statement": "ConvertToBigInt rejects a byte string iff it contains a character other than a digit or a leading minus sign; otherwise it returns the decimal value (and 0 for the empty string and for a lone '-'). ParseInput splits at commas, fails iff one of the fields is rejected, and reads back every non-empty list of integers printed in decimal and joined with commas.", "quantifier": "every byte slice; every non-empty list of integers", "why_tests_cant": "the input space is infinite; the tests sample a handful of literals", "anchors": ["util/byteconversion/parse.go: ParseInput, ConvertToBigInt"]}
{"id": "C05", "title": "Decompose returns base-u digits", "statement": "For u>=2 (and u=1) Decompose(x,u,l) returns exactly l digits in [0,u) whose value is x mod u^l; the value is x itself iff 0<=x<u^l.", "quantifier": "every integer x, every positive int64 base u, every length l>=0", "why_tests_cant": "the input space is infinite; the tests sample a handful of literals", "anchors": ["util/util.go: Decompose"]}
{"id": "C06", "title": "ModPow is modular exponentiation for either sign of the exponent", "statement": "For a prime (or any positive) modulus m and e>=0 ModPow(b,e,m) = b^e mod m in [0,m); for e<0 and b invertible mod m the result r satisfies r*b^|e| = 1 mod m and 0<=r<m (m>1); for e<0 and b not invertible there is no result (nil).", "quantifier": "every base, exponent and positive modulus", "why_tests_cant": "the input space is infinite; the tests sample a handful of literals", "anchors": ["util/bn/bn.go: ModPow, ModInverse, Mod"]}
{"id": "C07", "title": "CalculateHash transcript encoding", "statement": "The byte string hashed by CalculateHash(b1,nil) determines b1, but the byte string hashed by CalculateHash(b1,b2) does not determine the pair: different pairs of integers give the same hash for every hash function.", "quantifier": "every integer b1; a pair of distinct inputs for every hash function", "why_tests_cant": "collision freedom of the encoding is a statement about all pairs", "anchors": ["util/bn/bn.go: CalculateHash"]}
{"id": "C08", "title": "secp256k1 parameters are sound", "statement": "The modulus P and the group order N are prime, the base point lies on y^2=x^3+7, and the curve is non-singular.", "quantifier": "the fixed parameters; primality ranges over all potential divisors", "why_tests_cant": "primality of 256-bit numbers cannot be tested by trial", "anchors": ["crypto/p256/mycurve.go: init"]}
{"id": "C09", "title": "MapToGroup returns valid points", "statement": "Whenever MapToGroup(m) succeeds, the returned point has coordinates reduced mod P, lies on the curve and is not the point at infinity; it depends only on m; it fails only if all 256 candidate abscissas give a non-residue.", "quantifier": "every string m and every hash function", "why_tests_cant": "the candidates come from a hash of arbitrary strings", "anchors": ["crypto/p256/p256.go: MapToGroup, F, HashToInt, IsOnCurve"]}
{"id": "C10", "title": "CURVE.Add is elliptic-curve addition on distinct points", "statement": "For every two distinct points of the curve (different from infinity) the Jacobian add-and-normalise computation of CURVE.Add returns the group sum, with (0,0) standing for infinity when the points are opposite; for two equal points it returns (0,0), which is not the double.", "quantifier": "every pair of curve points", "why_tests_cant": "2^512 pairs; the formula has exceptional cases", "anchors": ["crypto/p256/mycurve.go: Add, addJacobian, affineFromJacobian"]}
{"id": "C11", "title": "Multiply makes the points an abelian group", "statement": "On valid points (either form of infinity allowed) Multiply returns a valid point, is commutative, associative, has infinity as identity, and every point has an inverse.", "quantifier": "every two or three curve points", "why_tests_cant": "associativity of the exceptional-case formulas over 2^768 triples", "anchors": ["crypto/p256/p256.go: Multiply, Double, IsZero, SetInfinity"]}
{"id": "C12", "title": "Add returns the group sum except in two cases", "statement": "p.Add(a,b) equals the group sum of a and b iff a is infinity, or b is not infinity and a and b are different points. Add(a,infinity) returns infinity instead of a, Add(a,a) returns infinity instead of 2a.", "quantifier": "every pair of curve points", "why_tests_cant": "exceptional cases are outside the sampled points", "anchors": ["crypto/p256/p256.go: Add"]}
{"id": "C13", "title": "secp256k1 has prime order N", "statement": "N*Q is infinity for every curve point Q, and every curve point other than infinity generates the whole group; the number of points is N.", "quantifier": "every curve point", "why_tests_cant": "2^256 points", "anchors": ["crypto/p256/mycurve.go: init (N)", "crypto/p256/p256.go: ScalarMult"]}
{"id": "C14", "title": "ScalarMult is a group action of the integers", "statement": "ScalarMult(Q,n) is the n-fold group multiple of Q for every integer n (negative, zero, larger than N), so exponents add, multiply and may be reduced mod N.", "quantifier": "every curve point and every integer scalar", "why_tests_cant": "the input space is infinite; the tests sample a handful of literals", "anchors": ["crypto/p256/p256.go: ScalarMult, ScalarBaseMult"]}
{"id": "C15", "title": "Neg negates only in place", "statement": "p.Neg(a) returns the inverse of a when p and a are the same object; in general it returns the inverse of the old value of p, so p.Neg(a) is wrong iff a is not infinity and p differs from a.", "quantifier": "every pair of receiver and argument", "why_tests_cant": "aliasing between receiver and argument", "anchors": ["crypto/p256/p256.go: Neg"]}
{"id": "C16", "title": "Pedersen commitment over secp256k1", "statement": "CommitG1(x,r,h) = g^x h^r whenever h^r is not infinity and g^x differs from h^r; in the two excluded cases it returns infinity whatever x is.", "quantifier": "every pair of integers x,r and every curve point h", "why_tests_cant": "exceptional inputs are a null set for random tests", "anchors": ["util/util.go: CommitG1"]}
{"id": "C17", "title": "Commitments are hiding, binding up to discrete log, and homomorphic", "statement": "For h a generator: every commitment value can be opened to every x (perfect hiding); two openings with different x mod N reveal the discrete logarithm of h, by an explicit formula; the product of commitments commits to the sums. Because of the previous defect r=0 mod N makes every x commit to infinity.", "quantifier": "all messages, randomness and generators", "why_tests_cant": "statements about all openings", "anchors": ["util/util.go: CommitG1"]}
{"id": "C18", "title": "Vector helpers compute componentwise mod-ORDER arithmetic", "statement": "VectorAdd, VectorSub, VectorMul, VectorScalarMul, VectorCopy, VectorConvertToBig, powerOf, ScalarProduct, VectorExp, VectorECAdd return the componentwise result, reduced to [0,ORDER) where they reduce; the two-vector ones fail exactly when lengths differ.", "quantifier": "all vectors of all lengths", "why_tests_cant": "the input space is infinite; the tests sample a handful of literals", "anchors": ["bulletproofs/vector.go", "bulletproofs/util.go: powerOf, ScalarProduct, VectorExp"]}
{"id": "C19", "title": "IsPowerOfTwo", "statement": "IsPowerOfTwo(x) holds for an int64 x iff x = 2^k for some 0<=k<=62, or x is the minimum int64.", "quantifier": "every int64", "why_tests_cant": "2^64 inputs, one of which is wrong", "anchors": ["bulletproofs/util.go: IsPowerOfTwo"]}
{"id": "C20", "title": "Setup accepts exactly six range ends", "statement": "Setup(b) returns parameters iff b is one of 2,4,16,256,65536,2^32; for every other int64 except the minimum one it returns an error, and for the minimum one it panics (amd64). On success N=log2(b), and all generators are valid curve points.", "quantifier": "every int64 b and every hash function for which hash-to-point succeeds", "why_tests_cant": "2^64 inputs", "anchors": ["bulletproofs/bp.go: Setup"]}
{"id": "C21", "title": "Fiat-Shamir challenges y and z are always equal", "statement": "For every hash function and every A,S the two challenges returned by HashBP are equal (the protocol needs two independent challenges).", "quantifier": "every pair of points, every hash function", "why_tests_cant": "a test cannot quantify over transcripts", "anchors": ["bulletproofs/util.go: HashBP"]}
{"id": "C22", "title": "HashBP transcript is ambiguous, hashIP transcript is not", "statement": "Two different pairs of points can have the same HashBP hash input (coordinates are concatenated without separator); the hashIP input for a fixed length n determines P, g, h and c.", "quantifier": "all pairs of transcripts", "why_tests_cant": "collision freedom ranges over all pairs", "anchors": ["bulletproofs/util.go: HashBP", "bulletproofs/bip.go: hashIP", "crypto/p256/p256.go: String"]}
{"id": "C23", "title": "Inner product argument is complete", "statement": "For every power of two n and all vectors a,b of length n, the proof made by proveInnerProduct for the commitment g^a h^b and c=<a,b> is accepted by Verify (all challenges invertible).", "quantifier": "every n=2^k, all vectors, generators and hash functions with invertible challenges", "why_tests_cant": "unbounded recursion depth, all witnesses", "anchors": ["bulletproofs/bip.go: proveInnerProduct, computeBipRecursive, Verify, commitInnerProduct"]}
{"id": "C24", "title": "Inner product argument rejects a wrong inner product", "statement": "Run with a claimed c and a commitment g^a h^b, the honest prover's proof is accepted iff c = <a,b> mod ORDER (first challenge non-zero mod ORDER and U a generator).", "quantifier": "every n=2^k, all vectors and every claimed c", "why_tests_cant": "all witnesses and claims", "anchors": ["bulletproofs/bip.go: proveInnerProduct, Verify"]}
{"id": "C25", "title": "Inner product Verify is not repeatable", "statement": "InnerProductProof.Verify overwrites the commitment stored in the proof: after an accepting call the stored point is infinity, and a second call of Verify on the same object returns true only if the commitment part cancels, so an accepted proof is in general rejected when verified again.", "quantifier": "every proof object", "why_tests_cant": "mutation through a shared pointer, visible only in histories of two calls", "anchors": ["bulletproofs/bip.go: Verify"]}
{"id": "C26", "title": "Range proof completeness", "statement": "For every secret in [0,2^N) and all prover randomness outside an explicit degenerate set, Verify returns true on the output of Prove.", "quantifier": "all secrets in range, all randomness, all hash functions", "why_tests_cant": "2^32 secrets times all randomness", "anchors": ["bulletproofs/bp.go: Prove, Verify, delta, updateGenerators, computeAR"]}
{"id": "C27", "title": "An honest prover cannot prove an out-of-range secret", "statement": "For every integer secret, the output of Prove is accepted iff the secret is congruent mod ORDER to its N-bit truncation; in particular for |secret| < ORDER - 2^N it is accepted iff 0 <= secret < 2^N.", "quantifier": "all integer secrets, all non-degenerate randomness", "why_tests_cant": "all integers", "anchors": ["bulletproofs/bp.go: Prove, Verify", "util/util.go: Decompose"]}
{"id": "C28", "title": "Verify is not sound: the inner product statement is not bound to the proof", "statement": "For every integer v, in particular every v outside the range, there is a proof object, computable without any secret of the verifier, whose V is a commitment to v and which Verify accepts.", "quantifier": "every integer v, every hash function", "why_tests_cant": "soundness is a statement about all adversarial proofs", "anchors": ["bulletproofs/bp.go: Verify", "bulletproofs/bip.go: Verify"]}
{"id": "C29", "title": "Generic range proof", "statement": "ProveGeneric followed by Verify accepts a secret x iff A <= x < B, for every A,B with 0 < B-A <= 2^32 (x within the mod-ORDER window). SetupGeneric accepts A>=B, for which no secret is accepted.", "quantifier": "all int64 A,B and all secrets", "why_tests_cant": "all intervals and secrets", "anchors": ["bulletproofs/bprp.go: SetupGeneric, ProveGeneric, Verify"]}
{"id": "C30", "title": "Generic range proof does not bind its two halves", "statement": "Verify accepts a ProofBPRP whose two halves commit to unrelated secrets, and never looks at A and B.", "quantifier": "all pairs of individually accepted proofs", "why_tests_cant": "statement about adversarial proof objects", "anchors": ["bulletproofs/bprp.go: Verify"]}
{"id": "C31", "title": "Boneh-Boyen signatures verify", "statement": "For every message m and key k with m+k != 0 mod Order, verify(Sign(m,k),m,g1^k) is true, and no other group element verifies; Sign panics iff m+k = 0 mod Order.", "quantifier": "all messages and keys, over every bilinear group of prime order", "why_tests_cant": "the input space is infinite; the tests sample a handful of literals", "anchors": ["crypto/bbsignatures/bb.go: Sign, verify"]}
{"id": "C32", "title": "Keygen reports failure exactly on success", "statement": "Keygen returns a non-nil error together with a correct key pair for every successful draw of the private key.", "quantifier": "all random draws", "why_tests_cant": "the callers ignore the error, so no test observes it", "anchors": ["crypto/bbsignatures/bb.go: Keygen"]}
{"id": "C33", "title": "Set membership completeness", "statement": "ProveSet(x,r,SetupSet(s)) fails iff x is not in s; otherwise VerifySet accepts the proof, for all random values outside an explicit degenerate set, provided x and r are scalars the group package multiplies by correctly (over bn256: not negative, see C46).", "quantifier": "all sets, elements and randomness", "why_tests_cant": "all sets and randomness", "anchors": ["ccs08/ccs08.go: SetupSet, ProveSet, VerifySet"]}
{"id": "C34", "title": "CCS08 range completeness and exact acceptance", "statement": "ProveUL never fails (u>0), and VerifyUL accepts its output iff x is congruent mod Order to its l-digit base-u truncation (challenge non-zero), i.e. for x in the window iff 0 <= x < u^l.", "quantifier": "all integers x, all u,l and all randomness", "why_tests_cant": "all secrets and randomness", "anchors": ["ccs08/ccs08.go: ProveUL, VerifyUL, SetupUL"]}
{"id": "C35", "title": "CCS08 verifiers do not recompute the challenge", "statement": "For every commitment C, whatever it commits to, there is a proof accepted by VerifySet and one accepted by VerifyUL, computable from public values only.", "quantifier": "every commitment, every parameter set", "why_tests_cant": "soundness ranges over adversarial proofs", "anchors": ["ccs08/ccs08.go: VerifySet, VerifyUL"]}
{"id": "C36", "title": "CCS08 proof objects reveal the secret", "statement": "The secret x (and the commitment randomness) is a fixed function of the fields of the proof object returned by ProveSet/ProveUL whenever the challenge is non-zero.", "quantifier": "all secrets and randomness", "why_tests_cant": "information leakage is a statement about all executions", "anchors": ["ccs08/ccs08.go: proofSet, proofUL, ProveSet, ProveUL"]}
{"id": "C37", "title": "CCS08 interval setup", "statement": "Setup(a,b) fails iff a>b or b=1; otherwise u=57 and l is the number of base-57 digits of b (0 for b<=0), so b < u^l.", "quantifier": "all int64 a,b", "why_tests_cant": "2^128 inputs", "anchors": ["ccs08/ccs08.go: Setup"]}
{"id": "C38", "title": "CCS08 interval proof", "statement": "After Setup(a,b) with 0<=a<=b, Prove and Verify accept x iff a <= x < b; for a<0 with b-a > u^l there are x in [a,b) which are rejected. (Outside explicit degenerate values; the scalars x-a and x-b+u^l must be ones the group package multiplies by correctly.)", "quantifier": "all intervals and secrets", "why_tests_cant": "all secrets", "anchors": ["ccs08/ccs08.go: Prove, Verify"]}
{"id": "C39", "title": "BN256 parameters are sound", "statement": "P and Order are prime, P=36u^4+36u^3+24u^2+6u+1, Order=36u^4+36u^3+18u^2+6u+1, the generators lie on their curves and have order Order, and the Frobenius constants are the stated powers of xi.", "quantifier": "fixed parameters; primality ranges over all divisors", "why_tests_cant": "primality and orders of 256-bit objects", "anchors": ["crypto/bn256/constants.go", "crypto/bn256/curve.go: curveGen", "crypto/bn256/twist.go: twistGen, twistB"]}
{"id": "C40", "title": "GF(p^2) arithmetic", "statement": "Add, Sub, Mul, Square, MulXi, MulScalar, Negative, Conjugate, Double, Exp compute in the field F_p[i]/(i^2+1), Invert inverts every non-zero element, on unreduced representatives as well, whatever the aliasing of operands.", "quantifier": "all field elements, all representatives, all aliasing patterns", "why_tests_cant": "p^4 pairs", "anchors": ["crypto/bn256/gfp2.go"]}
{"id": "C41", "title": "GF(p^6) and GF(p^12) arithmetic", "statement": "The Karatsuba multiplication, squaring and inversion of gfP6 and gfP12 compute in the tower F_{p^2}[tau]/(tau^3-xi) and F_{p^6}[omega]/(omega^2-tau), which are fields; Exp is exponentiation.", "quantifier": "all field elements", "why_tests_cant": "p^24 pairs", "anchors": ["crypto/bn256/gfp6.go", "crypto/bn256/gfp12.go"]}
{"id": "C42", "title": "Frobenius maps", "statement": "gfP12.Frobenius is x -> x^p and FrobeniusP2 is x -> x^(p^2).", "quantifier": "all elements of GF(p^12)", "why_tests_cant": "p^12 elements", "anchors": ["crypto/bn256/gfp6.go: Frobenius, FrobeniusP2", "crypto/bn256/gfp12.go: Frobenius, FrobeniusP2"]}
{"id": "C43", "title": "Final exponentiation lands in the order-r subgroup", "statement": "finalExponentiation(f) is f^((p^12-1)/Order) (up to a fixed exponent prime to Order), so for f != 0 its Order-th power is 1 and it is multiplicative; Pair always returns an element of order dividing Order.", "quantifier": "all non-zero elements of GF(p^12)", "why_tests_cant": "p^12 elements", "anchors": ["crypto/bn256/optate.go: finalExponentiation, optimalAte", "crypto/bn256/bn256.go: Pair"]}
{"id": "C44", "title": "G1 operations are the group law", "statement": "When the receiver does not alias an operand, G1.Add returns the sum for all operands (equal, opposite, infinity), Neg the inverse, ScalarMult and ScalarBaseMult the multiple by every integer; results are on the curve and Order kills every point.", "quantifier": "all points in all Jacobian representations, all scalars", "why_tests_cant": "all representations", "anchors": ["crypto/bn256/curve.go", "crypto/bn256/bn256.go: G1"]}
{"id": "C45", "title": "G1/G2 in-place doubling is wrong", "statement": "e.Add(e,f) with f equal to e does not return 2e: the receiver aliasing the operand makes Double read its own partial output.", "quantifier": "history: in-place addition of equal points", "why_tests_cant": "aliasing", "anchors": ["crypto/bn256/curve.go: Add, Double", "crypto/bn256/twist.go: Add, Double"]}
{"id": "C46", "title": "G2 operations are the group law on the twist", "statement": "Same as for G1, over GF(p^2), for scalars that are not negative. ScalarMult and ScalarBaseMult by a negative scalar, and e.Neg(e), lose the ordinate: the result (x,0) is not on the twist and is not the multiple (the package's own test adds k g and -k g, which still gives infinity).", "quantifier": "all twist points in all Jacobian representations, all scalars", "why_tests_cant": "all representations", "anchors": ["crypto/bn256/twist.go", "crypto/bn256/bn256.go: G2"]}
{"id": "C47", "title": "G1 encoding", "statement": "Unmarshal(Marshal(P)) succeeds and returns the same group element; Marshal of two representations of the same element is the same 64 bytes and different elements have different bytes; Unmarshal accepts exactly the 64-byte strings whose coordinates satisfy the curve equation mod P or are one of the two encodings of infinity (so it accepts unreduced coordinates).", "quantifier": "all points, representations and byte strings", "why_tests_cant": "the input space is infinite; the tests sample a handful of literals", "anchors": ["crypto/bn256/bn256.go: G1.Marshal, G1.Unmarshal"]}
{"id": "C48", "title": "G2 encoding", "statement": "As for G1 with 128 bytes, but Marshal of infinity mutates its receiver into a point that is no longer infinity, and Unmarshal does not check membership of the order-r subgroup.", "quantifier": "all points, representations and byte strings", "why_tests_cant": "the input space is infinite; the tests sample a handful of literals", "anchors": ["crypto/bn256/bn256.go: G2.Marshal, G2.Unmarshal", "crypto/bn256/twist.go: MakeAffine"]}
{"id": "C49", "title": "GT encoding and exponentiation", "statement": "Unmarshal(Marshal(x)) is x; Unmarshal accepts every 384-byte string; ScalarMult(a,k) is a^k for k>=0, and for k<0 it is a^(2^bitlen(|k|)+k), not the inverse power, except when a has suitable order; Exp overwrites its argument.", "quantifier": "all elements and exponents", "why_tests_cant": "the input space is infinite; the tests sample a handful of literals", "anchors": ["crypto/bn256/bn256.go: GT"]}
{"id": "C50", "title": "Pairing degenerate cases", "statement": "Pair returns 1 whenever one of the arguments is infinity; PairingCheck(a,b) is true iff the product of the individual pairings is 1.", "quantifier": "all lists of points", "why_tests_cant": "the input space is infinite; the tests sample a handful of literals", "anchors": ["crypto/bn256/bn256.go: Pair, PairingCheck", "crypto/bn256/optate.go: optimalAte"]}
{"id": "C51", "title": "Miller loop scalar", "statement": "The signed digits sixuPlus2NAF sum to 6u+2, and the running point of the Miller loop is the corresponding multiple of Q at every iteration.", "quantifier": "all points Q of the twist", "why_tests_cant": "all points", "anchors": ["crypto/bn256/optate.go: sixuPlus2NAF, miller, lineFunctionDouble, lineFunctionAdd"]}
{"id": "C52", "title": "Pairing with a negated G2 point is wrong", "statement": "Negating a G2 point leaves the cached t field at zero, and for affine points Pair then uses it: Pair(P,-Q) is not the inverse of Pair(P,Q).", "quantifier": "a concrete pair refutes the law", "why_tests_cant": "needs the history Neg then Pair on an affine point", "anchors": ["crypto/bn256/twist.go: Negative, MakeAffine", "crypto/bn256/optate.go: miller"]}
{"id": "C53", "title": "Scratch pool reuse is harmless", "statement": "Results of the bn256 field operations do not depend on the stale values of the integers handed out by the pool, and no live value is ever handed out again.", "quantifier": "all pool contents", "why_tests_cant": "dirty state from earlier operations", "anchors": ["crypto/bn256/bn256.go: bnPool", "crypto/bn256/gfp2.go"]}
{"id": "C54", "title": "CCS08 commitments are not binding", "statement": "The base H of the ccs08 commitments is g2 raised to a constant written in the source, so every commitment Commit(x,r,H) has an opening to every other value x', computable by anybody (scalars not negative).", "quantifier": "all values x, x' and all blinding factors", "why_tests_cant": "binding is a statement about all pairs of openings", "anchors": ["ccs08/ccs08.go: SetupSet, SetupUL, Commit"]}
{"id": "C55", "title": "CCS08 parameters contain the signing key", "statement": "The parameters returned by SetupSet contain the issuer's private key; with it the holder of the parameters produces, for every x inside or outside the set, a proof that VerifySet accepts, with an honestly computed challenge.", "quantifier": "all sets, all x, all randomness", "why_tests_cant": "soundness ranges over adversarial provers", "anchors": ["ccs08/ccs08.go: paramsSet, SetupSet, ProveSet, VerifySet"]}
{"id": "C56", "title": "Special soundness of set membership", "statement": "From any two accepted proofs with the same first message (C, V, D, a) and different challenges one computes an opening (x,r) of the commitment and v with V^(x+k) = g2^v.", "quantifier": "all accepted pairs of proofs", "why_tests_cant": "ranges over adversarial proof objects", "anchors": ["ccs08/ccs08.go: VerifySet"]}
{"id": "C57", "title": "VerifySet accepts the identity as blinded signature", "statement": "With V = identity and v = 0 a proof of membership of any x is accepted although no signature is known, even with the challenge computed as prescribed.", "quantifier": "all sets, all x, all randomness", "why_tests_cant": "ranges over adversarial proof objects", "anchors": ["ccs08/ccs08.go: ProveSet, VerifySet"]}
{"id": "C58", "title": "Set membership transcripts can be simulated", "statement": "For every challenge, every responses and every V, the transcript computed without the secret equals the honest prover's transcript (encodings of all elements the verifier reads) for an explicit choice of its randomness.", "quantifier": "all secrets, challenges and responses", "why_tests_cant": "equality of distributions over all randomness", "anchors": ["ccs08/ccs08.go: ProveSet, VerifySet"]}
{"id": "C59", "title": "Pair is the optimal ate pairing", "statement": "For P != O in G1 and Q != O in the order-r subgroup of G2, whatever their Jacobian representation (t not stale), Pair(P,Q) succeeds and is the textbook optimal ate pairing f_{6u+2,Q}(P) l_{[6u+2]Q,pi Q}(P) l_{[6u+2]Q+pi Q,-pi^2 Q}(P) raised to (p^12-1)/r; it does not depend on the representation.", "quantifier": "all points of G1 and G2 and all their representations", "why_tests_cant": "r^2 pairs of points and all representations", "anchors": ["crypto/bn256/optate.go: miller, lineFunctionAdd, lineFunctionDouble, mulLine, optimalAte", "crypto/bn256/bn256.go: Pair"]}
{"id": "C60", "title": "Pair is bilinear", "statement": "For all P, P' in G1 and Q, Q' in the order-r subgroup of G2, whatever their representation (t not stale): Pair(P+P',Q) = Pair(P,Q)Pair(P',Q), Pair(P,Q+Q') = Pair(P,Q)Pair(P,Q'), and Pair(aP,bQ) = Pair(P,Q)^(ab) for all integers a and b >= 0.", "quantifier": "all points of G1 and G2, all their representations, all scalars", "why_tests_cant": "r^2 pairs of points", "anchors": ["crypto/bn256/bn256.go: Pair", "crypto/bn256/optate.go: miller, finalExponentiation"]}
{"id": "C61", "title": "Pair is not degenerate", "statement": "For P in G1 and Q in the order-r subgroup of G2, whatever their representation (t not stale), Pair(P,Q) is 1 exactly if P or Q is infinity; Pair(xG1,yG2) and Pair(x'G1,y'G2) have the same encoding exactly if xy = x'y' mod Order; PairingCheck([x_i G1],[y_i G2]) is true exactly if the sum of the x_i y_i is 0 mod Order.", "quantifier": "all points, representations and lists of points", "why_tests_cant": "an equivalence over r^2 pairs of points and lists of any length", "anchors": ["crypto/bn256/bn256.go: Pair, PairingCheck", "crypto/bn256/optate.go: miller, finalExponentiation"]}
{"id": "C62", "title": "Signatures and ccs08 proofs over bn256", "statement": "With the bn256 package as it is (no assumption on the group), a Boneh-Boyen signature verifies on its message and on no other; ProveSet fails outside the set and inside it makes a proof that VerifySet accepts; Prove and Verify accept exactly the x with a <= x < b; outside an explicit degenerate set of random values, and for values whose exponents are not negative. Soundness fails: for every set and value there is an accepted proof for a commitment to the value. Completeness fails for negative values: an honest proof for a negative element of the set is rejected.", "quantifier": "all keys, messages, sets, intervals, secrets and random values", "why_tests_cant": "all keys and values; the correctness of the pairing", "anchors": ["crypto/bbsignatures/bb.go", "ccs08/ccs08.go", "crypto/bn256"]}
{"id": "C63", "title": "Tower arithmetic in place", "statement": "Every operation of gfp6.go and gfp12.go leaves in its receiver the field operation applied to the contents the operands had before the call, whether or not receiver and operands are the same object, and changes no other object; Conjugate of gfp12.go returns its argument, IsZero and IsOne reduce the receiver's coordinates, MulScalar multiplies the receiver.", "quantifier": "all stores, objects, pool contents and aliasing patterns", "why_tests_cant": "all contents of 12 cells and of the pool, all aliasing patterns", "anchors": ["crypto/bn256/gfp6.go", "crypto/bn256/gfp12.go"]}
{"id": "C64", "title": "Point operations in place", "statement": "Set, Negative, Double, Add, MakeAffine of curve.go and twist.go leave in the receiver exactly what the functional model says for that aliasing (apart, or receiver the first operand), change nothing else, and panic exactly where the model does.", "quantifier": "all stores, points (also off the curve), pool contents", "why_tests_cant": "all contents and pools", "anchors": ["crypto/bn256/curve.go", "crypto/bn256/twist.go"]}
{"id": "C65", "title": "Exported bn256 methods and memory", "statement": "The exported methods of G1, G2, GT, Pair and PairingCheck return the receiver's object, or a new one which shares no cell with any live object; they leave arguments and package variables (generators, constants) unchanged, except Marshal, which rewrites its receiver; contents of results are those of the functional model; they panic exactly where the functional model does.", "quantifier": "all stores, arguments and receivers (also nil)", "why_tests_cant": "absence of writes to any other cell, for all contents", "anchors": ["crypto/bn256/bn256.go", "crypto/bn256/optate.go"]}
{"id": "C66", "title": "Balance of the scratch pool", "statement": "Every field operation, Double, MakeAffine and Negative returns to the pool as many integers as it takes. Add does not: it keeps 10 (curve) or 20 (twist) when it has to double, Mul a multiple of these; miller and optimalAte keep 28, of which 12 are the result.", "quantifier": "all stores and arguments", "why_tests_cant": "all execution paths", "anchors": ["crypto/bn256/bn256.go: bnPool", "crypto/bn256/curve.go: Add", "crypto/bn256/twist.go: Add", "crypto/bn256/optate.go: miller"]}
{"id": "C67", "title": "Knowledge soundness of the inner product argument", "statement": "From any tree of runs accepted by InnerProductProof.Verify, with four challenges per round whose squares differ, an explicit extractor computes vectors a and b with P = g^a h^b u^<a,b>, or a non-trivial relation between the generators g, h and u.", "quantifier": "all lengths 2^k, generators, commitments and accepted trees", "why_tests_cant": "a dishonest prover is any prover; the extractor has to work for all trees", "anchors": ["bulletproofs/bip.go: Verify", "bulletproofs/bip.go: vectorScalarExp"]}
{"id": "C68", "title": "Random numbers and points are sampled without bias from the reader", "statement": "crypto/rand.Int(r, max) returns the first block of ceil(n/8) bytes of r whose n low bits are below max (n = ceil(log2 max)), each number being the candidate of equally many blocks; RandomG1 and RandomG2 return the first such x with 0 < x < Order and x times the generator, never the point at infinity, read no further, and fail exactly if the reader holds no such block.", "quantifier": "all byte streams, all max", "why_tests_cant": "tests see one stream; bias and the rejection rule concern all 2^256 blocks", "anchors": ["crypto/bn256/bn256.go: RandomG1", "crypto/bn256/bn256.go: RandomG2"]}
{"id": "C69", "title": "The provers' random tapes are exactly what rand.Int draws", "statement": "Drawing the random values of Bulletproofs Prove, ProveSet and ProveUL from a byte reader with rand.Int, in the order of the code, gives a tape of the right lengths with all values reduced modulo the group order; conversely every such tape is drawn from some reader; the values are the acceptable numbers of the reader in their order, none left out or used twice, and drawing fails exactly if there are too few. Hence the range proof is complete from the reader to the verifier.", "quantifier": "all byte streams, all tapes, all vector lengths", "why_tests_cant": "tests draw a few tapes from the system's reader; the theorems about tapes need all of them and no others", "anchors": ["bulletproofs/bp.go: sampleRandomVector", "bulletproofs/bp.go: Prove", "ccs08/ccs08.go: ProveSet", "ccs08/ccs08.go: ProveUL"]}
{"id": "C70", "title": "The accessors CurvePoints, Real and Imag", "statement": "Real and Imag of gfP2 return the real and the imaginary part; CurvePoints of G1 and G2 return the coordinates of the point. Exactly: Real returns the coefficient of i and Imag the constant part (exchanged, refuted for 1), and CurvePoints returns Jacobian coordinates x = X z^2, y = Y z^3 with z = 0 exactly at infinity (not the affine ones, refuted for 2 g).", "quantifier": "all field elements and valid points", "why_tests_cant": "no test calls them; for real-valued or affine arguments a test could pass by accident", "anchors": ["crypto/bn256/gfp2.go: Real", "crypto/bn256/gfp2.go: Imag", "crypto/bn256/bn256.go: CurvePoints"]}
