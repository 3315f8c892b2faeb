# Formal model of ing-bank/zkrp in Rocq (Coq 8.16.1)

`properties.jsonl` lists the properties (C01, C02, …). `MANIFEST.json` maps each one to the
theorems that settle it. This file says how the code is modelled, what is proved, and what has
to be trusted.

## 1. Modelling conventions

* `*big.Int` is `Z` (unbounded). `nil` is an explicit case (`option`) wherever the code can
  produce or test it. `int64` is `Z`; where wrap-around or range matters (IsPowerOfTwo, Setup)
  the hypothesis `-2^63 <= x < 2^63` or an explicit wrap function is used.
* `[]byte` is `list Z` with every element in `[0,256)` (predicate `bytes_ok`); strings are the
  list of their bytes.
* Error returns are values: `Ok v`, `Err`, `Panic` (type `res`). Loops are structural
  recursion on the loop counter or on the list.
* `math/big` operations are modelled in `Base.v`: `Bytes`, `SetBytes`, `String` (base 10),
  `SetString`, `Mod`/`Div` (Euclidean), `ModInverse`, `Exp`, `BitLen`, `Bit`
  (two's complement), `ModSqrt`. They are definitions, not axioms.
* SHA-256 is an arbitrary function `sha : list Z -> list Z` returning 32 bytes. Theorems
  quantify over it. No collision resistance is assumed anywhere; non-degeneracy of the
  challenges is an explicit hypothesis of the theorems that need it.
* `crypto/rand` draws are explicit arguments (the "tape") of the modelled prover functions;
  theorems quantify over all tapes.
  `rand.Int` itself is modelled over a byte stream in `Rand.v` (from the Go library's algorithm, which
  is not in `/repo`): it yields every number below the order, and only those, without bias (C68).
  `RandTape.v` draws the tapes with it; these are exactly the reduced ones (C69).
* `secp256k1.BitCurve.ScalarMult/ScalarBaseMult/Double` of go-ethereum are external code
  (ScalarMult is C). They are modelled by their contract: the group multiple in affine
  coordinates, with nil for infinity (Double: (0,0)). `MyBitCurve.Add`, which is in this
  repository, is modelled line by line.
* The bn256 field tower and the curve and twist formulas are modelled line by line on `Z`
  (with the same `Mod` calls and the same missing reductions as the code).
* A bn256 value (`curvePoint`, `twistPoint`, `gfP12`, …) is a record of integers: the *content*
  of an object, with whatever representative the code leaves in it (unreduced coordinates, stale
  `t`, several Jacobian triples for one point). Functions that write through their receiver are
  functions of the contents; where the result depends on the receiver being an operand there are
  two models (`cp_Add` for a distinct receiver, `cp_AddTo` for `e.Add(e, b)`), and calls that
  modify an argument return its new content as well (`Marshal`, `GT.Exp`).
* `bbsignatures` and `ccs08` are modelled over a record `bops` of the bn256 operations they call.
  The theorems C31–C38 and C54–C58 hold for every such record that satisfies the contract
  `bilinear` (`SpecCCS.v`); C62 proves that the model of bn256 itself satisfies it (`bn_ops`,
  `bn_bilinear`), so that the end-to-end theorems assume nothing about the group.

## 2. Mathematics proved on the way

* the group law of `y^2 = x^3 + b` over an arbitrary field of characteristic not 2, 3
  (associativity through ideal classes of the coordinate ring, on MathComp);
* Pocklington certificates for the four primes;
* the group orders of secp256k1 and of BN256 G1 (`#E <= 2p+1`, `r | #E`, no 2-torsion), hence both
  groups are cyclic of prime order;
* the tower `F_p < F_{p^2} < F_{p^6} < F_{p^12}` of bn256 as MathComp fields, built by a generic
  quadratic/cubic extension (`FieldExt.v`) from the fact that `-1`, `xi` are non-residues; the maps
  `v2`, `v6`, `v12` from the code's records onto them; Frobenius as `x^p`;
* the order of the generator of G2 (certificate `CertBN2.v`), and `psi(Q) = [p]Q` on its subgroup for the
  untwist–Frobenius–twist endomorphism `psi`;
* Miller's algorithm of the code computes the textbook function `f_{6u+2,Q}` times the two
  Frobenius lines (`SpecPair.v`: `optimal_ate`, defined from lines through points of E(F_{p^12})
  only), up to factors in subfields which the final exponentiation kills;
* bilinearity of the optimal ate pairing without divisor theory (`Cocycle.v`, `CocycleExt.v`,
  `AteBilin.v`): the lines form a 2-cocycle, reciprocity for lines gives multiplicativity in both
  arguments up to killed factors, and `psi(Q) = [p]Q` makes the exponents of the correction terms
  divisible by the group order;
* non-degeneracy by computing one pairing inside the kernel (`Limb.v`, `FastFp.v`, `FastTower.v`,
  `NonDegen.v`): Montgomery arithmetic on lists of 63-bit machine integers, proved equal to the
  arithmetic of the model for all inputs, then evaluated on the generators. With bilinearity this
  gives the exact value of every pairing as a power of `e(g1,g2)`.

## 3. Properties and plan

| id | model | method |
|----|-------|--------|
| C01–C03 | `conversion.go` on byte lists | arithmetic on big-endian values; induction on length |
| C04 | `parse.go` | induction on the byte list; decimal printing is inverted by parsing |
| C05 | `Decompose` | induction on l |
| C06 | `bn.go` | Euclid / Bezout |
| C07 | hash input of `CalculateHash` as a function | injectivity from C01; explicit collision |
| C08 | constants of `mycurve.go` | Pocklington |
| C09 | `MapToGroup` loop | induction on the counter; spec of `ModSqrt` |
| C10–C12 | `addJacobian`, `affineFromJacobian`, `Add`, `Multiply` | field algebra, group law |
| C13 | group of points as a finite group | `#E <= 2p+1`, `N | #E`, no 2-torsion |
| C14, C15 | `ScalarMult`, `Neg` | from C13 |
| C16, C17 | `CommitG1` | group algebra |
| C18 | `vector.go`, `util.go` | induction on the vectors |
| C19, C20 | `IsPowerOfTwo`, `Setup` | bit-level reasoning on Z |
| C21, C22 | `HashBP`, `hashIP` transcripts | definitional; string injectivity |
| C23–C25 | `bip.go` with mutation of the stored point | induction on log2 n |
| C26–C28 | `bp.go` | algebra in the group; explicit forgery |
| C29, C30 | `bprp.go` | from C26, C27 |
| C31–C38, C54–C58 | `bb.go`, `ccs08.go` over a bilinear group | algebra |
| C39 | constants | Pocklington, computed scalar multiples |
| C40–C43 | `gfp2.go`, `gfp6.go`, `gfp12.go`, `finalExponentiation` | ring algebra mod p, Fermat |
| C44–C46 | `curve.go`, `twist.go`, with an explicit aliasing parameter | field algebra, group law |
| C47–C49 | `Marshal`/`Unmarshal`, GT | codec lemmas |
| C50–C52 | `optate.go` | algebra; C52 by computing the modelled pairing on a witness |
| C53 | heap model of pool and field operations | symbolic execution for all stores |
| C59 | `optate.go` against `SpecPair.v` | induction on the digits of the loop; killed factors |
| C60 | `Pair` | cocycle and reciprocity of lines |
| C61 | `Pair`, `PairingCheck` | in-kernel computation on the generators, then C60 |
| C62 | `bb.go`, `ccs08.go` over `BN256.v` | instantiation of C31–C38, C54–C58 |
| C63–C65 | heap model (`BNHeap.v`) | symbolic execution with frames, against `BN256.v` |
| C66 | heap model | counting Get and Put along every path |
| C67 | `bip.go` Verify | tree extractor; cubic with four roots, in the field of exponents |
| C68 | `bn256.go` RandomG1, RandomG2; `rand.Int` | first acceptable block of the stream; fibres of reduction modulo 2^n |
| C69 | draws of `bp.go`, `ccs08.go` | composition of C68; every reduced number has a block |
| C70 | `gfp2.go` Real, Imag; `bn256.go` CurvePoints | field identities |

Every property in the list is expressible. Side channels, performance, and the distribution of
the bytes `crypto/rand` delivers are not modelled.

## 4. Trusted base

* Coq 8.16.1's kernel (and its VM, used by the primality and group-order certificates; the
  checker `coqchk` re-evaluates them without the VM).
* `Print Assumptions` stands under every property theorem. It prints `Closed under the global
  context` for all of them except C52, C61 and C62. These three rest on one computation with the
  primitive 63-bit integers of the standard library, so for them it lists the primitive type and
  operations of `Coq.Numbers.Cyclic.Int63.PrimInt63` (`int`, `add`, `sub`, `mul`, `mulc`, `lsl`,
  `lsr`, `land`, `lor`, `eqb`, `ltb`, `leb`, `compare`, `addc`, `addcarryc`, `subc`, `subcarryc`,
  `div`, `mod`, `head0`, `tail0`, `diveucl`, `diveucl_21`, `addmuldiv` as far as used) and the
  axioms of `Coq.Numbers.Cyclic.Int63.Uint63` which specify them (`of_to_Z`, `eqb_correct`,
  `add_spec`, `sub_spec`, `mul_spec`, `mulc_spec`, `lsl_spec`, `lsr_spec`, `lor_spec`, `ltb_spec`,
  `leb_spec`, `addc_def_spec`, `subc_def_spec`, `subcarryc_def_spec`, …). No other axiom, and none of
  ours.
* `coqchk` also names the abstract constants of MathComp's sealed modules and of `Coq.ssr.ssrunder`
  as axioms. They are definitions behind a module signature; `Print Assumptions` does not list them.
* The correspondence between the Gallina definitions and the Go code, by reading. Each
  definition cites the lines it models.
* The semantics given to `math/big` (`Base.v`), to `crypto/rand.Int` (`Rand.v`, C68 and C69 only) and, for the secp256k1 package, the contract
  `ext_ok` (`SpecSecp.v`) of go-ethereum's `Double`, `ScalarMult`, `ScalarBaseMult`. It is
  satisfiable (`C11_contract_satisfiable`).
* For the ccs08 layer, the contract `bilinear` (`SpecCCS.v`) of the group operations and of the
  pairing. It is relational (an object may represent a group element in several ways), says
  nothing about in-place addition of equal points, and lets the pairing be called only on
  objects marked `pairable` and G2 be multiplied only by integers marked `scalar` (over bn256: those not
  negative). It is satisfiable by a toy group (`C31_contract_satisfiable`) and by the
  model of bn256 (`C62_bn256_satisfies_contract`), so that C62 does not depend on it.
* `sha256` is an arbitrary function; theorems that need it say `hash_ok` (digest is a non-empty
  byte string, not 0 modulo the group order) or `h2p_ok` (hash-to-point succeeds).

## 5. What is modelled

| files | model | left out |
|-------|-------|----------|
| `util/byteconversion/conversion.go`, `util/intconversion/parse.go`, `util/util.go`, `util/bn/bn.go` | `ByteConv.v`, `Util.v` | `GetBigInt`'s error text; the hash `sha256` itself |
| `crypto/p256/mycurve.go`, `crypto/p256/p256.go` | `P256.v`, `Pedersen.v` | go-ethereum's own methods (contract), JSON |
| `bulletproofs/vector.go`, `util.go` | `Vector.v` | |
| `bulletproofs/bip.go`, `bp.go`, `bprp.go` | `Bulletproofs.v` | JSON round trip of the structs, `crypto/rand` (tape), log output |
| `crypto/bbsignatures/bb.go`, `ccs08/ccs08.go` | `BB.v`, `CCS08.v`, over a record of bn256 operations | JSON, `crypto/rand` (tape) |
| `crypto/bn256/*.go` (`constants`, `gfp2`, `gfp6`, `gfp12`, `curve`, `twist`, `optate`, `bn256`) | `BN256.v`; as an instance of the record: `BNOps.v` | the pointers returned by `CurvePoints` (values in `BNAccess.v`; `RandomG1/G2` in `Rand.v`), the constant text of `String` |

Pointer aliasing is modelled where a call writes through a pointer the caller keeps: the
receivers of `Neg`, `Multiply`, `Add` in `Verify` (the proof after the call is part of the
result), `Params.P` of the inner product proof.

crypto/bn256 is modelled twice. `BN256.v` is functional. `BNHeap.v` follows the Go statements over a
store: every `*big.Int` is a cell, objects are tuples of addresses, package variables have fixed
addresses, and the `bnPool` is a free list of cells with arbitrary contents (nil where the exported method
passes nil, new and empty where it makes one). A `big.Int` is one cell: the word slices inside, and their sharing by `math/big`, are
not modelled. `HeapLogic.v` has assertions (lists of cells with contents) and weakest preconditions;
`BNHeapProofs.v` to `BNHeapApi.v` prove each program against `BN256.v`; `BNHeapTransfer.v` and
`BNHeapTheorems.v` restate this without the assertions, in the words of `SpecHeap.v`. Aliasing covered:
an operand is the receiver itself or shares no cell with it; operands may share cells with each other.
Partial overlap (an operand which is a field of the receiver) is outside, and does go wrong
(`C40_MulScalar_overlap_refuted`). Not in the heap model: `Unmarshal`, `IsOnCurve`, `String`,
`GT.Marshal`.

## 6. Findings

Each item is a theorem; the names are in `MANIFEST.json`.

1. **p256 `Add`** returns infinity for `P + O`, and for `P + P` (C10, C12). `Neg(a)` negates its
   receiver, not its argument (C15). `CommitG1` therefore commits to infinity whenever
   `r = 0` or `g^x = h^r` (C16, C17).
2. **Byte codec**: `ToByteArray` is not minimal for `-2^(8k+7)` (C03); the two-argument hash is
   not injective in its arguments (C07).
3. **Bulletproofs challenges**: `y = z` for every transcript (C21); the transcript of `HashBP`
   is ambiguous (C22).
4. **Inner product `Verify` destroys the proof**: an accepted proof is in general rejected at
   the second call, and accepted again at the third (C25).
5. **The range proof is not sound** (C28): `Verify` checks the inner product proof against the
   parameters inside that same proof, so that any accepted inner product proof, including the
   one for the empty statement, can be attached to a commitment to any integer.
   The inner product argument by itself is knowledge sound (C67): what fails is its use.
6. **Completeness** needs non-degenerate randomness: with `gamma = 0` an honest proof is
   rejected (C26).
7. `IsPowerOfTwo(MinInt64)` is true and `Setup(MinInt64)` panics (C19, C20).
8. **Generic ranges**: intervals wider than `2^32` reject secrets inside them (C29); the two
   halves are not linked (C30).
9. **bbsignatures**: `Keygen` returns an error exactly when it succeeds (C32); `Sign` panics on
   the message `-k` (C31).
10. **ccs08 soundness**: neither verifier recomputes the challenge, so that every commitment has
   accepted proofs made from public values (C35). Independently of this, the parameters given to
   the prover contain the signing key (C55), `V` = identity is accepted (C57), and the logarithm
   of `H` is a constant of the source, so that commitments are not binding (C54).
11. **ccs08 privacy**: the proof structures contain the random values `s`, `t`, `m`, which with the
   responses give the secret and the blinding factor (C36).
12. **ccs08 ranges**: `Setup(a, 1)` fails (C37); for `a < 0` and `b - a > 57^l` secrets inside the
   interval are rejected (C38).

Findings 13–23 are about crypto/bn256.

13. **In-place doubling**: `e.Add(e, f)` with `f` equal to `e` returns a wrong result, for almost all
   points not even on the curve (C45). `bb.go` and `ccs08.go` add in place.
14. **Negated G2 points**: `Neg` sets `t = 0`, `Pair` reads `t` of affine points: `Pair(P, -Q)` is not the
   inverse of `Pair(P, Q)` for `Q` the generator (C52).
15. **G2.Marshal of infinity** writes 128 zero bytes (which `Unmarshal` reads back as infinity) but turns
   its receiver into the affine point (0,0), not on the curve; `Pair` of it is then 0 instead of 1
   (C48, C50).
16. **No subgroup check**: `G2.Unmarshal` accepts a point of order 10069 (C48). `GT.Unmarshal` accepts all
   strings of 384 bytes (C49).
17. **Non-canonical encodings**: `G1/G2.Unmarshal` accept coordinates that are not reduced; `G1.Unmarshal`
   has two encodings of infinity (C47).
18. **GT.ScalarMult** with a negative exponent reads the two's complement bits: `k = -1` is the identity
   map (C49). **GT.Exp** overwrites its argument and does not assign its receiver (C49).
19. **`String`** of G2 depends on the representation of the point, and so do the Fiat–Shamir challenges of
   ccs08, which hash it (`util.go`); the verifier never recomputes them (C35).
20. `gfP12.Conjugate` returns its argument and not the receiver; `gfP12.MulScalar` multiplies the
   receiver instead of the argument (C41; neither is used by the pairing).
21. **PairingCheck** panics if the second list is shorter, unless the missing partners are points at
   infinity (C50).
22. `gfP2.Invert(0)` is 0, and all inversions above it propagate this (C40, C41).
23. **Negative scalars in G2**: `twistPoint.Negative` (twist.go:258-264) clears `y` before it reads the
   operand's `y`. `G2.ScalarMult` and `G2.ScalarBaseMult` call it in place when the scalar is negative, and
   so does `e.Neg(e)`; the result is (x, 0), not on the twist (C46). The package's test adds `k g` and
   `-k g`; `Add` compares abscissas only, then doubles or returns infinity, and it does return infinity
   (`C46_G2_negative_sum`). For ccs08 this means: commitments to negative values are not commitments.
   An earlier version of the model had the negation of a distinct operand at this place and its
   theorems claimed all scalars; the mistake was found while writing the heap model, which has to say
   which object is which. The contract `bilinear` has since a field `scalar` (the scalars by which G2
   multiplication is correct; over bn256 those `>= 0`).
   The rejected runs of C62 draw the blinding values m and r as 0 and hash to 1. This choice is legal but
   special; it removes H from the computation, which the kernel repeats.
24. **Uninitialised scratch points**: `Mul` of curve.go and twist.go takes two points from the pool and
   reads them before they are set (`sum.SetInfinity` keeps a stale x, y). With a used pool the result is
   another representation of the same point (C53); with a nil or empty pool they are zero.
25. **Pool leaks**: `Add` returns from its doubling case without returning 10 (20) integers; `optimalAte`
   keeps two twist points (C66). Harmless for results; the count of the pool is not 0 after a pairing.
26. **Receiver inside the operand**: `e.MulScalar(e, e.x)` gives a wrong value (C40); no caller does this.
27. **`Real` and `Imag` are exchanged**: gfp2.go:234-240 return x and y of `xi+y`. `CurvePoints` gives
   Jacobian coordinates (C70). Nothing in the repository calls them.
