# Formal model of phoreproject/bls in Rocq (Coq 8.16.1)

`properties.jsonl` lists the properties (C01, C02, ...). `MANIFEST.json` maps each of them to theorems.
`ASSUMPTIONS.md` lists what `Print Assumptions` prints for every property theorem. `seeded/LOG.jsonl` records the seeded bugs.

## Trusted base

* Coq 8.16.1's kernel, including its conversion machine for `vm_compute` and its native 63-bit integers.
* What `Print Assumptions` lists. It is run after every theorem in `rocq/theories/Properties_*.v`. There are two answers only:
  * `Closed under the global context`: 253 theorems (everything up to towers, group law, codecs, Miller loop and final
    exponentiation as power map, screening, aggregation, SWU maps, assembly, source text runs).
  * (73 theorems) 23 constants of the standard library's `Coq.Numbers.Cyclic.Int63` (the primitive type `int`, the operations
    `add sub mul land lor lsl lsr eqb ltb leb`, and their specifications `add_spec`, `sub_spec`, `mul_spec`, `land_spec`,
    `lor_spec`, `lsl_spec`, `lsr_spec`, `ltb_spec`, `leb_spec`, `eqb_correct`, `eqb_refl`, `of_to_Z`). They occur in every
    theorem that rests on a large closed computation: orders of the generators, value of e(G1,G2), point counts, primality of
    the cofactor's factors, isogeny identities, concrete hashes. The full list is in `ASSUMPTIONS.md`.
  * No axiom is declared in this development.
* The transcription Go -> Gallina in the `Model*.v` files. Each definition cites file and lines. For the functions covered by C81
  the trust moves to the parser `tools/gen_srccode.py` and to the semantics in `SrcSem.v`.
  `AsmProg.v` is generated from the assembly file by `tools/gen_asm.py`.
* The documented behaviour of the Go language and of the Go library routines listed under "Not modelled".

## How the code is modelled

* A `uint64` is a `Z`. Every operation truncates explicitly the way Go does (`Words.v`).
  The invariant "all limbs are in [0,2^64)" is a predicate (`wf6`, `wf4`).
* `FQRepr` is a record of six words, `FRRepr` of four. Fixed-length loops over limbs are unrolled.
  Straight-line carry chains are kept line by line as `let` chains (`ModelRepr.v`, `ModelFq.v`, `ModelFr.v`).
* A method with a pointer receiver is a function that returns the new value of the receiver.
  Where pointer identity matters (FR, FRReprToFR, KeyFromFQRepr) there is a heap model with objects and package variables
  (`ModelFrHeap.v`); FQ6.MulAssign with aliased argument has its own transcription (`FQ6_MulAssign_aliased`).
* `FQ` is the Montgomery form, as in the code. `FQ2`, `FQ6`, `FQ12` (`ModelTower.v`), curve points (`ModelCurve.v`), pairing
  (`ModelPairing.v`), hash-to-curve (`ModelHash.v`) and the two signature packages (`ModelBls.v`) are written once,
  polymorphically over a record of base-field operations (`BOps`). **The model of the Go code is the instance `FqB`** (limb-level
  FQ). All property theorems are about that instance. Three further instances are used in proofs only: `FpB` (integers modulo q
  with a proof of range), `ZB` (plain integers) and `UB` (14 machine integers of 28 bits). Relation lemmas (`OpsRel.v`,
  `OpsRel2.v`) say that every function of the model preserves a relation between two instances.
* Loops without a static bound (Inverse, HashG2WithDomain) take fuel and return `None` when it runs out.
  For Inverse a fixed fuel is proved sufficient for canonical input. For HashG2WithDomain soundness holds for every fuel and
  completeness as soon as some candidate within the fuel works.
* A Go panic is `None` in functions that may panic. A nil result or an error is a second `option`.
* SHA-256 is a universally quantified function on byte lists; `ModelRand.v` has
  io.ReadFull and crypto/rand.Int on a reader that is an arbitrary list of chunks; the older C52 takes the list of draws.
  `Sha256.v` also has SHA-256 itself (checked on the standard's examples); it is used for concrete cases only.
* Where memory matters there are separate small models: `ModelSlice.v` (the [][]byte that VerifyAggregate copies and sorts, with an
  arbitrary sequence of swaps), `ModelSort.v` (Less, insertionSort, IsSorted and arbitrary sorting algorithms on it), `ModelPtHeap.v` (pointers to affine points and the package's points at infinity),
  `ModelObjHeap.v` (keys and signatures as objects that point to points),
  `ModelQ12Heap.v` (FQ12 elements as pairs of pointers; every FQ12 method and the pairing, statement by statement).
* `ModelStr.v` has reading of numerals in any base except 0 and the String methods; `SrcConst.v` is the text of every numeral in
  the package initialisers, copied by `tools/gen_srcconst.py`.
* `ModelAsmGen.v` transcribes asm/asm.go, the generator of the assembly file, for an arbitrary register allocation.
* `KnownAnswer.v` runs the model on every fixed test vector of the repository's tests (field, curve, pairing, hash-to-curve,
  key derivation, domain hashing, invalid keys) and gets the values the Go tests expect: a check of the transcription.
* `SrcCode.v` holds every function of the package as a syntax tree, written from the Go text by `tools/gen_srccode.py` (a small
  parser; trusted). `SrcSem.v` gives these trees a meaning: nested scopes, pointers as values with a check that no object is reached
  by two names (an assignment without Copy takes the object from its old name, and using that name again makes the run fail; a call
  `x.M(x)` is a call of another entry), machine words that wrap, panics for indices out of range and for methods on nil. A pointer
  parameter that is assigned inside the function keeps its old object for the caller. `range` reads the elements of its list once, at
  the start. `int` values do not wrap. A call
  inside a function means the model function of the callee (`SrcCall.v`). C81 says that running a tree gives the model function, so
  for the functions listed there the transcription in `Model*.v` no longer has to be trusted. A result that is a pointer into an
  argument is not distinguished from a copy there; the memory models below do that. `sort.Sort` is the sorting function of the model
  (C80 proves this for every algorithm made of Less and Swap), and an `io.Reader` is what `rand.Int` makes of it or a failure. A `hash.Hash`
  is the list of bytes written to it, `Sum(nil)` an arbitrary function of that list. Below the towers (`SrcLimb.v`) the callees are
  `math/bits`, `math/big` and `encoding/binary` as described in this file, and the functions of the model one level down; not covered
  are the String methods, the Rand functions, FRReprToFR and FR.Sqrt.
* `primitivefuncs_amd64.s` is run by a small interpreter (`ModelAsm.v`): 15 registers, carry flag (undefined until set), argument
  area and frame as word arrays; an access outside them, a misaligned access or reading an undefined flag is an error.

## How the properties are proved

| id | files | method |
|----|-------|--------|
| C01-C04, C06, C07, C53, C60 | ReprProofs{,2,3} | linear/ring arithmetic over carry equations; integer meaning `eval6`/`eval4` |
| C05, C68 | AsmProofs | symbolic execution in groups of instructions, each acting like one portable primitive |
| C08, C09, C12-C15 | FqProofs{,2}, FqMisc, Fp, Loops | Montgomery argument; invariant over an inductive set of reachable values; Euler's criterion |
| C10, C11 | InvZ, FqInverse | integer loop invariant and decreasing measure; divergence witness |
| C16-C18 | FrProofs{,2}, FrHeapProofs | as for FQ; frame theorems over all call sequences, concrete refutations |
| C19-C24 | Ext, ExtFrob, TowerProofs, TowerLimb, TwoPow | schoolbook extension fields proved to be fields; q-th power by the binomial theorem; all Frobenius constants derived from one power of two |
| C25-C31 | Poly, EcIdeal, EcGroup, EcJac, EcMul, Curves, CurveLimb | group law; associativity through ideal classes of the coordinate ring; Jacobian formulas |
| C32-C35 | Codec | square roots, order of y and -y, byte-level bit operations |
| C36-C39, C55, C56 | FinExp, Miller, PairBasic, PairLimb | list induction, exponent arithmetic in the unit group of GF(q^12) |
| C61, C62 | LineIdeal, Cocycle, Recip, BilinBase, MillerVal, Bilin, PairGen*, PairTor | lines as ideal generators give a symmetric 2-cocycle; Miller functions are sums in the extension; twist endomorphism and line reciprocity give bilinearity; non-degeneracy by computing e(G1,G2) |
| C30, C58, C65, C66 | PockU, PrimCof, Span, EcCount, GenCheck, Gens, Torsion, ClearCof, CountFacts | explicit independent points of known prime-power orders generate a group too large to have a proper supergroup within the 2q+1 bound; hence #E = cofactor * r |
| C40, C63, C64, C67 | VerifyProofs, HonestEx, HashInf, HonestInf | verdict functions of the represented points, bilinearity, non-degeneracy; refutation with digests whose points differ by a point of small order |
| C69, C70, C71 | WireProofs, RogueProofs, WireEx | codec bijectivity on canonical encodings composed with C63; group algebra in the exponent |
| C74 | AsmGenProofs | computation; registers found by unification |
| C72, C73, C75 | PtHeapProofs, SliceProofs, ObjHeapProofs, KeyHeapProofs | invariants over all histories of calls / all swap sequences |
| C77 | RandProofs{,2,3} | the byte stream cut into windows; fuel = bytes left, shown to suffice |
| C78 | StrProofs, StrProofs3, SrcConst | an inductive definition of numerals; digit tables checked for all 256 characters; `SrcConst.v` copies every numeral of the sources |
| C79 | StrProofs2 | fields of fixed width between fixed texts |
| C80 | SortProofs | a sorting algorithm is a tree of Less/Swap calls; replacing messages by ranks carries correctness from integers to messages |
| C81 | SrcTac, SrcTower, SrcCurve, SrcLoops{,2}, SrcBytes, SrcPairing{,2,3}, SrcHash, SrcBls{,2}, SrcLimb, SrcRepr{,2}, SrcFq{,2} | symbolic execution: `cbv` with the model functions kept folded, then case analysis on the tests; loops by induction. `tools/gen_srclemmas.py` and `gen_srcloops.py`, `gen_srcbls.py`, `gen_srcbls2.py`, `gen_srclimb.py` wrote the routine files |
| C76 | Q12HeapProofs{,2,3}, Q12HeapEx | invariant on memory: elements share no halves, package objects intact; each call simulated |
| C41-C45, C57, C59 | MsgScreen, BlsProofs*, BlsKeys | list/permutation induction over the group law |
| C46-C52 | PolyEval, SwuProofs, IsoProofs, HashProofs, SwEnc, HashEx, RandEx | square-class arguments; polynomial identities checked on coefficients |
| C54 | FqMisc | induction on bits; refutation of the bit-reversed variants |

The specification vocabulary (what `on_curve`, `P1`, `valP`, ... mean) is restated in theorems named `*_vocabulary` /
`*_spec` / `*_meaning` at the top of the Properties files, so that the statements can be read without the proof files.

## Findings (properties that the code violates, each with a proved witness)

* C11 `FQReprToFQRaw(q).Inverse()` never returns.
* C17 `FR.Sqrt` overwrites the package's constant one. C18 `FRReprToFR` overwrites the caller's value.
* C22 `FQ6.MulAssign(f)` on itself, hence `FQ6.Exp`, is wrong. C54 `MulBits`/`MulBytes` read the bits in reverse.
* C27 `G2Affine.Equals` is true for any two finite points. C35 `G1Affine.SetRawBytes` takes residues as Montgomery forms.
* C34 unchecked decompression reads a coordinate >= q as 0.
* C37, C67 a point at infinity makes `MillerLoop`, hence `Verify`, panic.
* C41 a list containing the empty message is always rejected by `VerifyAggregate`.
* C45 `DeserializeSecretKey` of an integer >= r returns a key that panics on use.
* C49 two equal field digests give a hash point off the curve (doubling formula for a = 0 on a curve with a <> 0).
* C52 `RandG1`/`RandG2` may return the identity.
* C71 rogue keys are accepted by `VerifyAggregateCommon` and, with equal messages, by `VerifyAggregateWithDomain`.
* C72 `G2Projective.ToAffine` hands out the package's `G2AffineZero`; `SetRawBytes` through it changes the identity.
* C75 `GetFRElement` returns the pointer inside the secret key.
* C77 `RandG1`/`RandG2` ignore the byte count of `Read`; `RandKey` can return the zero key.
* C76 `FQ12Zero` and `FQ12One` share FQ6 objects: calling a writing method on one of them corrupts both, and with them `IsZero` and `Exp`.
  `NewFQ12(p, p)` gives an element whose NegAssign is the identity. The library itself does neither.
* C68 three assembly routines with frame size 0 overwrite BP.

## Not modelled

* `math/big` arithmetic is Coq's `Z`; `SetString` is modelled for every base except 0 (prefixes, underscores), following math/big's `nat.scan`.
* `math/bits` Add64/Sub64/Mul64/LeadingZeros64 and `encoding/binary` are modelled by their documentation.
* `crypto/sha256`, `hash.Hash`: arbitrary functions. `crypto/rand.Int`, `io.ReadFull` are modelled by their source; readers that
  return data together with an error are not.
* `sort.Sort` is modelled as insertion sort with `bytes.Compare` (C73: as any sequence of swaps that sorts; C80: as any algorithm that works through Less and Swap and sorts integers); the sorted list does not depend on the algorithm because the
  order is total and antisymmetric on contents.
* `fmt` formatting other than `%016x`. Goroutines: the library uses none.
* The prologue and epilogue which the Go assembler adds to the assembly functions; the register allocator of avo.
* Aliasing of slices and pointers other than in FR, FQ6.MulAssign, the affine points (C72), the messages of VerifyAggregate (C73),
  keys and signatures (C75) and FQ12 elements (C76).
* Unforgeability: a computational assumption, not a property of the code.
