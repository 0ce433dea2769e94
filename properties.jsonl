{"id": "C01", "title": "Word primitives are exact", "statement": "AddWithCarry(a,b,c) returns (s,k) with s + 2^64*k = a+b+c; MACWithCarry(a,b,c,k) returns (o,k') with o + 2^64*k' = a + b*c + k; SubWithBorrow(a,b,w) with w in {0,1} returns (d,w') with d - 2^64*w' = a-b-w. No carry is ever lost.", "quantifier": "all 64-bit words a, b, c and all carries (borrow 0 or 1)", "why_tests_cant": "2^256 input combinations; carry-loss bugs sit on boundaries random tests do not hit", "anchors": ["stub_fallback.go:AddWithCarry", "stub_fallback.go:SubWithBorrow", "stub_fallback.go:MACWithCarry"]}
{"id": "C02", "title": "MultiplyFQRepr is the exact 768-bit product", "statement": "MultiplyFQRepr(a,b) = (hi,lo) with hi*2^384 + lo = a*b, where a,b,hi,lo are read as little-endian 64-bit limb integers.", "quantifier": "all pairs of 384-bit operands", "why_tests_cant": "2^768 operand pairs; a single wrong carry chain is only visible on rare limb patterns", "anchors": ["stub_fallback.go:MultiplyFQRepr"]}
{"id": "C03", "title": "MontReduce is Montgomery reduction", "statement": "For every 768-bit value T = hi*2^384+lo with T < q*2^384, MontReduce(hi,lo) < 2q and MontReduce(hi,lo)*2^384 = T (mod q); after the conditional subtraction the result is the unique canonical residue.", "quantifier": "all 768-bit values below q*2^384", "why_tests_cant": "carry propagation over 6 rounds; failures would occur on a 2^-64 fraction of inputs", "anchors": ["stub_fallback.go:MontReduce", "fq.go:FQ.montReduce", "fq.go:FQ.reduceAssign"]}
{"id": "C04", "title": "AddNoCarry/SubNoBorrow are addition/subtraction modulo 2^384", "statement": "AddNoCarry(a,b) = a+b mod 2^384 and SubNoBorrow(a,b) = a-b mod 2^384 as integers, for both the portable code and the FQRepr/FRRepr methods (mod 2^256 for FRRepr).", "quantifier": "all operand pairs", "why_tests_cant": "carry/borrow chains across all limbs", "anchors": ["stub_fallback.go:AddNoCarry", "stub_fallback.go:SubNoBorrow", "frrepr.go:FRRepr.AddNoCarry", "frrepr.go:FRRepr.SubNoBorrow"]}
{"id": "C05", "title": "amd64 assembly and portable Go agree", "statement": "Each function of primitivefuncs_amd64.s, executed instruction by instruction, returns exactly what the portable stub_fallback.go function of the same name returns (SubWithBorrow for borrow in {0,1}, the range math/bits.Sub64 documents).", "quantifier": "all machine states at entry and all operand values", "why_tests_cant": "the two builds never run on the same machine in one test run; divergence could be on rare carries, clobbered registers or flags", "anchors": ["primitivefuncs_amd64.s", "stub_fallback.go"]}
{"id": "C06", "title": "FQRepr/FRRepr integer operations", "statement": "Lsh(n), Rsh(n), Mul2, Div2, Cmp, Equals, IsZero, IsOdd, IsEven, BitLen and Bit(n) implement the operations of the same name on the unsigned integer represented by the limbs (shifts for every n, including n>=384 and multiples of 64; truncation modulo 2^384 / 2^256).", "quantifier": "all limb values and all shift amounts", "why_tests_cant": "all shift amounts times all values; word-boundary shifts are classic untested cases", "anchors": ["fqrepr.go:FQRepr.Rsh", "fqrepr.go:FQRepr.Lsh", "fqrepr.go:FQRepr.Cmp", "fqrepr.go:FQRepr.BitLen", "fqrepr.go:FQRepr.Bit", "frrepr.go"]}
{"id": "C07", "title": "Repr byte and big.Int codecs round-trip", "statement": "FQReprFromBytes(f.Bytes()) = f and FQReprFromBytes(b).Bytes() = b; bytes are the 48-byte big-endian integer; FQReprFromBigInt(f.ToBig()) = f, FQReprFromBigInt errors exactly on negative or >384-bit numbers; same for FRRepr with 32 bytes/256 bits.", "quantifier": "all representations, all 48/32-byte strings, all integers", "why_tests_cant": "codec inverses must hold for every one of 2^384 values", "anchors": ["fqrepr.go:FQReprFromBytes", "fqrepr.go:FQRepr.Bytes", "fqrepr.go:FQReprFromBigInt", "fqrepr.go:FQRepr.ToBig", "frrepr.go"]}
{"id": "C08", "title": "FQ elements stay canonical", "statement": "Any value obtained from canonical FQ values (integer < q) by any finite sequence of FQReprToFQ, AddAssign, SubAssign, MulAssign, SquareAssign, DoubleAssign, NegAssign, Exp, Inverse, Sqrt, DivAssign is canonical, so Equals is equality of residues.", "quantifier": "all finite sequences of field operations", "why_tests_cant": "histories of unbounded length", "anchors": ["fq.go"]}
{"id": "C09", "title": "FQ arithmetic is arithmetic modulo q", "statement": "AddAssign, SubAssign, MulAssign, SquareAssign, DoubleAssign, NegAssign on canonical elements compute sum, difference, product, square, double and negation modulo q of the represented residues; ToRepr(FQReprToFQ(n)) = n for n<q and FQReprToFQ(n) = 0 for n >= q.", "quantifier": "all canonical field elements, all 384-bit integers", "why_tests_cant": "2^762 operand pairs", "anchors": ["fq.go:FQ.AddAssign", "fq.go:FQ.SubAssign", "fq.go:FQ.MulAssign", "fq.go:FQ.SquareAssign", "fq.go:FQ.NegAssign", "fq.go:FQ.DoubleAssign", "fq.go:FQ.ToRepr", "fq.go:FQReprToFQ"]}
{"id": "C10", "title": "FQ.Inverse terminates and inverts every nonzero element", "statement": "For every canonical nonzero f, f.Inverse() terminates and returns (g,true) with f*g = 1; for zero it returns (0,false). DivAssign multiplies by that inverse.", "quantifier": "all canonical elements; the loop has no static bound", "why_tests_cant": "termination and correctness of a data-dependent loop over 2^381 values", "anchors": ["fq.go:FQ.Inverse", "fq.go:FQ.DivAssign"]}
{"id": "C11", "title": "FQ.Inverse on non-canonical input", "statement": "FQReprToFQRaw accepts any 384-bit integer; Inverse should return for each of them.", "quantifier": "all raw 384-bit representations", "why_tests_cant": "divergence cannot be observed by a finite test and only special values trigger it", "anchors": ["fq.go:FQ.Inverse", "fq.go:FQReprToFQRaw"]}
{"id": "C12", "title": "Exp is exponentiation", "statement": "f.Exp(n) = f^n for the integer n represented by the FQRepr/FRRepr, for FQ, FR, FQ2 and FQ12.", "quantifier": "all canonical bases and all exponents up to the representation width", "why_tests_cant": "2^381 bases times 2^384 exponents", "anchors": ["fq.go:FQ.Exp", "fq2.go:FQ2.Exp", "fq12.go:FQ12.Exp", "fr.go:FR.Exp"]}
{"id": "C13", "title": "FQ.Sqrt decides squareness and returns a root", "statement": "f.Sqrt() returns (s,true) with s*s = f when f is a square in GF(q) (including 0) and (_,false) otherwise.", "quantifier": "all canonical elements", "why_tests_cant": "needs number theory over all q residues, including primality of q", "anchors": ["fq.go:FQ.Sqrt"]}
{"id": "C14", "title": "FQ.Legendre is the Legendre symbol", "statement": "f.Legendre() is LegendreZero for 0, QuadraticResidue for nonzero squares and NonResidue otherwise; the same for FR (while the package globals are intact) and, through the norm, FQ2.", "quantifier": "all canonical elements", "why_tests_cant": "needs Euler's criterion for all residues", "anchors": ["fq.go:FQ.Legendre", "fr.go:FR.Legendre", "fq2.go:FQ2.Legendre"]}
{"id": "C15", "title": "Ordering, parity and equality of field elements", "statement": "Cmp orders FQ elements by their integer residue and FQ2 elements lexicographically by (c1,c0); Equals is true iff the elements are the same; Parity(f) is true iff f > -f, and exactly one of f, -f has parity when f is nonzero.", "quantifier": "all canonical elements", "why_tests_cant": "must hold for every pair", "anchors": ["fq.go:FQ.Cmp", "fq.go:FQ.Parity", "fq2.go:FQ2.Cmp", "fq2.go:FQ2.Equals", "fq2.go:FQ2.Parity"]}
{"id": "C16", "title": "FR arithmetic is arithmetic modulo r", "statement": "FR AddAssign, SubAssign, MulAssign, SquareAssign, DoubleAssign, NegAssign, Exp and Inverse compute the corresponding operation modulo r; ToRepr(FRReprToFR(n)) = n for n<r.", "quantifier": "all canonical scalars", "why_tests_cant": "2^510 operand pairs", "anchors": ["fr.go"]}
{"id": "C17", "title": "FR API calls do not corrupt package state", "statement": "After any sequence of calls to FR methods the package-level constants used by Exp, Legendre and HashFR (the Montgomery one and zero) are unchanged, so later calls give the same results as earlier ones.", "quantifier": "all finite sequences of FR API calls", "why_tests_cant": "history property: state corruption shows only after particular call sequences", "anchors": ["fr.go:FR.Sqrt", "fr.go:FRReprToFR", "fr.go:bigOneFR"]}
{"id": "C18", "title": "FRReprToFR / KeyFromFQRepr leave the caller's value intact", "statement": "Converting an FRRepr to an FR (FRReprToFR, KeyFromFQRepr) does not change the caller's FRRepr, so converting the same FRRepr twice gives two equal scalars.", "quantifier": "all scalars and call sequences", "why_tests_cant": "aliasing between caller and callee memory over histories", "anchors": ["fr.go:FRReprToFR", "g1pubs/bls.go:KeyFromFQRepr", "g2pubs/bls.go:KeyFromFQRepr"]}
{"id": "C19", "title": "FQ2 is GF(q^2)", "statement": "FQ2 operations implement arithmetic of GF(q)[u]/(u^2+1): Add, Sub, Neg, Double, Mul, Square, MultiplyByNonresidue (by 1+u), Norm; InverseAssign succeeds exactly on nonzero elements and then returns the inverse, leaving the element unchanged on failure.", "quantifier": "all FQ2 elements with canonical coefficients", "why_tests_cant": "2^1524 operand pairs", "anchors": ["fq2.go"]}
{"id": "C20", "title": "FQ2.Sqrt decides squareness in GF(q^2) and returns a root", "statement": "f.Sqrt() returns (s,true) with s^2=f iff f is a square in GF(q^2), else (_,false).", "quantifier": "all FQ2 elements with canonical coefficients", "why_tests_cant": "needs finite-field theory over q^2 elements", "anchors": ["fq2.go:FQ2.Sqrt"]}
{"id": "C21", "title": "FQ6 is GF(q^6)", "statement": "FQ6 Add, Sub, Neg, Double, Mul, Square, MulByNonresidue, MulBy1, MulBy01 implement arithmetic of GF(q^2)[v]/(v^3-(1+u)) when operands are distinct objects; InverseAssign succeeds exactly on nonzero elements and returns the inverse.", "quantifier": "all FQ6 elements", "why_tests_cant": "Karatsuba/Toom style formulas over 2^4572 operand pairs", "anchors": ["fq6.go"]}
{"id": "C22", "title": "FQ6.Exp is exponentiation / FQ6.MulAssign tolerates aliasing", "statement": "f.MulAssign(f) squares f, and f.Exp(n) = f^n in GF(q^6).", "quantifier": "all FQ6 elements and exponents, including receiver and argument being the same object", "why_tests_cant": "aliasing between receiver and argument", "anchors": ["fq6.go:FQ6.MulAssign", "fq6.go:FQ6.Exp"]}
{"id": "C23", "title": "FQ12 is GF(q^12)", "statement": "FQ12 Add, Sub, Neg, Double, Mul (aliased or not), Square, Conjugate, MulBy014, Exp implement arithmetic of GF(q^6)[w]/(w^2-v); InverseAssign succeeds exactly on nonzero elements and returns the inverse.", "quantifier": "all FQ12 elements", "why_tests_cant": "formulas over 2^9144 operand pairs", "anchors": ["fq12.go"]}
{"id": "C24", "title": "Frobenius maps are q^k-th powers", "statement": "x.FrobeniusMapAssign(k) computes x^(q^k) in FQ2, FQ6 and FQ12 for every uint8 power k (the tables of hard-coded constants are right and indexed correctly).", "quantifier": "all elements, all powers 0..255", "why_tests_cant": "x^q for all x needs field theory, exponent q^k is astronomically large", "anchors": ["fq2.go:FQ2.FrobeniusMapAssign", "fq6.go:FQ6.FrobeniusMapAssign", "fq12.go:FQ12.FrobeniusMapAssign"]}
{"id": "C25", "title": "G1/G2 Double, Add and AddAffine implement the elliptic-curve group law", "statement": "For all points on the curve in any Jacobian representation, Double, Add and AddAffine return a representation of the chord-and-tangent sum, including when an operand is infinity, the operands are equal, or opposite; the result is again on the curve.", "quantifier": "all pairs of curve points and all projective representations of them", "why_tests_cant": "2^1500+ operand pairs with exceptional cases of negligible random probability", "anchors": ["g1.go:G1Projective.Double", "g1.go:G1Projective.Add", "g1.go:G1Projective.AddAffine", "g2.go:G2Projective.Double", "g2.go:G2Projective.Add", "g2.go:G2Projective.AddAffine"]}
{"id": "C26", "title": "ToAffine/ToProjective/Equal respect the represented point", "statement": "ToAffine returns the affine point represented, ToAffine(ToProjective(P)) = P, and G1Projective.Equal / G2Projective.Equals are true iff both operands represent the same point (independently of z).", "quantifier": "all projective representations", "why_tests_cant": "infinitely many representatives per point", "anchors": ["g1.go:G1Projective.ToAffine", "g1.go:G1Projective.Equal", "g2.go:G2Projective.ToAffine", "g2.go:G2Projective.Equals"]}
{"id": "C27", "title": "Affine Equals is equality of points", "statement": "G1Affine.Equals and G2Affine.Equals return true iff the two affine points are equal.", "quantifier": "all pairs of affine points", "why_tests_cant": "needs all pairs; existing tests only compare equal points", "anchors": ["g1.go:G1Affine.Equals", "g2.go:G2Affine.Equals"]}
{"id": "C28", "title": "Addition of curve points is an abelian group", "statement": "On G1 and G2 curve points, the represented point of Add is associative and commutative with the point at infinity as neutral element and NegAssign as inverse.", "quantifier": "all triples of curve points", "why_tests_cant": "associativity over all triples including all degenerate cases", "anchors": ["g1.go:G1Projective.Add", "g2.go:G2Projective.Add", "g1.go:G1Projective.NegAssign"]}
{"id": "C29", "title": "Mul/MulFR/MulBig is scalar multiplication", "statement": "P.Mul(k), P.MulFR(k) and P.MulBig(k) represent k*P (k-fold sum) for affine and projective P on the curve.", "quantifier": "all points and all 384/256-bit scalars", "why_tests_cant": "2^256 scalars times 2^381 points", "anchors": ["g1.go:G1Affine.Mul", "g1.go:G1Affine.MulFR", "g1.go:G1Projective.MulFR", "g2.go:G2Affine.MulBig", "g2.go:G2Affine.MulFR"]}
{"id": "C30", "title": "Subgroup check is exact", "statement": "IsInCorrectSubgroupAssumingOnCurve returns true iff r*P is the point at infinity; the generators pass it; cofactor constants are right.", "quantifier": "all curve points", "why_tests_cant": "needs scalar multiplication for all points", "anchors": ["g1.go:G1Affine.IsInCorrectSubgroupAssumingOnCurve", "g2.go:G2Affine.IsInCorrectSubgroupAssumingOnCurve", "g1.go:frChar"]}
{"id": "C31", "title": "GetG1PointFromX / GetG2PointFromX recover exactly the curve point", "statement": "GetG?PointFromX(x,greatest) succeeds iff x^3+b is a square; the result has that x, lies on the curve, and its y is the lexicographically larger root iff greatest is set.", "quantifier": "all x-coordinates and both flags", "why_tests_cant": "all x in GF(q) / GF(q^2)", "anchors": ["g1.go:GetG1PointFromX", "g2.go:GetG2PointFromX"]}
{"id": "C32", "title": "G1 compression round-trips and is non-malleable", "statement": "DecompressG1(CompressG1(P)) = P for every P in the subgroup (and infinity), and DecompressG1(b) = P implies CompressG1(P) = b, so each key/signature has exactly one accepted encoding; anything else is an error, never a panic.", "quantifier": "all subgroup points and all 2^384 byte strings", "why_tests_cant": "all 48-byte strings", "anchors": ["g1.go:CompressG1", "g1.go:DecompressG1", "g1.go:DecompressG1Unchecked"]}
{"id": "C33", "title": "G2 compression round-trips", "statement": "DecompressG2(CompressG2(P)) = P for every P in the subgroup, and for inputs with canonical coordinates DecompressG2(b)=P implies CompressG2(P)=b.", "quantifier": "all subgroup points and all 96-byte strings", "why_tests_cant": "all 2^768 strings", "anchors": ["g2.go:CompressG2", "g2.go:DecompressG2"]}
{"id": "C34", "title": "Unchecked decompression rejects non-canonical x", "statement": "DecompressG1Unchecked / DecompressG2Unchecked return an error when an encoded coordinate is not smaller than q.", "quantifier": "all byte strings", "why_tests_cant": "needs out-of-range encodings, which encoders never produce", "anchors": ["g1.go:DecompressG1Unchecked", "g2.go:DecompressG2Unchecked", "fq.go:FQReprToFQ"]}
{"id": "C35", "title": "Uncompressed serialization round-trips", "statement": "SetRawBytes(SerializeBytes(P)) restores the coordinates of every finite point P, for G1Affine and G2Affine.", "quantifier": "all finite points", "why_tests_cant": "all coordinates; no existing test covers G1", "anchors": ["g1.go:G1Affine.SerializeBytes", "g1.go:G1Affine.SetRawBytes", "g2.go:G2Affine.SerializeBytes", "g2.go:G2Affine.SetRawBytes"]}
{"id": "C36", "title": "MillerLoop of several pairs is the product of single Miller loops", "statement": "For finite points MillerLoop(items) equals the product in GF(q^12) of the Miller loops of the individual items, it does not depend on their order, the empty list gives 1, and it never indexes outside the prepared coefficients.", "quantifier": "all lists of pairs of finite points", "why_tests_cant": "lists of unbounded length", "anchors": ["pairing.go:MillerLoop", "g2.go:G2AffineToPrepared"]}
{"id": "C37", "title": "MillerLoop skips pairs containing the point at infinity", "statement": "MillerLoop (hence Pairing, CompareTwoPairings, Verify) treats a pair with an infinity component as contributing 1 and does not panic.", "quantifier": "all inputs including points at infinity, which DecompressG1/G2 accept", "why_tests_cant": "tests never pass infinity; a crash on a wire-decodable input is a denial of service", "anchors": ["pairing.go:MillerLoop", "g1pubs/bls.go:Verify", "g2pubs/bls.go:Verify"]}
{"id": "C38", "title": "FinalExponentiation is the power map into the r-th roots of unity", "statement": "FinalExponentiation(f) is nil exactly for f=0; otherwise it equals f^(3*(q^12-1)/r), is multiplicative in f, and its r-th power is 1.", "quantifier": "all FQ12 elements", "why_tests_cant": "exponent has 4300 bits and the claim ranges over GF(q^12)", "anchors": ["pairing.go:FinalExponentiation"]}
{"id": "C39", "title": "CompareTwoPairings compares pairings", "statement": "For finite points whose Miller values are nonzero CompareTwoPairings(P1,Q1,P2,Q2) returns true iff Pairing(P1,Q1) = Pairing(P2,Q2).", "quantifier": "all quadruples of finite points", "why_tests_cant": "relies on algebraic identities over all of GF(q^12)", "anchors": ["pairing.go:CompareTwoPairings", "pairing.go:Pairing"]}
{"id": "C40", "title": "Honest signatures verify", "statement": "Verify(m, PrivToPub(k), Sign(m,k)) is true for every message and nonzero key; the same for VerifyAggregate, VerifyAggregateCommon with aggregated honest signatures, in g1pubs and g2pubs.", "quantifier": "all messages, keys and numbers of signers", "why_tests_cant": "all keys and messages", "anchors": ["g1pubs/bls.go:Sign", "g1pubs/bls.go:Verify", "g2pubs/bls.go:Sign", "g2pubs/bls.go:Verify"]}
{"id": "C41", "title": "VerifyAggregate input screening", "statement": "VerifyAggregate returns false when the numbers of keys and messages differ or when two messages are equal, and for distinct messages the verdict is decided by the pairing equation alone (whatever the order); the caller's slices are not modified.", "quantifier": "all lists of keys and messages", "why_tests_cant": "unbounded lists; depends on sorting", "anchors": ["g1pubs/bls.go:Signature.VerifyAggregate", "g2pubs/bls.go:Signature.VerifyAggregate", "g1pubs/bls.go:sortByteArrays"]}
{"id": "C42", "title": "VerifyAggregate does not depend on the order of (key,message) pairs", "statement": "Permuting the (key,message) pairs consistently does not change the verdict of VerifyAggregate.", "quantifier": "all lists and all permutations", "why_tests_cant": "all permutations of unbounded lists", "anchors": ["g1pubs/bls.go:Signature.VerifyAggregate", "g2pubs/bls.go:Signature.VerifyAggregate"]}
{"id": "C43", "title": "Aggregation is order-independent summation", "statement": "AggregateSignatures/AggregatePublicKeys represent the group sum of the inputs, independent of order and grouping; aggregating nothing gives the identity.", "quantifier": "all finite lists of signatures/keys and all permutations", "why_tests_cant": "unbounded lists, needs associativity of point addition", "anchors": ["g1pubs/bls.go:AggregateSignatures", "g1pubs/bls.go:AggregatePublicKeys", "g2pubs/bls.go:AggregateSignatures", "g2pubs/bls.go:AggregatePublicKeys"]}
{"id": "C44", "title": "Key aggregation is a homomorphism", "statement": "The aggregate of the public keys of k1..kn is the public key of k1+...+kn mod r, and aggregating signatures of one message (on an r-torsion hash point) is the signature under the summed key.", "quantifier": "all lists of secret keys", "why_tests_cant": "all keys, unbounded lists", "anchors": ["g1pubs/bls.go:PrivToPub", "g1pubs/bls.go:AggregatePublicKeys", "g1pubs/bls.go:Sign", "fr.go:FR.AddAssign"]}
{"id": "C45", "title": "Secret-key serialization round-trips and rejects out-of-range input", "statement": "DeserializeSecretKey(k.Serialize()) = k for every key; for bytes encoding an integer >= r the result must be rejected rather than yield a key that panics on use.", "quantifier": "all 2^256 byte strings", "why_tests_cant": "all 32-byte strings", "anchors": ["g1pubs/bls.go:DeserializeSecretKey", "g1pubs/bls.go:SecretKey.Serialize", "fr.go:FRReprToFR"]}
{"id": "C46", "title": "hash_to_field outputs are the canonical reductions", "statement": "HashSecretKey, and the hash-to-field step of HashG1/HashG2, return exactly the big-endian concatenation of the SHA-256 blocks reduced modulo r (resp. q), for every message and whatever SHA-256 returns.", "quantifier": "all messages, all 32-byte digests", "why_tests_cant": "all digests including those that exceed the modulus", "anchors": ["hash.go:HashSecretKey", "hash.go:hp", "hash.go:hp2"]}
{"id": "C47", "title": "Simplified SWU map never panics and lands on the isogenous curve", "statement": "optimizedSWUMapHelper(t) never reaches its panic and returns a point of y^2 = x^3 + A'x + B'; OptimizedSWU2MapHelper(t) never panics, never returns nil and returns a point of its curve over GF(q^2).", "quantifier": "all t in GF(q) resp. GF(q^2)", "why_tests_cant": "claim 'this should never happen' quantifies over the whole field", "anchors": ["g1.go:optimizedSWUMapHelper", "g2.go:OptimizedSWU2MapHelper"]}
{"id": "C48", "title": "The 11- and 3-isogenies map the isogenous curves to G1/G2 curves", "statement": "iso11 and iso3 map every finite point of the auxiliary curve outside the kernel to a point on y^2=x^3+4 (resp. y^2=x^3+4(1+u)): all hard-coded coefficients are right.", "quantifier": "all points of the auxiliary curves", "why_tests_cant": "polynomial identity over the whole field", "anchors": ["hash.go:iso11", "hash.go:iso3"]}
{"id": "C49", "title": "HashG1/HashG2 return points on the curve", "statement": "For every message HashG1 (HashG2) returns a point on the G1 (G2) curve and never panics.", "quantifier": "all messages and hash values", "why_tests_cant": "all hash outputs, including coincidences of the two mapped points", "anchors": ["hash.go:HashG1", "hash.go:HashG2", "hash.go:optimizedSWUMap", "hash.go:ClearH", "hash.go:clearH2"]}
{"id": "C50", "title": "SWEncodeG2 always returns a curve point", "statement": "SWEncodeG2(t) returns a non-nil point of the G2 curve for every t.", "quantifier": "all t in GF(q^2)", "why_tests_cant": "the third candidate's error is ignored, so correctness for all t is a theorem about squares", "anchors": ["g2.go:SWEncodeG2"]}
{"id": "C51", "title": "HashG2WithDomain returns a curve point scaled by the cofactor", "statement": "Whenever HashG2WithDomain returns, its result represents cofactor * P for a point P on the curve whose x is the first x0+i with x^3+b square.", "quantifier": "all message hashes and domains", "why_tests_cant": "search loop without static bound", "anchors": ["g2.go:HashG2WithDomain"]}
{"id": "C52", "title": "RandG1/RandG2 never return the identity", "statement": "RandG1 returns a non-identity point of the prime-order subgroup for every reader.", "quantifier": "all byte streams of the reader", "why_tests_cant": "the failing x-coordinates have negligible probability", "anchors": ["g1.go:RandG1", "g2.go:RandG2"]}
{"id": "C53", "title": "BitIterator enumerates the bits most significant first", "statement": "NewBitIterator(arr) followed by Next calls yields exactly the 64*len(arr) bits of the integer, most significant first, then (false,true) forever.", "quantifier": "all word arrays of any length and any number of calls", "why_tests_cant": "unbounded lengths and call sequences", "anchors": ["bititerator.go"]}
{"id": "C54", "title": "MulBits/MulBytes multiply by the integer", "statement": "FQ.MulBits(b), FR.MulBits(b) and FQ2.MulBits(b) return the element times the integer b; MulBytes multiplies by the integer encoded by the bytes.", "quantifier": "all elements, all integers / byte strings", "why_tests_cant": "all integers; the only tests use HashFQ-style smoke checks", "anchors": ["fq.go:FQ.MulBits", "fq.go:FQ.MulBytes", "fr.go:FR.MulBits", "fq2.go:FQ2.MulBits"]}
{"id": "C55", "title": "G2Prepared always fits MillerLoop", "statement": "G2AffineToPrepared of any finite point yields exactly the number of coefficient triples MillerLoop consumes (no out-of-range panic, none left over).", "quantifier": "all finite G2 points", "why_tests_cant": "loop bounds of two functions must match for all inputs", "anchors": ["g2.go:G2AffineToPrepared", "pairing.go:MillerLoop"]}
{"id": "C56", "title": "Negating a G1 argument inverts the pairing", "statement": "For finite P,Q with nonzero Miller value, Pairing(-P,Q) * Pairing(P,Q) = 1.", "quantifier": "all pairs of finite points", "why_tests_cant": "identity over all of GF(q^12)", "anchors": ["pairing.go:Pairing", "g1.go:G1Projective.NegAssign"]}
{"id": "C57", "title": "VerifyAggregateCommon is Verify under the aggregate key", "statement": "VerifyAggregateCommon(keys,m) (and ...WithDomain) gives the same verdict as Verify with AggregatePublicKeys(keys), for any order of the keys.", "quantifier": "all lists of keys, all permutations", "why_tests_cant": "unbounded lists and permutations; different projective representatives", "anchors": ["g1pubs/bls.go:Signature.VerifyAggregateCommon", "g2pubs/bls.go:Signature.VerifyAggregateCommon"]}
{"id": "C58", "title": "The curve and field constants are right", "statement": "q and r are prime; FQR2, FRR2, montInv constants, BCoeff, generators, negativeOne, qMinus1Over2, qMinus3Over4, rMinus1Over2, cofactors, roots and tables have the values their names claim; generators are on the curve and have order r.", "quantifier": "primality ranges over all potential divisors", "why_tests_cant": "primality of 381- and 255-bit numbers is a statement about all divisors", "anchors": ["fq.go:QFieldModulus", "fq.go:FQR2", "fr.go:RFieldModulus", "fr.go:FRR2", "g1.go:BCoeff", "g1.go:g1GeneratorX", "fq2.go:negativeOne"]}
{"id": "C59", "title": "Public-key equality and re-serialization", "statement": "PublicKey.Equals is true iff the keys serialize to the same bytes (for keys on the curve), so maps keyed by serialized keys agree with Equals.", "quantifier": "all pairs of public keys in any projective representation", "why_tests_cant": "infinitely many representatives", "anchors": ["g1pubs/bls.go:PublicKey.Equals", "g1pubs/bls.go:PublicKey.Serialize", "g2pubs/bls.go:PublicKey.Equals"]}
{"id": "C60", "title": "String renders the canonical residue", "statement": "FQRepr.String / FRRepr.String print exactly the zero-padded 96/64-digit hexadecimal of the integer, so equal strings mean equal values and FQReprFromString(f.String(),16) = f.", "quantifier": "all representations", "why_tests_cant": "all 2^384 values", "anchors": ["fqrepr.go:FQRepr.String", "fqrepr.go:FQReprFromString", "frrepr.go:FRRepr.String"]}
{"id": "C61", "title": "Pairing is bilinear", "statement": "For non-identity P, P' in the order-r subgroup of G1 and Q, Q' in that of G2: Pairing(P+P',Q) = Pairing(P,Q)*Pairing(P',Q) (when P+P' is not the identity), Pairing(P,Q+Q') = Pairing(P,Q)*Pairing(P,Q'), and Pairing(aP,bQ) = Pairing(P,Q)^(ab).", "quantifier": "all points of the order-r subgroups, all scalars", "why_tests_cant": "an algebraic identity over groups of 2^255 elements; sampled vectors cover a negligible part", "anchors": ["pairing.go:Pairing", "pairing.go:MillerLoop", "pairing.go:FinalExponentiation"]}
{"id": "C62", "title": "Pairing is not degenerate", "statement": "For non-identity P, Q of the order-r subgroups Pairing(P,Q) returns a value different from one.", "quantifier": "all points of the order-r subgroups", "why_tests_cant": "needs the order of the groups and of the generators' pairing", "anchors": ["pairing.go:Pairing"]}
{"id": "C63", "title": "Verify accepts exactly the signature of the secret key", "statement": "For a message whose hash point h is a non-identity subgroup point and a public key P = k*G, Verify(m,P,S) is true iff S = k*h; so under one key exactly one signature point is accepted per message, and Verify never answers true for a forged or mauled signature point (both packages and the domain variant).", "quantifier": "all keys, messages and subgroup signature points", "why_tests_cant": "soundness quantifies over all 2^255 wrong signatures", "anchors": ["g1pubs/bls.go:Verify", "g2pubs/bls.go:Verify", "g1pubs/bls.go:VerifyWithDomain"]}
{"id": "C64", "title": "VerifyAggregate accepts exactly the sum of the signatures", "statement": "For distinct non-empty messages with good hash points and keys P_i = k_i*G, VerifyAggregate(S) is true iff S = sum k_i*h_i; VerifyAggregateCommon is true iff S = (sum k_i)*h (also the WithDomain variants).", "quantifier": "all numbers of signers, keys, messages and subgroup signature points", "why_tests_cant": "unbounded lists and a universally quantified wrong aggregate", "anchors": ["g1pubs/bls.go:Signature.VerifyAggregate", "g1pubs/bls.go:Signature.VerifyAggregateCommon", "g1pubs/bls.go:Signature.VerifyAggregateWithDomain", "g2pubs/bls.go:Signature.VerifyAggregate"]}
{"id": "C65", "title": "Subgroup points are exactly the public keys", "statement": "The points that pass the subgroup check are exactly the multiples k*G of the generator with 0 <= k < r, r of them, each for one k: every non-identity point accepted by DecompressG1/G2 is the public key of exactly one secret key.", "quantifier": "all curve points", "why_tests_cant": "a statement about all points of curves with 2^381 and 2^762 points", "anchors": ["g1.go:G1Affine.IsInCorrectSubgroupAssumingOnCurve", "g2.go:G2Affine.IsInCorrectSubgroupAssumingOnCurve", "g1pubs/bls.go:PrivToPub"]}
{"id": "C66", "title": "Cofactor clearing lands in the subgroup", "statement": "ScaleByCofactor, ClearH and clearH2 map every (finite) curve point to a point of order dividing r; ClearH multiplies by 1-x.", "quantifier": "all curve points", "why_tests_cant": "all points of both curves; needs the group structure", "anchors": ["g1.go:G1Affine.ScaleByCofactor", "g2.go:G2Affine.ScaleByCofactor", "hash.go:ClearH", "hash.go:clearH2"]}
{"id": "C67", "title": "Identity keys and signatures make Verify panic", "statement": "Verify never answers for an identity public key or signature: the Miller loop panics (so a zero secret key can not be used, and an attacker supplying the encoding of infinity crashes the verifier).", "quantifier": "all messages and counterparts", "why_tests_cant": "panic freedom is universally quantified", "anchors": ["pairing.go:MillerLoop", "g1pubs/bls.go:Verify", "g2pubs/bls.go:Verify"]}
{"id": "C68", "title": "Assembly routines preserve the frame pointer", "statement": "Each assembly function returns with the value of BP it was entered with: BP is callee-saved in Go's calling convention, and the assembler saves it only for functions with a nonzero frame size.", "quantifier": "all machine states at entry", "why_tests_cant": "a clobbered frame pointer is invisible to the results; it only breaks stack walks that happen during the call", "anchors": ["primitivefuncs_amd64.s:MACWithCarry", "primitivefuncs_amd64.s:MultiplyFQRepr", "primitivefuncs_amd64.s:AddNoCarry", "primitivefuncs_amd64.s:SubNoBorrow"]}
{"id": "C69", "title": "Exactly one byte string is a valid signature", "statement": "Fix a message whose hash point is a non-identity subgroup point and a nonzero key k. In g2pubs a 48-byte string is accepted by DeserializeSignature and then by Verify iff it is Serialize(Sign(m,k)). In g1pubs the same holds for 96-byte strings whose two x-coefficients are below q (flags removed), and for all 96-byte strings if neither x-coefficient of the signature is zero: there is no second encoding of a valid signature.", "quantifier": "all keys, messages and byte strings of the right length", "why_tests_cant": "strong unforgeability at the byte level: all 2^384 (2^768) strings; malleability through encodings is exactly what a test with honest bytes misses", "anchors": ["g1pubs/bls.go:DeserializeSignature", "g2pubs/bls.go:DeserializeSignature", "g1pubs/bls.go:Verify", "g2pubs/bls.go:Verify", "g1.go:DecompressG1", "g2.go:DecompressG2"]}
{"id": "C70", "title": "Signatures and keys survive the wire", "statement": "For a good message and a nonzero key, deserializing the serialized public key and the serialized signature succeeds for both, and Verify accepts the two results.", "quantifier": "all keys and messages", "why_tests_cant": "all keys; combines the codec, the subgroup check and the pairing", "anchors": ["g1pubs/bls.go:PublicKey.Serialize", "g1pubs/bls.go:DeserializePublicKey", "g1pubs/bls.go:Signature.Serialize", "g1pubs/bls.go:DeserializeSignature", "g2pubs/bls.go:PublicKey.Serialize", "g2pubs/bls.go:DeserializePublicKey"]}
{"id": "C71", "title": "Rogue keys", "statement": "VerifyAggregateCommon and VerifyAggregateWithDomain offer no protection against rogue keys: whoever holds a secret key x can, for every other key P, publish R = x*G - P (a valid subgroup point) and make the list [P, R] accept their own signature on m as an aggregate signature by both. VerifyAggregate rejects this because the two messages are equal; VerifyAggregateWithDomain does not look for equal messages.", "quantifier": "all victim keys, attacker keys and messages", "why_tests_cant": "an attack that succeeds for every victim key is a universally quantified statement about acceptance", "anchors": ["g1pubs/bls.go:Signature.VerifyAggregateCommon", "g1pubs/bls.go:Signature.VerifyAggregateWithDomain", "g1pubs/bls.go:Signature.VerifyAggregate", "g2pubs/bls.go:Signature.VerifyAggregateCommon"]}
{"id": "C72", "title": "The package's points at infinity never change", "statement": "No sequence of calls of ToAffine, Copy, Neg and SetRawBytes, on pointers obtained from such calls, changes the value of G1AffineZero or G2AffineZero.", "quantifier": "all finite sequences of calls", "why_tests_cant": "needs a particular sequence of calls through an alias; all call sequences", "anchors": ["g1.go:G1Projective.ToAffine", "g2.go:G2Projective.ToAffine", "g1.go:G1Affine.SetRawBytes", "g2.go:G2Affine.SetRawBytes"]}
{"id": "C73", "title": "VerifyAggregate leaves the caller's slices alone", "statement": "Whatever swaps sort.Sort performs, VerifyAggregate changes no byte and no element of the caller's message slice or of any other existing memory; and if the swaps leave the copy sorted, the verdict is the one of the value-level function.", "quantifier": "all memory contents, message lists and swap sequences", "why_tests_cant": "unbounded lists and all sorting behaviours; a corrupted caller slice is invisible to tests that look only at the verdict", "anchors": ["g1pubs/bls.go:Signature.VerifyAggregate", "g2pubs/bls.go:Signature.VerifyAggregate", "g1pubs/bls.go:sortableByteArray.Swap"]}
{"id": "C74", "title": "The assembly file is what its generator emits", "statement": "For every function of primitivefuncs_amd64.s there is an assignment of physical registers to the virtual registers of asm/asm.go under which the emitted instruction list is exactly the one in the file; MontReduce has a frame of 12 words.", "quantifier": "all instructions of all seven functions", "why_tests_cant": "the generator is excluded from the build (build tag ignore); no test compares its output with the checked-in file", "anchors": ["asm/asm.go:main", "asm/asm.go:muladdc", "asm/asm.go:muladdcConst", "primitivefuncs_amd64.s:MontReduce", "primitivefuncs_amd64.s:MultiplyFQRepr"]}
{"id": "C75", "title": "Keys and signatures change only as receivers of Aggregate", "statement": "In every history of calls (constructors, Copy, GetPoint, Aggregate, AggregateSignatures/AggregatePublicKeys, and negation of points obtained from GetPoint) a PublicKey or Signature keeps its value until it is the receiver of Aggregate, which adds the argument's value. A SecretKey keeps its value as long as the caller uses only the functions of its own package.", "quantifier": "all histories of calls", "why_tests_cant": "aliasing bugs need a particular interleaving of calls on shared objects", "anchors": ["g1pubs/bls.go:Signature.Aggregate", "g1pubs/bls.go:AggregateSignatures", "g1pubs/bls.go:PublicKey.GetPoint", "g1pubs/bls.go:SecretKey.GetFRElement", "g2pubs/bls.go:PublicKey.Aggregate"]}
{"id": "C76", "title": "FQ12 elements are changed only by methods called on them", "statement": "In every history of calls of FQ12 methods, MillerLoop, FinalExponentiation, Pairing and CompareTwoPairings, a call changes the value of no FQ12 element except its receiver, which gets the result of the field operation even when receiver and argument are one object; the package variables FQ12Zero and FQ12One keep their values.", "quantifier": "all histories of calls", "why_tests_cant": "FQ12 elements are pairs of pointers: sharing of halves between elements shows only after particular sequences of calls", "anchors": ["fq12.go:NewFQ12", "fq12.go:FQ12.Copy", "fq12.go:FQ12.MulAssign", "fq12.go:FQ12.InverseAssign", "fq12.go:FQ12.Exp", "pairing.go:MillerLoop", "pairing.go:FinalExponentiation"]}
{"id": "C77", "title": "The random generators are unbiased and total", "statement": "On every io.Reader, RandFQ and RandFR return the first window of 48 (32) bytes whose low 381 (255) bits are below the modulus, in canonical form, and fail only if the reader ends before; every field element is produced by the same number of windows; the result does not depend on how the reader splits its bytes. RandFQ2/6/12 are consecutive draws. RandG1 and RandG2 terminate and return a subgroup point. RandKey returns a usable key.", "quantifier": "all readers (sequences of chunks)", "why_tests_cant": "uniformity is a count over 2^384 windows; termination and chunking quantify over all readers", "anchors": ["fq.go:RandFQ", "fr.go:RandFR", "fq2.go:RandFQ2", "fq6.go:RandFQ6", "fq12.go:RandFQ12", "g1.go:RandG1", "g2.go:RandG2", "g1pubs/bls.go:RandKey", "g2pubs/bls.go:RandKey"]}
{"id": "C78", "title": "Numerals are read exactly or rejected", "statement": "For every string and every base from 2 to 62, FQReprFromString (FRReprFromString) succeeds exactly if the string is an optional sign followed by a non-empty string of digits of that base denoting n with 0 <= n < 2^384 (2^256), and then returns n; otherwise it returns an error. The unchecked variants return the same value or panic. Any other base except 0 panics (unless the string is empty, which is an error). What String prints is read back in base 16. Every numeral in the initialisers of the package variables is read to the constant the model uses.", "quantifier": "all strings and all bases except 0", "why_tests_cant": "strings and bases are unbounded; the initialisers drop the error, so a bad literal would silently become zero", "anchors": ["fqrepr.go:FQReprFromString", "fqrepr.go:fqReprFromHexUnchecked", "fqrepr.go:fqReprFromStringUnchecked", "frrepr.go:FRReprFromString", "hash.go:xNum11", "g2.go:g2Cofactor"]}
{"id": "C79", "title": "Printed forms identify values", "statement": "String of a canonical FQ or FR element shows its value in hexadecimal; String of FQ2, FQ6 and FQ12 elements is injective; two G1 or G2 points, affine or projective (hence two public keys or two signatures), print the same text if and only if they represent the same point.", "quantifier": "all canonical elements and all representations of points", "why_tests_cant": "injectivity is a statement about all pairs", "anchors": ["fq.go:FQ.String", "fr.go:FR.String", "fq2.go:FQ2.String", "fq6.go:FQ6.String", "fq12.go:FQ12.String", "g1.go:G1Affine.String", "g1.go:G1Projective.String", "g2.go:G2Affine.String", "g2.go:G2Projective.String", "g1pubs/bls.go:PublicKey.String", "g1pubs/bls.go:Signature.String", "g2pubs/bls.go:PublicKey.String"]}
{"id": "C80", "title": "Sorting the messages: the order is proper and any correct algorithm gives the same verdict", "statement": "Less of sortableByteArray is the strict total order of bytes.Compare on the byte strings and panics exactly on an index out of range. Insertion sort and sort.IsSorted, run on it, terminate, and the first leaves the slice sorted while the second answers whether it is. Every algorithm that works through Less and Swap only and sorts all slices of integers sorts the messages, and VerifyAggregate with it leaves the caller's slices unchanged and returns the verdict of the specification.", "quantifier": "all memories, slices and sorting algorithms", "why_tests_cant": "the sorting algorithm of the standard library changes between Go versions; tests see one of them on few slices", "anchors": ["g1pubs/bls.go:sortableByteArray.Less", "g1pubs/bls.go:sortableByteArray.Swap", "g1pubs/bls.go:sortByteArrays", "g1pubs/bls.go:Signature.VerifyAggregate", "g2pubs/bls.go:sortableByteArray.Less", "g2pubs/bls.go:Signature.VerifyAggregate"]}
{"id": "C81", "title": "The functions of the package, from the word arithmetic to the signatures, compute the specified functions when their statements are run one by one from the source text", "statement": "Run the body of a function of stub_fallback.go, bititerator.go, fqrepr.go, frrepr.go, fq.go, fr.go, fq2.go, fq6.go, fq12.go, g1.go, g2.go, pairing.go, hash.go, g1pubs/bls.go or g2pubs/bls.go statement by statement, as written in the repository, on any receiver and any arguments: the run ends (without panic, or with the stated panic), the results are those of the function stated for it, the receiver holds the stated new value, and every other argument passed by pointer is as before. This includes the multiplication and the Montgomery reduction word by word, the shifts, the conversions from and to bytes, text and big.Int with their errors and panics, the loops of Exp and Inverse of the two prime fields, the loops of Mul, MulFR, MulBig, Exp, MulBits over exponents of full width, the squaring by x.MulAssign(x), the Miller loop over any list of pairs, the final exponentiation, the preparation of a point, the tables of the Frobenius maps with their index, the byte encodings, the hashing of messages to field elements, the SWU maps, the isogenies with their coefficient tables and the search of HashG2WithDomain, and in the signature packages the sums over slices, the copying and screening of the messages in VerifyAggregate, and the panics for a nil secret key.", "quantifier": "every field arithmetic, receiver, argument and number of loop turns", "why_tests_cant": "a test compares outputs for a few inputs; it cannot show that no statement order, wrong variable, missing Copy or index slip matters for any input", "anchors": ["stub_fallback.go:11-155", "bititerator.go:10-24", "fqrepr.go:11-277", "frrepr.go:11-249", "fq.go:32-340", "fr.go:20-344", "fq2.go:1-285", "fq6.go:1-368", "fq12.go:1-237", "g1.go:1-560", "g2.go:1-620", "pairing.go:1-147", "hash.go:1-411", "g1pubs/bls.go:1-311", "g2pubs/bls.go:1-278"]}
