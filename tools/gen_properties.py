#!/usr/bin/env python3
# Regenerates /verif/properties.jsonl (one JSON object per line).
import json
P=[]
def p(title,statement,quantifier,why,*anchors):
    P.append(dict(id="C%02d"%(len(P)+1),title=title,statement=statement,quantifier=quantifier,why_tests_cant=why,anchors=list(anchors)))

p("Word primitives are exact",
  "AddWithCarry(a,b,c) returns (s,k) with s + 2^64*k = a+b+c; MACWithCarry(a,b,c,k) returns (o,k') with o + 2^64*k' = a + b*c + k; SubWithBorrow(a,b,w) with w in {0,1} returns (d,w') with d - 2^64*w' = a-b-w. No carry is ever lost.",
  "all 64-bit words a, b, c and all carries (borrow 0 or 1)",
  "2^256 input combinations; carry-loss bugs sit on boundaries random tests do not hit",
  "stub_fallback.go:AddWithCarry","stub_fallback.go:SubWithBorrow","stub_fallback.go:MACWithCarry")
p("MultiplyFQRepr is the exact 768-bit product",
  "MultiplyFQRepr(a,b) = (hi,lo) with hi*2^384 + lo = a*b, where a,b,hi,lo are read as little-endian 64-bit limb integers.",
  "all pairs of 384-bit operands",
  "2^768 operand pairs; a single wrong carry chain is only visible on rare limb patterns",
  "stub_fallback.go:MultiplyFQRepr")
p("MontReduce is Montgomery reduction",
  "For every 768-bit value T = hi*2^384+lo with T < q*2^384, MontReduce(hi,lo) < 2q and MontReduce(hi,lo)*2^384 = T (mod q); after the conditional subtraction the result is the unique canonical residue.",
  "all 768-bit values below q*2^384",
  "carry propagation over 6 rounds; failures would occur on a 2^-64 fraction of inputs",
  "stub_fallback.go:MontReduce","fq.go:FQ.montReduce","fq.go:FQ.reduceAssign")
p("AddNoCarry/SubNoBorrow are addition/subtraction modulo 2^384",
  "AddNoCarry(a,b) = a+b mod 2^384 and SubNoBorrow(a,b) = a-b mod 2^384 as integers, for both the portable code and the FQRepr/FRRepr methods (mod 2^256 for FRRepr).",
  "all operand pairs",
  "carry/borrow chains across all limbs",
  "stub_fallback.go:AddNoCarry","stub_fallback.go:SubNoBorrow","frrepr.go:FRRepr.AddNoCarry","frrepr.go:FRRepr.SubNoBorrow")
p("amd64 assembly and portable Go agree",
  "Each function of primitivefuncs_amd64.s, executed instruction by instruction, returns exactly what the portable stub_fallback.go function of the same name returns (SubWithBorrow for borrow in {0,1}, the range math/bits.Sub64 documents).",
  "all machine states at entry and all operand values",
  "the two builds never run on the same machine in one test run; divergence could be on rare carries, clobbered registers or flags",
  "primitivefuncs_amd64.s","stub_fallback.go")
p("FQRepr/FRRepr integer operations",
  "Lsh(n), Rsh(n), Mul2, Div2, Cmp, Equals, IsZero, IsOdd, IsEven, BitLen and Bit(n) implement the operations of the same name on the unsigned integer represented by the limbs (shifts for every n, including n>=384 and multiples of 64; truncation modulo 2^384 / 2^256).",
  "all limb values and all shift amounts",
  "all shift amounts times all values; word-boundary shifts are classic untested cases",
  "fqrepr.go:FQRepr.Rsh","fqrepr.go:FQRepr.Lsh","fqrepr.go:FQRepr.Cmp","fqrepr.go:FQRepr.BitLen","fqrepr.go:FQRepr.Bit","frrepr.go")
p("Repr byte and big.Int codecs round-trip",
  "FQReprFromBytes(f.Bytes()) = f and FQReprFromBytes(b).Bytes() = b; bytes are the 48-byte big-endian integer; FQReprFromBigInt(f.ToBig()) = f, FQReprFromBigInt errors exactly on negative or >384-bit numbers; same for FRRepr with 32 bytes/256 bits.",
  "all representations, all 48/32-byte strings, all integers",
  "codec inverses must hold for every one of 2^384 values",
  "fqrepr.go:FQReprFromBytes","fqrepr.go:FQRepr.Bytes","fqrepr.go:FQReprFromBigInt","fqrepr.go:FQRepr.ToBig","frrepr.go")
p("FQ elements stay canonical",
  "Any value obtained from canonical FQ values (integer < q) by any finite sequence of FQReprToFQ, AddAssign, SubAssign, MulAssign, SquareAssign, DoubleAssign, NegAssign, Exp, Inverse, Sqrt, DivAssign is canonical, so Equals is equality of residues.",
  "all finite sequences of field operations",
  "histories of unbounded length",
  "fq.go")
p("FQ arithmetic is arithmetic modulo q",
  "AddAssign, SubAssign, MulAssign, SquareAssign, DoubleAssign, NegAssign on canonical elements compute sum, difference, product, square, double and negation modulo q of the represented residues; ToRepr(FQReprToFQ(n)) = n for n<q and FQReprToFQ(n) = 0 for n >= q.",
  "all canonical field elements, all 384-bit integers",
  "2^762 operand pairs",
  "fq.go:FQ.AddAssign","fq.go:FQ.SubAssign","fq.go:FQ.MulAssign","fq.go:FQ.SquareAssign","fq.go:FQ.NegAssign","fq.go:FQ.DoubleAssign","fq.go:FQ.ToRepr","fq.go:FQReprToFQ")
p("FQ.Inverse terminates and inverts every nonzero element",
  "For every canonical nonzero f, f.Inverse() terminates and returns (g,true) with f*g = 1; for zero it returns (0,false). DivAssign multiplies by that inverse.",
  "all canonical elements; the loop has no static bound",
  "termination and correctness of a data-dependent loop over 2^381 values",
  "fq.go:FQ.Inverse","fq.go:FQ.DivAssign")
p("FQ.Inverse on non-canonical input",
  "FQReprToFQRaw accepts any 384-bit integer; Inverse should return for each of them.",
  "all raw 384-bit representations",
  "divergence cannot be observed by a finite test and only special values trigger it",
  "fq.go:FQ.Inverse","fq.go:FQReprToFQRaw")
p("Exp is exponentiation",
  "f.Exp(n) = f^n for the integer n represented by the FQRepr/FRRepr, for FQ, FR, FQ2 and FQ12.",
  "all canonical bases and all exponents up to the representation width",
  "2^381 bases times 2^384 exponents",
  "fq.go:FQ.Exp","fq2.go:FQ2.Exp","fq12.go:FQ12.Exp","fr.go:FR.Exp")
p("FQ.Sqrt decides squareness and returns a root",
  "f.Sqrt() returns (s,true) with s*s = f when f is a square in GF(q) (including 0) and (_,false) otherwise.",
  "all canonical elements",
  "needs number theory over all q residues, including primality of q",
  "fq.go:FQ.Sqrt")
p("FQ.Legendre is the Legendre symbol",
  "f.Legendre() is LegendreZero for 0, QuadraticResidue for nonzero squares and NonResidue otherwise; the same for FR (while the package globals are intact) and, through the norm, FQ2.",
  "all canonical elements",
  "needs Euler's criterion for all residues",
  "fq.go:FQ.Legendre","fr.go:FR.Legendre","fq2.go:FQ2.Legendre")
p("Ordering, parity and equality of field elements",
  "Cmp orders FQ elements by their integer residue and FQ2 elements lexicographically by (c1,c0); Equals is true iff the elements are the same; Parity(f) is true iff f > -f, and exactly one of f, -f has parity when f is nonzero.",
  "all canonical elements",
  "must hold for every pair",
  "fq.go:FQ.Cmp","fq.go:FQ.Parity","fq2.go:FQ2.Cmp","fq2.go:FQ2.Equals","fq2.go:FQ2.Parity")
p("FR arithmetic is arithmetic modulo r",
  "FR AddAssign, SubAssign, MulAssign, SquareAssign, DoubleAssign, NegAssign, Exp and Inverse compute the corresponding operation modulo r; ToRepr(FRReprToFR(n)) = n for n<r.",
  "all canonical scalars",
  "2^510 operand pairs",
  "fr.go")
p("FR API calls do not corrupt package state",
  "After any sequence of calls to FR methods the package-level constants used by Exp, Legendre and HashFR (the Montgomery one and zero) are unchanged, so later calls give the same results as earlier ones.",
  "all finite sequences of FR API calls",
  "history property: state corruption shows only after particular call sequences",
  "fr.go:FR.Sqrt","fr.go:FRReprToFR","fr.go:bigOneFR")
p("FRReprToFR / KeyFromFQRepr leave the caller's value intact",
  "Converting an FRRepr to an FR (FRReprToFR, KeyFromFQRepr) does not change the caller's FRRepr, so converting the same FRRepr twice gives two equal scalars.",
  "all scalars and call sequences",
  "aliasing between caller and callee memory over histories",
  "fr.go:FRReprToFR","g1pubs/bls.go:KeyFromFQRepr","g2pubs/bls.go:KeyFromFQRepr")
p("FQ2 is GF(q^2)",
  "FQ2 operations implement arithmetic of GF(q)[u]/(u^2+1): Add, Sub, Neg, Double, Mul, Square, MultiplyByNonresidue (by 1+u), Norm; InverseAssign succeeds exactly on nonzero elements and then returns the inverse, leaving the element unchanged on failure.",
  "all FQ2 elements with canonical coefficients",
  "2^1524 operand pairs",
  "fq2.go")
p("FQ2.Sqrt decides squareness in GF(q^2) and returns a root",
  "f.Sqrt() returns (s,true) with s^2=f iff f is a square in GF(q^2), else (_,false).",
  "all FQ2 elements with canonical coefficients",
  "needs finite-field theory over q^2 elements",
  "fq2.go:FQ2.Sqrt")
p("FQ6 is GF(q^6)",
  "FQ6 Add, Sub, Neg, Double, Mul, Square, MulByNonresidue, MulBy1, MulBy01 implement arithmetic of GF(q^2)[v]/(v^3-(1+u)) when operands are distinct objects; InverseAssign succeeds exactly on nonzero elements and returns the inverse.",
  "all FQ6 elements",
  "Karatsuba/Toom style formulas over 2^4572 operand pairs",
  "fq6.go")
p("FQ6.Exp is exponentiation / FQ6.MulAssign tolerates aliasing",
  "f.MulAssign(f) squares f, and f.Exp(n) = f^n in GF(q^6).",
  "all FQ6 elements and exponents, including receiver and argument being the same object",
  "aliasing between receiver and argument",
  "fq6.go:FQ6.MulAssign","fq6.go:FQ6.Exp")
p("FQ12 is GF(q^12)",
  "FQ12 Add, Sub, Neg, Double, Mul (aliased or not), Square, Conjugate, MulBy014, Exp implement arithmetic of GF(q^6)[w]/(w^2-v); InverseAssign succeeds exactly on nonzero elements and returns the inverse.",
  "all FQ12 elements",
  "formulas over 2^9144 operand pairs",
  "fq12.go")
p("Frobenius maps are q^k-th powers",
  "x.FrobeniusMapAssign(k) computes x^(q^k) in FQ2, FQ6 and FQ12 for every uint8 power k (the tables of hard-coded constants are right and indexed correctly).",
  "all elements, all powers 0..255",
  "x^q for all x needs field theory, exponent q^k is astronomically large",
  "fq2.go:FQ2.FrobeniusMapAssign","fq6.go:FQ6.FrobeniusMapAssign","fq12.go:FQ12.FrobeniusMapAssign")
p("G1/G2 Double, Add and AddAffine implement the elliptic-curve group law",
  "For all points on the curve in any Jacobian representation, Double, Add and AddAffine return a representation of the chord-and-tangent sum, including when an operand is infinity, the operands are equal, or opposite; the result is again on the curve.",
  "all pairs of curve points and all projective representations of them",
  "2^1500+ operand pairs with exceptional cases of negligible random probability",
  "g1.go:G1Projective.Double","g1.go:G1Projective.Add","g1.go:G1Projective.AddAffine","g2.go:G2Projective.Double","g2.go:G2Projective.Add","g2.go:G2Projective.AddAffine")
p("ToAffine/ToProjective/Equal respect the represented point",
  "ToAffine returns the affine point represented, ToAffine(ToProjective(P)) = P, and G1Projective.Equal / G2Projective.Equals are true iff both operands represent the same point (independently of z).",
  "all projective representations",
  "infinitely many representatives per point",
  "g1.go:G1Projective.ToAffine","g1.go:G1Projective.Equal","g2.go:G2Projective.ToAffine","g2.go:G2Projective.Equals")
p("Affine Equals is equality of points",
  "G1Affine.Equals and G2Affine.Equals return true iff the two affine points are equal.",
  "all pairs of affine points",
  "needs all pairs; existing tests only compare equal points",
  "g1.go:G1Affine.Equals","g2.go:G2Affine.Equals")
p("Addition of curve points is an abelian group",
  "On G1 and G2 curve points, the represented point of Add is associative and commutative with the point at infinity as neutral element and NegAssign as inverse.",
  "all triples of curve points",
  "associativity over all triples including all degenerate cases",
  "g1.go:G1Projective.Add","g2.go:G2Projective.Add","g1.go:G1Projective.NegAssign")
p("Mul/MulFR/MulBig is scalar multiplication",
  "P.Mul(k), P.MulFR(k) and P.MulBig(k) represent k*P (k-fold sum) for affine and projective P on the curve.",
  "all points and all 384/256-bit scalars",
  "2^256 scalars times 2^381 points",
  "g1.go:G1Affine.Mul","g1.go:G1Affine.MulFR","g1.go:G1Projective.MulFR","g2.go:G2Affine.MulBig","g2.go:G2Affine.MulFR")
p("Subgroup check is exact",
  "IsInCorrectSubgroupAssumingOnCurve returns true iff r*P is the point at infinity; the generators pass it; cofactor constants are right.",
  "all curve points",
  "needs scalar multiplication for all points",
  "g1.go:G1Affine.IsInCorrectSubgroupAssumingOnCurve","g2.go:G2Affine.IsInCorrectSubgroupAssumingOnCurve","g1.go:frChar")
p("GetG1PointFromX / GetG2PointFromX recover exactly the curve point",
  "GetG?PointFromX(x,greatest) succeeds iff x^3+b is a square; the result has that x, lies on the curve, and its y is the lexicographically larger root iff greatest is set.",
  "all x-coordinates and both flags",
  "all x in GF(q) / GF(q^2)",
  "g1.go:GetG1PointFromX","g2.go:GetG2PointFromX")
p("G1 compression round-trips and is non-malleable",
  "DecompressG1(CompressG1(P)) = P for every P in the subgroup (and infinity), and DecompressG1(b) = P implies CompressG1(P) = b, so each key/signature has exactly one accepted encoding; anything else is an error, never a panic.",
  "all subgroup points and all 2^384 byte strings",
  "all 48-byte strings",
  "g1.go:CompressG1","g1.go:DecompressG1","g1.go:DecompressG1Unchecked")
p("G2 compression round-trips",
  "DecompressG2(CompressG2(P)) = P for every P in the subgroup, and for inputs with canonical coordinates DecompressG2(b)=P implies CompressG2(P)=b.",
  "all subgroup points and all 96-byte strings",
  "all 2^768 strings",
  "g2.go:CompressG2","g2.go:DecompressG2")
p("Unchecked decompression rejects non-canonical x",
  "DecompressG1Unchecked / DecompressG2Unchecked return an error when an encoded coordinate is not smaller than q.",
  "all byte strings",
  "needs out-of-range encodings, which encoders never produce",
  "g1.go:DecompressG1Unchecked","g2.go:DecompressG2Unchecked","fq.go:FQReprToFQ")
p("Uncompressed serialization round-trips",
  "SetRawBytes(SerializeBytes(P)) restores the coordinates of every finite point P, for G1Affine and G2Affine.",
  "all finite points",
  "all coordinates; no existing test covers G1",
  "g1.go:G1Affine.SerializeBytes","g1.go:G1Affine.SetRawBytes","g2.go:G2Affine.SerializeBytes","g2.go:G2Affine.SetRawBytes")
p("MillerLoop of several pairs is the product of single Miller loops",
  "For finite points MillerLoop(items) equals the product in GF(q^12) of the Miller loops of the individual items, it does not depend on their order, the empty list gives 1, and it never indexes outside the prepared coefficients.",
  "all lists of pairs of finite points",
  "lists of unbounded length",
  "pairing.go:MillerLoop","g2.go:G2AffineToPrepared")
p("MillerLoop skips pairs containing the point at infinity",
  "MillerLoop (hence Pairing, CompareTwoPairings, Verify) treats a pair with an infinity component as contributing 1 and does not panic.",
  "all inputs including points at infinity, which DecompressG1/G2 accept",
  "tests never pass infinity; a crash on a wire-decodable input is a denial of service",
  "pairing.go:MillerLoop","g1pubs/bls.go:Verify","g2pubs/bls.go:Verify")
p("FinalExponentiation is the power map into the r-th roots of unity",
  "FinalExponentiation(f) is nil exactly for f=0; otherwise it equals f^(3*(q^12-1)/r), is multiplicative in f, and its r-th power is 1.",
  "all FQ12 elements",
  "exponent has 4300 bits and the claim ranges over GF(q^12)",
  "pairing.go:FinalExponentiation")
p("CompareTwoPairings compares pairings",
  "For finite points whose Miller values are nonzero CompareTwoPairings(P1,Q1,P2,Q2) returns true iff Pairing(P1,Q1) = Pairing(P2,Q2).",
  "all quadruples of finite points",
  "relies on algebraic identities over all of GF(q^12)",
  "pairing.go:CompareTwoPairings","pairing.go:Pairing")
p("Honest signatures verify",
  "Verify(m, PrivToPub(k), Sign(m,k)) is true for every message and nonzero key; the same for VerifyAggregate, VerifyAggregateCommon with aggregated honest signatures, in g1pubs and g2pubs.",
  "all messages, keys and numbers of signers",
  "all keys and messages",
  "g1pubs/bls.go:Sign","g1pubs/bls.go:Verify","g2pubs/bls.go:Sign","g2pubs/bls.go:Verify")
p("VerifyAggregate input screening",
  "VerifyAggregate returns false when the numbers of keys and messages differ or when two messages are equal, and for distinct messages the verdict is decided by the pairing equation alone (whatever the order); the caller's slices are not modified.",
  "all lists of keys and messages",
  "unbounded lists; depends on sorting",
  "g1pubs/bls.go:Signature.VerifyAggregate","g2pubs/bls.go:Signature.VerifyAggregate","g1pubs/bls.go:sortByteArrays")
p("VerifyAggregate does not depend on the order of (key,message) pairs",
  "Permuting the (key,message) pairs consistently does not change the verdict of VerifyAggregate.",
  "all lists and all permutations",
  "all permutations of unbounded lists",
  "g1pubs/bls.go:Signature.VerifyAggregate","g2pubs/bls.go:Signature.VerifyAggregate")
p("Aggregation is order-independent summation",
  "AggregateSignatures/AggregatePublicKeys represent the group sum of the inputs, independent of order and grouping; aggregating nothing gives the identity.",
  "all finite lists of signatures/keys and all permutations",
  "unbounded lists, needs associativity of point addition",
  "g1pubs/bls.go:AggregateSignatures","g1pubs/bls.go:AggregatePublicKeys","g2pubs/bls.go:AggregateSignatures","g2pubs/bls.go:AggregatePublicKeys")
p("Key aggregation is a homomorphism",
  "The aggregate of the public keys of k1..kn is the public key of k1+...+kn mod r, and aggregating signatures of one message (on an r-torsion hash point) is the signature under the summed key.",
  "all lists of secret keys",
  "all keys, unbounded lists",
  "g1pubs/bls.go:PrivToPub","g1pubs/bls.go:AggregatePublicKeys","g1pubs/bls.go:Sign","fr.go:FR.AddAssign")
p("Secret-key serialization round-trips and rejects out-of-range input",
  "DeserializeSecretKey(k.Serialize()) = k for every key; for bytes encoding an integer >= r the result must be rejected rather than yield a key that panics on use.",
  "all 2^256 byte strings",
  "all 32-byte strings",
  "g1pubs/bls.go:DeserializeSecretKey","g1pubs/bls.go:SecretKey.Serialize","fr.go:FRReprToFR")
p("hash_to_field outputs are the canonical reductions",
  "HashSecretKey, and the hash-to-field step of HashG1/HashG2, return exactly the big-endian concatenation of the SHA-256 blocks reduced modulo r (resp. q), for every message and whatever SHA-256 returns.",
  "all messages, all 32-byte digests",
  "all digests including those that exceed the modulus",
  "hash.go:HashSecretKey","hash.go:hp","hash.go:hp2")
p("Simplified SWU map never panics and lands on the isogenous curve",
  "optimizedSWUMapHelper(t) never reaches its panic and returns a point of y^2 = x^3 + A'x + B'; OptimizedSWU2MapHelper(t) never panics, never returns nil and returns a point of its curve over GF(q^2).",
  "all t in GF(q) resp. GF(q^2)",
  "claim 'this should never happen' quantifies over the whole field",
  "g1.go:optimizedSWUMapHelper","g2.go:OptimizedSWU2MapHelper")
p("The 11- and 3-isogenies map the isogenous curves to G1/G2 curves",
  "iso11 and iso3 map every finite point of the auxiliary curve outside the kernel to a point on y^2=x^3+4 (resp. y^2=x^3+4(1+u)): all hard-coded coefficients are right.",
  "all points of the auxiliary curves",
  "polynomial identity over the whole field",
  "hash.go:iso11","hash.go:iso3")
p("HashG1/HashG2 return points on the curve",
  "For every message HashG1 (HashG2) returns a point on the G1 (G2) curve and never panics.",
  "all messages and hash values",
  "all hash outputs, including coincidences of the two mapped points",
  "hash.go:HashG1","hash.go:HashG2","hash.go:optimizedSWUMap","hash.go:ClearH","hash.go:clearH2")
p("SWEncodeG2 always returns a curve point",
  "SWEncodeG2(t) returns a non-nil point of the G2 curve for every t.",
  "all t in GF(q^2)",
  "the third candidate's error is ignored, so correctness for all t is a theorem about squares",
  "g2.go:SWEncodeG2")
p("HashG2WithDomain returns a curve point scaled by the cofactor",
  "Whenever HashG2WithDomain returns, its result represents cofactor * P for a point P on the curve whose x is the first x0+i with x^3+b square.",
  "all message hashes and domains",
  "search loop without static bound",
  "g2.go:HashG2WithDomain")
p("RandG1/RandG2 never return the identity",
  "RandG1 returns a non-identity point of the prime-order subgroup for every reader.",
  "all byte streams of the reader",
  "the failing x-coordinates have negligible probability",
  "g1.go:RandG1","g2.go:RandG2")
p("BitIterator enumerates the bits most significant first",
  "NewBitIterator(arr) followed by Next calls yields exactly the 64*len(arr) bits of the integer, most significant first, then (false,true) forever.",
  "all word arrays of any length and any number of calls",
  "unbounded lengths and call sequences",
  "bititerator.go")
p("MulBits/MulBytes multiply by the integer",
  "FQ.MulBits(b), FR.MulBits(b) and FQ2.MulBits(b) return the element times the integer b; MulBytes multiplies by the integer encoded by the bytes.",
  "all elements, all integers / byte strings",
  "all integers; the only tests use HashFQ-style smoke checks",
  "fq.go:FQ.MulBits","fq.go:FQ.MulBytes","fr.go:FR.MulBits","fq2.go:FQ2.MulBits")
p("G2Prepared always fits MillerLoop",
  "G2AffineToPrepared of any finite point yields exactly the number of coefficient triples MillerLoop consumes (no out-of-range panic, none left over).",
  "all finite G2 points",
  "loop bounds of two functions must match for all inputs",
  "g2.go:G2AffineToPrepared","pairing.go:MillerLoop")
p("Negating a G1 argument inverts the pairing",
  "For finite P,Q with nonzero Miller value, Pairing(-P,Q) * Pairing(P,Q) = 1.",
  "all pairs of finite points",
  "identity over all of GF(q^12)",
  "pairing.go:Pairing","g1.go:G1Projective.NegAssign")
p("VerifyAggregateCommon is Verify under the aggregate key",
  "VerifyAggregateCommon(keys,m) (and ...WithDomain) gives the same verdict as Verify with AggregatePublicKeys(keys), for any order of the keys.",
  "all lists of keys, all permutations",
  "unbounded lists and permutations; different projective representatives",
  "g1pubs/bls.go:Signature.VerifyAggregateCommon","g2pubs/bls.go:Signature.VerifyAggregateCommon")
p("The curve and field constants are right",
  "q and r are prime; FQR2, FRR2, montInv constants, BCoeff, generators, negativeOne, qMinus1Over2, qMinus3Over4, rMinus1Over2, cofactors, roots and tables have the values their names claim; generators are on the curve and have order r.",
  "primality ranges over all potential divisors",
  "primality of 381- and 255-bit numbers is a statement about all divisors",
  "fq.go:QFieldModulus","fq.go:FQR2","fr.go:RFieldModulus","fr.go:FRR2","g1.go:BCoeff","g1.go:g1GeneratorX","fq2.go:negativeOne")
p("Public-key equality and re-serialization",
  "PublicKey.Equals is true iff the keys serialize to the same bytes (for keys on the curve), so maps keyed by serialized keys agree with Equals.",
  "all pairs of public keys in any projective representation",
  "infinitely many representatives",
  "g1pubs/bls.go:PublicKey.Equals","g1pubs/bls.go:PublicKey.Serialize","g2pubs/bls.go:PublicKey.Equals")
p("String renders the canonical residue",
  "FQRepr.String / FRRepr.String print exactly the zero-padded 96/64-digit hexadecimal of the integer, so equal strings mean equal values and FQReprFromString(f.String(),16) = f.",
  "all representations",
  "all 2^384 values",
  "fqrepr.go:FQRepr.String","fqrepr.go:FQReprFromString","frrepr.go:FRRepr.String")
p("Pairing is bilinear",
  "For non-identity P, P' in the order-r subgroup of G1 and Q, Q' in that of G2: Pairing(P+P',Q) = Pairing(P,Q)*Pairing(P',Q) (when P+P' is not the identity), Pairing(P,Q+Q') = Pairing(P,Q)*Pairing(P,Q'), and Pairing(aP,bQ) = Pairing(P,Q)^(ab).",
  "all points of the order-r subgroups, all scalars",
  "an algebraic identity over groups of 2^255 elements; sampled vectors cover a negligible part",
  "pairing.go:Pairing","pairing.go:MillerLoop","pairing.go:FinalExponentiation")
p("Pairing is not degenerate",
  "For non-identity P, Q of the order-r subgroups Pairing(P,Q) returns a value different from one.",
  "all points of the order-r subgroups",
  "needs the order of the groups and of the generators' pairing",
  "pairing.go:Pairing")
p("Verify accepts exactly the signature of the secret key",
  "For a message whose hash point h is a non-identity subgroup point and a public key P = k*G, Verify(m,P,S) is true iff S = k*h; so under one key exactly one signature point is accepted per message, and Verify never answers true for a forged or mauled signature point (both packages and the domain variant).",
  "all keys, messages and subgroup signature points",
  "soundness quantifies over all 2^255 wrong signatures",
  "g1pubs/bls.go:Verify","g2pubs/bls.go:Verify","g1pubs/bls.go:VerifyWithDomain")
p("VerifyAggregate accepts exactly the sum of the signatures",
  "For distinct non-empty messages with good hash points and keys P_i = k_i*G, VerifyAggregate(S) is true iff S = sum k_i*h_i; VerifyAggregateCommon is true iff S = (sum k_i)*h (also the WithDomain variants).",
  "all numbers of signers, keys, messages and subgroup signature points",
  "unbounded lists and a universally quantified wrong aggregate",
  "g1pubs/bls.go:Signature.VerifyAggregate","g1pubs/bls.go:Signature.VerifyAggregateCommon","g1pubs/bls.go:Signature.VerifyAggregateWithDomain","g2pubs/bls.go:Signature.VerifyAggregate")
p("Subgroup points are exactly the public keys",
  "The points that pass the subgroup check are exactly the multiples k*G of the generator with 0 <= k < r, r of them, each for one k: every non-identity point accepted by DecompressG1/G2 is the public key of exactly one secret key.",
  "all curve points",
  "a statement about all points of curves with 2^381 and 2^762 points",
  "g1.go:G1Affine.IsInCorrectSubgroupAssumingOnCurve","g2.go:G2Affine.IsInCorrectSubgroupAssumingOnCurve","g1pubs/bls.go:PrivToPub")
p("Cofactor clearing lands in the subgroup",
  "ScaleByCofactor, ClearH and clearH2 map every (finite) curve point to a point of order dividing r; ClearH multiplies by 1-x.",
  "all curve points",
  "all points of both curves; needs the group structure",
  "g1.go:G1Affine.ScaleByCofactor","g2.go:G2Affine.ScaleByCofactor","hash.go:ClearH","hash.go:clearH2")
p("Identity keys and signatures make Verify panic",
  "Verify never answers for an identity public key or signature: the Miller loop panics (so a zero secret key can not be used, and an attacker supplying the encoding of infinity crashes the verifier).",
  "all messages and counterparts",
  "panic freedom is universally quantified",
  "pairing.go:MillerLoop","g1pubs/bls.go:Verify","g2pubs/bls.go:Verify")
p("Assembly routines preserve the frame pointer",
  "Each assembly function returns with the value of BP it was entered with: BP is callee-saved in Go's calling convention, and the assembler saves it only for functions with a nonzero frame size.",
  "all machine states at entry",
  "a clobbered frame pointer is invisible to the results; it only breaks stack walks that happen during the call",
  "primitivefuncs_amd64.s:MACWithCarry","primitivefuncs_amd64.s:MultiplyFQRepr","primitivefuncs_amd64.s:AddNoCarry","primitivefuncs_amd64.s:SubNoBorrow")
p("Exactly one byte string is a valid signature",
  "Fix a message whose hash point is a non-identity subgroup point and a nonzero key k. In g2pubs a 48-byte string is accepted by DeserializeSignature and then by Verify iff it is Serialize(Sign(m,k)). In g1pubs the same holds for 96-byte strings whose two x-coefficients are below q (flags removed), and for all 96-byte strings if neither x-coefficient of the signature is zero: there is no second encoding of a valid signature.",
  "all keys, messages and byte strings of the right length",
  "strong unforgeability at the byte level: all 2^384 (2^768) strings; malleability through encodings is exactly what a test with honest bytes misses",
  "g1pubs/bls.go:DeserializeSignature","g2pubs/bls.go:DeserializeSignature","g1pubs/bls.go:Verify","g2pubs/bls.go:Verify","g1.go:DecompressG1","g2.go:DecompressG2")
p("Signatures and keys survive the wire",
  "For a good message and a nonzero key, deserializing the serialized public key and the serialized signature succeeds for both, and Verify accepts the two results.",
  "all keys and messages",
  "all keys; combines the codec, the subgroup check and the pairing",
  "g1pubs/bls.go:PublicKey.Serialize","g1pubs/bls.go:DeserializePublicKey","g1pubs/bls.go:Signature.Serialize","g1pubs/bls.go:DeserializeSignature","g2pubs/bls.go:PublicKey.Serialize","g2pubs/bls.go:DeserializePublicKey")
p("Rogue keys",
  "VerifyAggregateCommon and VerifyAggregateWithDomain offer no protection against rogue keys: whoever holds a secret key x can, for every other key P, publish R = x*G - P (a valid subgroup point) and make the list [P, R] accept their own signature on m as an aggregate signature by both. VerifyAggregate rejects this because the two messages are equal; VerifyAggregateWithDomain does not look for equal messages.",
  "all victim keys, attacker keys and messages",
  "an attack that succeeds for every victim key is a universally quantified statement about acceptance",
  "g1pubs/bls.go:Signature.VerifyAggregateCommon","g1pubs/bls.go:Signature.VerifyAggregateWithDomain","g1pubs/bls.go:Signature.VerifyAggregate","g2pubs/bls.go:Signature.VerifyAggregateCommon")
p("The package's points at infinity never change",
  "No sequence of calls of ToAffine, Copy, Neg and SetRawBytes, on pointers obtained from such calls, changes the value of G1AffineZero or G2AffineZero.",
  "all finite sequences of calls",
  "needs a particular sequence of calls through an alias; all call sequences",
  "g1.go:G1Projective.ToAffine","g2.go:G2Projective.ToAffine","g1.go:G1Affine.SetRawBytes","g2.go:G2Affine.SetRawBytes")
p("VerifyAggregate leaves the caller's slices alone",
  "Whatever swaps sort.Sort performs, VerifyAggregate changes no byte and no element of the caller's message slice or of any other existing memory; and if the swaps leave the copy sorted, the verdict is the one of the value-level function.",
  "all memory contents, message lists and swap sequences",
  "unbounded lists and all sorting behaviours; a corrupted caller slice is invisible to tests that look only at the verdict",
  "g1pubs/bls.go:Signature.VerifyAggregate","g2pubs/bls.go:Signature.VerifyAggregate","g1pubs/bls.go:sortableByteArray.Swap")
p("The assembly file is what its generator emits",
  "For every function of primitivefuncs_amd64.s there is an assignment of physical registers to the virtual registers of asm/asm.go under which the emitted instruction list is exactly the one in the file; MontReduce has a frame of 12 words.",
  "all instructions of all seven functions",
  "the generator is excluded from the build (build tag ignore); no test compares its output with the checked-in file",
  "asm/asm.go:main","asm/asm.go:muladdc","asm/asm.go:muladdcConst","primitivefuncs_amd64.s:MontReduce","primitivefuncs_amd64.s:MultiplyFQRepr")
p("Keys and signatures change only as receivers of Aggregate",
  "In every history of calls (constructors, Copy, GetPoint, Aggregate, AggregateSignatures/AggregatePublicKeys, and negation of points obtained from GetPoint) a PublicKey or Signature keeps its value until it is the receiver of Aggregate, which adds the argument's value. A SecretKey keeps its value as long as the caller uses only the functions of its own package.",
  "all histories of calls",
  "aliasing bugs need a particular interleaving of calls on shared objects",
  "g1pubs/bls.go:Signature.Aggregate","g1pubs/bls.go:AggregateSignatures","g1pubs/bls.go:PublicKey.GetPoint","g1pubs/bls.go:SecretKey.GetFRElement","g2pubs/bls.go:PublicKey.Aggregate")
p("FQ12 elements are changed only by methods called on them",
  "In every history of calls of FQ12 methods, MillerLoop, FinalExponentiation, Pairing and CompareTwoPairings, a call changes the value of no FQ12 element except its receiver, which gets the result of the field operation even when receiver and argument are one object; the package variables FQ12Zero and FQ12One keep their values.",
  "all histories of calls",
  "FQ12 elements are pairs of pointers: sharing of halves between elements shows only after particular sequences of calls",
  "fq12.go:NewFQ12","fq12.go:FQ12.Copy","fq12.go:FQ12.MulAssign","fq12.go:FQ12.InverseAssign","fq12.go:FQ12.Exp","pairing.go:MillerLoop","pairing.go:FinalExponentiation")
p("The random generators are unbiased and total",
  "On every io.Reader, RandFQ and RandFR return the first window of 48 (32) bytes whose low 381 (255) bits are below the modulus, in canonical form, and fail only if the reader ends before; every field element is produced by the same number of windows; the result does not depend on how the reader splits its bytes. RandFQ2/6/12 are consecutive draws. RandG1 and RandG2 terminate and return a subgroup point. RandKey returns a usable key.",
  "all readers (sequences of chunks)",
  "uniformity is a count over 2^384 windows; termination and chunking quantify over all readers",
  "fq.go:RandFQ","fr.go:RandFR","fq2.go:RandFQ2","fq6.go:RandFQ6","fq12.go:RandFQ12","g1.go:RandG1","g2.go:RandG2","g1pubs/bls.go:RandKey","g2pubs/bls.go:RandKey")
p("Numerals are read exactly or rejected",
  "For every string and every base from 2 to 62, FQReprFromString (FRReprFromString) succeeds exactly if the string is an optional sign followed by a non-empty string of digits of that base denoting n with 0 <= n < 2^384 (2^256), and then returns n; otherwise it returns an error. The unchecked variants return the same value or panic. Any other base except 0 panics (unless the string is empty, which is an error). What String prints is read back in base 16. Every numeral in the initialisers of the package variables is read to the constant the model uses.",
  "all strings and all bases except 0",
  "strings and bases are unbounded; the initialisers drop the error, so a bad literal would silently become zero",
  "fqrepr.go:FQReprFromString","fqrepr.go:fqReprFromHexUnchecked","fqrepr.go:fqReprFromStringUnchecked","frrepr.go:FRReprFromString","hash.go:xNum11","g2.go:g2Cofactor")
p("Printed forms identify values",
  "String of a canonical FQ or FR element shows its value in hexadecimal; String of FQ2, FQ6 and FQ12 elements is injective; two G1 or G2 points, affine or projective (hence two public keys or two signatures), print the same text if and only if they represent the same point.",
  "all canonical elements and all representations of points",
  "injectivity is a statement about all pairs",
  "fq.go:FQ.String","fr.go:FR.String","fq2.go:FQ2.String","fq6.go:FQ6.String","fq12.go:FQ12.String","g1.go:G1Affine.String","g1.go:G1Projective.String","g2.go:G2Affine.String","g2.go:G2Projective.String","g1pubs/bls.go:PublicKey.String","g1pubs/bls.go:Signature.String","g2pubs/bls.go:PublicKey.String")
p("Sorting the messages: the order is proper and any correct algorithm gives the same verdict",
  "Less of sortableByteArray is the strict total order of bytes.Compare on the byte strings and panics exactly on an index out of range. Insertion sort and sort.IsSorted, run on it, terminate, and the first leaves the slice sorted while the second answers whether it is. Every algorithm that works through Less and Swap only and sorts all slices of integers sorts the messages, and VerifyAggregate with it leaves the caller's slices unchanged and returns the verdict of the specification.",
  "all memories, slices and sorting algorithms",
  "the sorting algorithm of the standard library changes between Go versions; tests see one of them on few slices",
  "g1pubs/bls.go:sortableByteArray.Less","g1pubs/bls.go:sortableByteArray.Swap","g1pubs/bls.go:sortByteArrays","g1pubs/bls.go:Signature.VerifyAggregate","g2pubs/bls.go:sortableByteArray.Less","g2pubs/bls.go:Signature.VerifyAggregate")
p("The functions of the package, from the word arithmetic to the signatures, compute the specified functions when their statements are run one by one from the source text",
  "Run the body of a function of stub_fallback.go, bititerator.go, fqrepr.go, frrepr.go, fq.go, fr.go, fq2.go, fq6.go, fq12.go, g1.go, g2.go, pairing.go, hash.go, g1pubs/bls.go or g2pubs/bls.go statement by statement, as written in the repository, on any receiver and any arguments: the run ends (without panic, or with the stated panic), the results are those of the function stated for it, the receiver holds the stated new value, and every other argument passed by pointer is as before. This includes the multiplication and the Montgomery reduction word by word, the shifts, the conversions from and to bytes, text and big.Int with their errors and panics, the loops of Exp and Inverse of the two prime fields, the loops of Mul, MulFR, MulBig, Exp, MulBits over exponents of full width, the squaring by x.MulAssign(x), the Miller loop over any list of pairs, the final exponentiation, the preparation of a point, the tables of the Frobenius maps with their index, the byte encodings, the hashing of messages to field elements, the SWU maps, the isogenies with their coefficient tables and the search of HashG2WithDomain, and in the signature packages the sums over slices, the copying and screening of the messages in VerifyAggregate, and the panics for a nil secret key.",
  "every field arithmetic, receiver, argument and number of loop turns",
  "a test compares outputs for a few inputs; it cannot show that no statement order, wrong variable, missing Copy or index slip matters for any input",
  "stub_fallback.go:11-155", "bititerator.go:10-24", "fqrepr.go:11-277", "frrepr.go:11-249", "fq.go:32-340", "fr.go:20-344", "fq2.go:1-285", "fq6.go:1-368", "fq12.go:1-237", "g1.go:1-560", "g2.go:1-620", "pairing.go:1-147", "hash.go:1-411", "g1pubs/bls.go:1-311", "g2pubs/bls.go:1-278")

with open('/verif/properties.jsonl','w') as f:
    for x in P: f.write(json.dumps(x)+"\n")
print(len(P))
