{
 "C11": {
  "status": "proved",
  "note": "The property as stated is false for this code: proved refutation, Inverse loops forever on FQReprToFQRaw(q)."
 },
 "C17": {
  "status": "proved",
  "note": "False as stated (proved refutation: FR.Sqrt overwrites the package-level one); proved for every call sequence without Sqrt. Calls are restricted to objects the caller created (call_ok)."
 },
 "C18": {
  "status": "proved",
  "note": "False as stated: proved refutation plus a general theorem saying exactly what the caller's value becomes."
 },
 "C54": {
  "status": "proved",
  "note": "False for FQ and FR (proved refutations, and the exact value FQ.MulBits computes instead); true and proved for FQ2.MulBits with b >= 0."
 },
 "C22": {
  "status": "proved",
  "note": "False as stated (proved refutation: f=v); proved exactly when the aliased product is the square. The un-aliased product is C21."
 },
 "C27": {
  "status": "partial",
  "note": "G1Affine.Equals is proved exact on valid points. G2Affine.Equals is refuted: it returns true for every two finite points (counterexample: generator and its negation); what it does decide is proved."
 },
 "C30": {
  "status": "proved",
  "note": "Includes the exact number of points of both curves (r times the hard-coded cofactor) and of their r-torsion subgroups."
 },
 "C34": {
  "status": "proved",
  "note": "False as stated: proved refutations for G1 and G2 (an encoded x >= q is silently read as 0 by the unchecked decompressors). The checked decompressors reject every non-canonical G1 x (C32)."
 },
 "C35": {
  "status": "partial",
  "note": "G2Affine round-trip proved. G1Affine.SetRawBytes refuted (it takes the serialized residues as Montgomery representations, so both coordinates come back multiplied by the inverse of 2^384); what it does restore is proved."
 },
 "C37": {
  "status": "proved",
  "note": "False as stated for this code: MillerLoop panics (index out of range) as soon as one pair has a point at infinity, so Pairing and CompareTwoPairings panic instead of treating it as the neutral element. Proved for every input, with a concrete refutation."
 },
 "C41": {
  "status": "partial",
  "note": "Screening and the pairing equation are proved for both packages; that the caller's slices are not modified is C73. As stated the property is false: a list containing the empty message is always rejected (refutation proved)."
 },
 "C45": {
  "status": "proved",
  "note": "Round trip and exact acceptance set proved. The rejection clause is false: DeserializeSecretKey of an integer >= r returns a SecretKey wrapping a nil pointer, and using it panics (refutation proved)."
 },
 "C44": {
  "status": "proved",
  "note": "Signatures: under the hypothesis of the property (the hash point is on the curve and killed by r)."
 },
 "C58": {
  "status": "proved",
  "note": "Primality, field constants, generators (order exactly r), cofactors = #E/r proved; Frobenius tables are C24."
 },
 "C40": {
  "status": "partial",
  "note": "Proved for every message whose hash point is a non-identity point of the order-r subgroup and every aggregate that is not the identity; without these conditions the code panics (C67). With SHA-256 itself it is proved for one message and all keys (C40_*_sha256_partial). Refuted for arbitrary hash functions: with suitable digests the hash point is the identity and Verify panics on every honest signature."
 },
 "C47": {
  "status": "proved",
  "note": "With the exact specification of the returned point (x0 or its twist image, sign of y), which determines it uniquely; also the value hp/hp2 derive from the digest."
 },
 "C48": {
  "status": "proved",
  "note": "The kernel of the 11-isogeny is given explicitly (five x-coordinates); the 3-isogeny has no kernel point over GF(q^2)."
 },
 "C49": {
  "status": "partial",
  "note": "Never panics: proved for all messages and hash functions. On the curve: proved unless the two SWU points have the same x-coordinate (or, G1, their sum lies in the isogeny kernel). Refuted without that condition for a concrete 32-byte hash function: equal digests are added with the a=0 doubling formula on the auxiliary curve and the result is off the curve."
 },
 "C50": {
  "status": "proved",
  "note": "Including which of the three candidates is returned and the sign of y."
 },
 "C51": {
  "status": "proved",
  "note": "The unbounded search is modelled with fuel; soundness for every fuel, completeness as soon as one candidate within the fuel is on the curve."
 },
 "C52": {
  "status": "partial",
  "note": "Proved: the result is cofactor times the first drawn curve point and lies in the order-r subgroup. The non-identity clause is false: proved refutations for RandG1 (a point of order 3) and RandG2 (a point of order 13), because the code tests the point before applying the cofactor."
 },
 "C05": {
  "status": "proved",
  "note": "For every entry state; also shows that no function accesses memory outside its argument area and frame, and that arguments are not modified. Prologue/epilogue inserted by the assembler are not modelled."
 },
 "C68": {
  "status": "partial",
  "note": "Proved for the scalar functions; refuted for MultiplyFQRepr, AddNoCarry and SubNoBorrow, which have frame size 0 and overwrite BP."
 },
 "C69": {
  "status": "proved",
  "note": "The g1pubs theorem has the two alternatives of the statement as a hypothesis: a zero x-coefficient of a G2 point has a second encoding (C34)."
 },
 "C71": {
  "status": "proved",
  "note": "A weakness of the interface: the theorems state that the attack works and which function prevents it."
 },
 "C72": {
  "status": "partial",
  "note": "Proved for G1, whose ToAffine copies the package variable. Refuted for G2: ToAffine of the identity returns the pointer G2AffineZero itself, and SetRawBytes through it changes the package value. Proved for G2 histories without SetRawBytes."
 },
 "C75": {
  "status": "partial",
  "note": "Proved for public keys and signatures of both packages. Refuted for secret keys: GetFRElement returns the stored pointer, so FR methods on its result change the key. Proved for secret keys whose FR element and FRRepr the caller does not write to."
 },
 "C76": {
  "status": "partial",
  "note": "Proved for histories in which no writing method is called on FQ12Zero or FQ12One themselves. Refuted without that restriction: the two package variables share FQ6 objects, so writing to one corrupts the other. Also refuted for elements built by NewFQ12 with one pointer twice."
 },
 "C77": {
  "status": "partial",
  "note": "Proved except for two clauses. Refuted: RandG1 does depend on chunking when a Read returns zero bytes without an error (the count is ignored). Refuted: RandKey can return the zero key. io.ReadFull and crypto/rand.Int are modelled from the standard library; data returned together with an error is not modelled."
 },
 "C78": {
  "note": "Base 0 (prefixes and underscores of math/big) is outside the statement. SrcConst.v is written from the source text by tools/gen_srcconst.py."
 },
 "C79": {
  "note": "fmt.Sprintf with %s is concatenation. SecretKey.String is FR.String of its element."
 },
 "C80": {
  "note": "A sorting algorithm is any finite tree of Less and Swap calls per length; that sort.Sort of the installed Go is one and sorts integers is not modelled beyond insertionSort."
 },
 "C81": {
  "note": "Relative to the semantics of SrcSem.v and the parser tools/gen_srccode.py. Callees are the model functions. Covers the functions listed in Properties_Src.v: all functions of the package except the String methods, the Rand functions, FRReprToFR and FR.Sqrt (these two hand out package variables; see C18). FQ.Inverse and FR.Inverse for canonical values, and for every value on which the loop ends."
 }
}