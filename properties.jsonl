{"id": "C01", "title": "Vuint addition and subtraction are exact", "statement": "For mie::Vuint x, y: x + y returns the integer sum, or the process exits when the sum needs more than the fixed capacity; x - y returns the integer difference when x >= y and the process exits otherwise. The result never has a superfluous leading zero limb.", "quantifier": "every pair of well-formed Vuint values (1..9 limbs of 64 bits, any limb contents)", "why_tests_cant": "carry and borrow chains depend on all 576 bits of both operands; sampling cannot reach every carry pattern", "anchors": ["include/zm.h: VuintT::add, VuintT::sub, add_in, sub_in", "src/zm.cpp: in_addN, in_add, in_subN, in_sub"]}
{"id": "C02", "title": "Vuint multiplication is exact", "statement": "x * y (Vuint times Vuint, and Vuint times a 32/64-bit unit) returns the integer product; the only failure is process exit, and it happens exactly when the operand limb counts add up to more than the capacity (9).", "quantifier": "every pair of well-formed Vuint values", "why_tests_cant": "the schoolbook accumulation has intermediate carries for every limb pair; the input space has 2^1152 elements", "anchors": ["include/zm.h: VuintT::mul, VuintT::mul1", "src/zm.cpp: in_mul"]}
{"id": "C03", "title": "Vuint long division is exact although its quotient digits are estimated in double precision", "statement": "Vuint::div(q, r, x, y) with y != 0 terminates, never underflows or overflows a limb, never converts an out-of-range double, and yields q*y + r = x with 0 <= r < y. With y = 0 it returns false and leaves q and r unchanged.", "quantifier": "every well-formed x, y of 1..9 limbs (every rounding of every double operation)", "why_tests_cant": "an over-estimate by one unit would silently corrupt the remainder, and happens only for adversarial limb patterns", "anchors": ["include/zm.h: VuintT::div, local::GetApp, PrimitiveFunction div/mul loops", "src/zm.cpp: in_div, in_mod"]}
{"id": "C04", "title": "Vuint shifts are exact", "statement": "x << n is x*2^n (or process exit if it does not fit the buffer) and x >> n is floor(x / 2^n), for whole-limb, sub-limb and mixed shift amounts.", "quantifier": "every well-formed x and every shift amount", "why_tests_cant": "shift amount and limb count interact at limb boundaries for every size", "anchors": ["include/zm.h: VuintT::shl, shr, shlBit, shrBit, shlUnit, shrUnit"]}
{"id": "C05", "title": "Vuint comparison is the integer order", "statement": "compare/==/< on Vuint agree with comparison of the integers denoted, for all operands (equal value iff equal limbs).", "quantifier": "every pair of well-formed Vuint values", "why_tests_cant": "relies on the no-leading-zero-limb invariant, which must survive every operation history", "anchors": ["include/zm.h: VuintT::compare, PrimitiveFunction::compare, trim"]}
{"id": "C06", "title": "Vuint text round trip", "statement": "Printing a Vuint in base 10 or base 16 and parsing the text back yields the same integer (base 10: as long as the parser's intermediate products fit the buffer), and the printed text is the canonical numeral.", "quantifier": "every well-formed Vuint", "why_tests_cant": "the decimal printer works in chunks of 10^9 with zero padding: errors show only at particular digit patterns", "anchors": ["include/zm.h: VuintT::toString, VuintT::set(const std::string&, int)"]}
{"id": "C07", "title": "Vuint bit queries", "statement": "testBit(i) returns bit i of the integer for every i below the stored length; bitLen() returns the position of the highest set bit plus one.", "quantifier": "every well-formed non-zero Vuint and bit index", "why_tests_cant": "bitLen goes through a double conversion whose rounding goes wrong only for top limbs starting with 54 one bits", "anchors": ["include/zm.h: VuintT::bitLen, VuintT::testBit"]}
{"id": "C08", "title": "JIT limb kernels equal the portable limb kernels", "statement": "The machine code installed by zmInit for addN, add1, subN, mul1, div1 and mod1 computes the same limbs and carry as the portable C kernels it replaces, for every length and also when the output overlaps an input exactly.", "quantifier": "every limb count n >= 1 and every operand contents; output buffer equal to or disjoint from the inputs", "why_tests_cant": "loop prefixes for n mod 4 and carry-flag preservation across dec/lea/inc must hold for every n", "anchors": ["src/zm.cpp: Code::genAddSub, genAddSub1, genMul, genDiv, genMod, in_addN, in_subN, in_add, in_mul, in_div, in_mod"]}
{"id": "C09", "title": "Vsint ring operations are exact", "statement": "Vsint +, -, *, unary -, compare agree with the integers denoted (sign and magnitude), or the process exits when the magnitude does not fit.", "quantifier": "every pair of well-formed Vsint values, including both representations of zero", "why_tests_cant": "sign cases times magnitude cases times zero signs", "anchors": ["include/zm.h: VsintT::add, sub, mul, neg, compare"]}
{"id": "C10", "title": "Vsint division is floor division", "statement": "Vsint::div(q, r, x, y) with y != 0 gives x = q*y + r with q = floor(x/y) (so r has the sign of y), for all four sign combinations.", "quantifier": "every pair of well-formed Vsint values with y != 0", "why_tests_cant": "the adjustment by one is applied only in two sign cases and only when the remainder is non-zero", "anchors": ["include/zm.h: VsintT::div"]}
{"id": "C11", "title": "Vsint text is canonical", "statement": "Printing a Vsint yields the canonical decimal numeral of the integer it denotes, in particular 0 prints as 0 after any sequence of operations.", "quantifier": "every Vsint reachable by arithmetic", "why_tests_cant": "negative zero arises only from particular operation histories", "anchors": ["include/zm.h: VsintT::toString, VsintT::add, VsintT::div, operator-"]}
{"id": "C12", "title": "Vsint assignment sets the sign", "statement": "Assigning an unsigned value (set(value_type), set(ptr,size)) to a Vsint makes it denote that value, whatever it held before.", "quantifier": "every previous content of the variable and every new value", "why_tests_cant": "depends on the history of the variable: only a previously negative one shows the defect", "anchors": ["include/zm.h: VsintT::set"]}
{"id": "C13", "title": "ZmZ arithmetic and inversion", "statement": "For modulus m >= 2 and reduced operands, ZmZ +, -, *, neg give the reduced residue of the integer result; inv gives the reduced inverse whenever gcd(x,m)=1.", "quantifier": "every modulus (fitting the buffer) and every pair of reduced residues", "why_tests_cant": "extended Euclid runs a data-dependent number of steps", "anchors": ["include/zm.h: ZmZ::add, sub, neg, mul, inv"]}
{"id": "C14", "title": "power is exponentiation", "statement": "mie::power(x, e) equals the e-fold product of x (1 for e = 0) for every associative multiplication with unit, for unsigned machine-integer and Vuint exponents.", "quantifier": "every exponent, every element, every monoid", "why_tests_cant": "quantifies over all exponents and all element types the template is used with", "anchors": ["include/zm.h: mie::power, power_impl::power"]}
{"id": "C15", "title": "Fp conversion round trip", "statement": "Fp(x).get() = x mod p for every non-negative integer x that fits the conversion, Fp(int n) denotes n mod p also for negative n, and every constructed Fp is fully reduced, so equal residues have identical representations and == decides residue equality.", "quantifier": "every integer x and every int n", "why_tests_cant": "Montgomery conversion is a 512-bit computation; uniqueness of representation is a universal statement", "anchors": ["include/zm2.h: Fp::set, Fp::get, Fp::toMont, Fp::fromMont, Fp::compare, operator=="]}
{"id": "C16", "title": "Fp addition, subtraction, negation", "statement": "For reduced operands Fp::add, sub, neg return the fully reduced sum, difference, negative mod p; the installed machine code does this for every operand pair and for output aliasing any input.", "quantifier": "every pair of reduced residues, every aliasing pattern out=x, out=y, x=y", "why_tests_cant": "conditional-move reduction depends on 256-bit borrow; aliasing multiplies cases", "anchors": ["src/zm2.cpp: in_Fp_add_modp, in_Fp_sub_modp, in_Fp_neg, make_Fp_neg", "include/zm2.h: Fp::add, Fp::sub, Fp::neg"]}
{"id": "C17", "title": "Fp Montgomery multiplication", "statement": "For reduced operands Fp::mul returns the fully reduced product mod p (and for one operand up to 2^256-1 and the other reduced it is still correct), with no lost carry in the interleaved word-by-word reduction, with and without the mulx instruction.", "quantifier": "every pair of reduced operands", "why_tests_cant": "a lost carry in Montgomery reduction occurs with probability about 2^-64 or less: random tests cannot find it", "anchors": ["src/zm2.cpp: mul4x1, montgomery1, Fp_mul (make_Fp_mul)", "include/zm2.h: Fp::mul"]}
{"id": "C18", "title": "Fp double-width operations and reduction", "statement": "FpDbl mul is the exact 512-bit product; FpDbl::mod maps every T < p*2^256 to the reduced T/2^256 mod p; FpDbl add/sub/addNC/subNC/neg keep the documented ranges and residues.", "quantifier": "every 512-bit value in the documented input range", "why_tests_cant": "carry propagation across eight limbs; boundary values have negligible probability", "anchors": ["src/zm2.cpp: mul4x4, mont_mod, in_FpDbl_add, sub_FpDbl_sub, in_FpDbl_neg", "include/zm2.h: Fp::Dbl"]}
{"id": "C19", "title": "Fp inversion", "statement": "Fp::inv terminates for every reduced input, its table index stays in bounds, x * inv(x) = 1 for every x != 0, and inv(0) = 0.", "quantifier": "every reduced residue", "why_tests_cant": "the almost-inverse loop has a data-dependent iteration count k in 254..508 used as a table index", "anchors": ["include/zm2.h: Fp::inv", "src/zm2.cpp: make_Fp_preInv, setTablesForDiv, invTbl_"]}
{"id": "C20", "title": "Halving and quartering in Fp", "statement": "divBy2(x)*2 = x and divBy4(x)*4 = x with reduced results, for every reduced x.", "quantifier": "every reduced residue", "why_tests_cant": "depends on the parity bits and a table lookup for all residues", "anchors": ["include/zm2.h: Fp::divBy2, Fp::divBy4", "src/zm2.cpp: sub_Fp_divBy2"]}
{"id": "C21", "title": "Approximate reduction fast_modp", "statement": "The one-shot reduction used after 2z+3x style accumulation returns the reduced residue for every accumulated value it can be given (0..6p), on each supported curve.", "quantifier": "every z in [0, 6p] and every supported prime", "why_tests_cant": "the top-3-bit quotient estimate is exact only because of the numeric size of p; failing inputs are rare", "anchors": ["include/zm2.h: Fp::fast_modp, _3z_add_2xC, _2z_add_3x", "src/zm2.cpp: in_Fp_2z_add_3x, fast_modp"]}
{"id": "C22", "title": "Square roots in Fp", "statement": "Fp::squareRoot(y, x) returns true iff x is a square, and then y*y = x.", "quantifier": "every reduced residue", "why_tests_cant": "completeness is a number-theoretic statement about all residues (needs p prime, p = 3 mod 4)", "anchors": ["include/zm2.h: Fp::squareRoot"]}
{"id": "C23", "title": "Fp ordering", "statement": "operator< on Fp orders elements by their integer value get().", "quantifier": "every pair of residues", "why_tests_cant": "the comparison is done on Montgomery representations; a universal order statement", "anchors": ["include/zm2.h: Fp::compare, operator<"]}
{"id": "C24", "title": "The portable fallbacks agree with the generated code", "statement": "Calling the portable C versions of Fp add/sub/neg/mul and of Fp2/FpDbl operations (used before initialisation, and public statics) gives the same result as the generated code.", "quantifier": "every pair of reduced operands and every initialisation state", "why_tests_cant": "wrong branches are taken only for one ordering of operands or before init", "anchors": ["src/zm2.cpp: Fp_addC, Fp_subC, Fp_negC, Fp_mulC, FpDbl_negC", "include/bn.h: Fp2T::squareC"]}
{"id": "C25", "title": "Fp2 is the field Fp[u]/(u^2+1)", "statement": "Fp2 add, sub, neg, mul, square, mul_xi, mul_Fp_0, mul_Fp_1, mul_x, inverse, divBy2/4 return reduced components equal to the operation in Fp[u]/(u^2+1); inverse(x)*x = 1 for every x != 0. No lazily reduced intermediate overflows its 256/512-bit range.", "quantifier": "every pair of reduced Fp2 elements, on each supported curve", "why_tests_cant": "lazy reduction is correct only by range bounds that must hold for all inputs at once", "anchors": ["include/bn.h: Fp2T", "src/zm2.cpp: set_p_Fp2_mul, in_Fp2_square, in_Fp2_mul_xi, set_p_Fp2Dbl_mul_xi, set_p_Fp2Dbl_square"]}
{"id": "C26", "title": "Fp6 is the cubic extension Fp2[v]/(v^3-xi)", "statement": "Fp6 add, sub, neg, mul, square, inverse equal the operations of Fp2[v]/(v^3-xi) and return reduced components; inverse(x)*x = 1 for x != 0.", "quantifier": "every pair of reduced Fp6 elements, on each supported curve", "why_tests_cant": "range bounds of the lazily reduced Karatsuba products depend on 6p versus 2^256", "anchors": ["include/bn.h: Fp6T", "src/zm2.cpp: set_p_Fp6Dbl_mul, set_p_Fp6_mul"]}
{"id": "C27", "title": "Fp12 is the quadratic extension Fp6[w]/(w^2-v)", "statement": "Fp12 add, sub, neg, mul, square, inverse, equal the operations of Fp6[w]/(w^2-v); inverse(x)*x = 1 for x != 0.", "quantifier": "every pair of reduced Fp12 elements", "why_tests_cant": "24-dimensional input space over a 254-bit field", "anchors": ["include/bn.h: Fp12T::mulC, squareC, inverse", "src/zm2.cpp: make_Fp12_mul, make_Fp12_square"]}
{"id": "C28", "title": "Sparse line multiplications", "statement": "mul_Fp2_024(f, l) equals f times the sparse element built from l, and mul_Fp2_024_Fp2_024(l1, l2) equals the product of the two sparse elements.", "quantifier": "every f in Fp12 and every sparse l, l1, l2", "why_tests_cant": "hand-optimised Karatsuba: a wrong coefficient may cancel on structured samples", "anchors": ["include/bn.h: mul_Fp2_024C, mul_Fp2_024_Fp2_024", "src/zm2.cpp: make_Fp12Dbl_mul_Fp2_024"]}
{"id": "C29", "title": "Frobenius maps", "statement": "Frobenius(z, x) = x^p, Frobenius2 = x^(p^2), Frobenius3 = x^(p^3) for every x in Fp12.", "quantifier": "every Fp12 element", "why_tests_cant": "an exponentiation by a 254-bit exponent for all elements", "anchors": ["include/bn.h: Fp12T::Frobenius, Frobenius2, Frobenius3, ParamT::init (gammar tables)"]}
{"id": "C30", "title": "Cyclotomic squaring", "statement": "sqru (Granger-Scott squaring) equals the ordinary square for every element of the cyclotomic subgroup, i.e. for every output of the easy part of the final exponentiation.", "quantifier": "every element of the cyclotomic subgroup", "why_tests_cant": "the identity holds only on a subgroup; tests sample few of its elements", "anchors": ["include/bn.h: Fp12T::sqru, mapToCyclo, sq_Fp4UseDbl"]}
{"id": "C31", "title": "Compressed squaring and fixed-exponent power", "statement": "Compress::square_n followed by decompression equals repeated squaring, and Compress::fixed_power computes the power by the curve parameter, for cyclotomic elements whose decompression denominators are non-zero (and for 1).", "quantifier": "every cyclotomic element and every number of squarings", "why_tests_cant": "iterated formulas on compressed coordinates with simultaneous inversion", "anchors": ["include/bn.h: CompressT", "src/zm2.cpp: make_Compress_square_n"]}
{"id": "C32", "title": "Final exponentiation computes a fixed power", "statement": "final_exp(f) = f^E for every non-zero f where E is a fixed integer multiple of (p^12-1)/r not divisible by r; in particular final_exp(f)^r = 1.", "quantifier": "every non-zero Fp12 element", "why_tests_cant": "the addition chain is an exponent identity in the curve polynomial, for all elements", "anchors": ["include/bn.h: Fp12T::final_exp, mapToCyclo, pow_neg_t"]}
{"id": "C33", "title": "Signed-digit recodings preserve the value", "statement": "The binary and NAF recodings used for loop counters denote the original integer for every input for which they are defined, and have digits in {-1,0,1}.", "quantifier": "every positive integer / every digit vector", "why_tests_cant": "rewriting runs of ones interacts across the whole vector", "anchors": ["include/bn.h: util::convertToBinary, convertToNAF, getContinuousVal, getGoodRepl"]}
{"id": "C34", "title": "Point doubling and addition are the group law", "statement": "ECDouble and ECAdd on Jacobian triples compute the chord-and-tangent group law of the curve for all operands: infinity on either side, equal points, opposite points, points of order two, any Jacobian representative; also for outputs aliasing inputs.", "quantifier": "every pair of Jacobian triples on the curve, over Fp and Fp2", "why_tests_cant": "special-case dispatch depends on field equalities over a 508-bit space", "anchors": ["include/bn.h: ecop::ECDouble, ecop::ECAdd, EcT::add, EcT::dbl, EcT::neg, EcT::sub"]}
{"id": "C35", "title": "Curve membership test and closure", "statement": "isValid() is true iff the triple is infinity or satisfies the curve equation y^2 = x^3 + b (twist: b/xi) after dividing by the Jacobian weights; add, dbl, neg, mul of valid points are valid.", "quantifier": "every triple; every operation history on valid points", "why_tests_cant": "closure over all histories is an invariant, not a sample", "anchors": ["include/bn.h: ecop::isOnECJac3, isOnTwistECJac3, EcT::isValid"]}
{"id": "C36", "title": "Normalisation and point equality", "statement": "normalize() keeps the point and makes z = 1 (or leaves infinity), and == is true iff the two objects denote the same point, whatever Jacobian representatives they hold; it is an equivalence relation.", "quantifier": "every pair of Jacobian triples with reduced coordinates", "why_tests_cant": "representatives form an infinite family (all z)", "anchors": ["include/bn.h: ecop::NormalizeJac, EcT::normalize, EcT::operator=="]}
{"id": "C37", "title": "Scalar multiplication", "statement": "ScalarMult(out, P, m) equals P + ... + P (m times) for every scalar; consequently mul by a+b equals the sum of the multiples.", "quantifier": "every scalar of any length and every point", "why_tests_cant": "all scalars, all points; left-to-right loop needs induction and associativity of the group law", "anchors": ["include/bn.h: ecop::ScalarMult, EcT::mul"]}
{"id": "C38", "title": "Point construction validates", "statement": "EcT::set(x,y[,z]) with verification throws exactly when the triple is not on the curve; no public way of making a point from text yields an off-curve point.", "quantifier": "every triple / every input text", "why_tests_cant": "universal claim about rejection of all invalid inputs", "anchors": ["include/bn.h: EcT::set, EcT operator>>"]}
{"id": "C39", "title": "Field and point text round trip", "statement": "Printing an Fp, Fp2, Fp6, Fp12 element or a point and reading it back with the stream operator gives an equal object.", "quantifier": "every reduced element / every point", "why_tests_cant": "all digit patterns, infinity, and nested bracket syntax", "anchors": ["include/bn.h: operator<< and operator>> of Fp2T, Fp6T, Fp12T, EcT", "include/zm2.h: Fp operator<<, >>"]}
{"id": "C40", "title": "Frobenius endomorphism on the twist", "statement": "FrobEndOnTwist_1/_2/_8 map points of the twist to points of the twist and equal the coordinate-wise p, p^2, p^8 (suitably twisted) power maps.", "quantifier": "every twist point", "why_tests_cant": "field-wide identity with exponent p", "anchors": ["include/bn.h: ecop::FrobEndOnTwist_1, _2, _8"]}
{"id": "C41", "title": "Line evaluation steps", "statement": "pointDblLineEval replaces the projective point by its double and returns the tangent line (up to a factor in a proper subfield) evaluated at P; pointAddLineEval likewise for the sum and chord.", "quantifier": "every twist point R, Q and every P", "why_tests_cant": "formulas in mixed projective coordinates with lazy reduction", "anchors": ["include/bn.h: pointDblLineEvalWithoutPC, pointAddLineEvalWithoutP, mulFp6_24_Fp_01", "src/zm2.cpp: make_pointDblLineEval"]}
{"id": "C42", "title": "Pairing with infinity", "statement": "opt_atePairing(f, Q, P) is 1 whenever Q or P is the point at infinity.", "quantifier": "every representative of infinity, every other argument", "why_tests_cant": "infinity has infinitely many representatives (x,y,0)", "anchors": ["include/bn.h: opt_atePairing(Fp12T&, Ec2, Ec1)"]}
{"id": "C43", "title": "Pairing values have order dividing r", "statement": "opt_atePairing(...)^r = 1 for all valid arguments with non-zero Miller value.", "quantifier": "every pair of points", "why_tests_cant": "universal over both groups", "anchors": ["include/bn.h: opt_atePairing, final_exp"]}
{"id": "C44", "title": "Pairing of negated points", "statement": "e(-Q, P) = e(Q, -P) = e(Q, P)^-1.", "quantifier": "every pair of points", "why_tests_cant": "universal over both groups", "anchors": ["include/bn.h: opt_atePairing"]}
{"id": "C45", "title": "Precomputed and combined Miller loops agree with the direct one", "statement": "precomputeG2 + millerLoop + final_exp equals opt_atePairing for the same points, and millerLoop2 equals the product of the two millerLoops.", "quantifier": "every Q, P (and Q1,P1,Q2,P2)", "why_tests_cant": "two independently written loops must agree for all inputs", "anchors": ["include/bn.h: components::precomputeG2, millerLoop, millerLoop2, opt_atePairing"]}
{"id": "C46", "title": "Pairing is independent of the Jacobian representative", "statement": "opt_atePairingJac on any Jacobian representatives of the same points gives the same value as on the affine coordinates.", "quantifier": "every representative (all non-zero z)", "why_tests_cant": "infinitely many representatives", "anchors": ["include/bn.h: opt_atePairingJac, NormalizeJac"]}
{"id": "C47", "title": "Bilinearity", "statement": "e(aQ, bP) = e(Q,P)^(ab).", "quantifier": "every pair of points in G2 x G1 and all scalars", "why_tests_cant": "the central algebraic law; universal over groups of order about 2^254", "anchors": ["include/bn.h: opt_atePairing"]}
{"id": "C48", "title": "Curve parameters", "statement": "After Param::init the public constants satisfy: p and r are the BN polynomials in z, p is prime, r divides p+1-t and p^12-1, and xi is neither a square nor a cube in Fp2, for each supported curve.", "quantifier": "every supported curve parameter set; primality quantifies over all divisors", "why_tests_cant": "primality and irreducibility are universal statements over all smaller numbers", "anchors": ["include/bn.h: ParamT::init, CurveParam"]}
{"id": "C49", "title": "Re-initialisation", "statement": "Calling Param::init(cp) any number of times with any supported parameters leaves the library computing with the parameters of the last call.", "quantifier": "every sequence of init calls", "why_tests_cant": "a history property", "anchors": ["include/bn.h: ParamT::init", "src/zm2.cpp: Fp::setModulo, PairingCode::init, make_pointDblLineEval"]}
{"id": "C50", "title": "Concurrent read-only use of a point", "statement": "Two threads that only call const operations (==, isValid, printing) on one shared point object never change the point it denotes.", "quantifier": "every interleaving of the two threads' memory accesses", "why_tests_cant": "schedules cannot be enumerated by tests", "anchors": ["include/bn.h: EcT::normalize() const, mutable p, operator=="]}
{"id": "C51", "title": "Valid points have order r", "statement": "Every G1 object accepted by isValid() denotes one of the r multiples of the generator, so mul by r gives infinity and mul by 0 < k < r does not (unless the point is infinity). The same for a G2 object accepted by isValid().", "quantifier": "every valid point object of either group, every curve", "why_tests_cant": "there are about 2^254 (2^508) valid points", "anchors": ["include/bn.h: EcT::isValid, isOnECJac3, isOnTwistECJac3, ScalarMult", "test/test_point.hpp: generators"]}
{"id": "C52", "title": "Scalars and field elements as mpz_class", "statement": "In a build with MIE_ATE_USE_GMP, power(x, k) and P * k with an mpz_class k of any size give the k-fold product and the k-fold sum for k >= 0, and the inverse of the |k|-fold one for k < 0; Fp::fromMpz undoes Fp::toMpz and gives the residue class of the integer.", "quantifier": "every integer GMP can hold, every element and point, any aliasing of the point arguments, every curve", "why_tests_cant": "integers of any size and sign; all field elements and points", "anchors": ["include/bn.h: mie::util::IntTag<mpz_class>, power, EcT::operator*, ScalarMult", "include/zm2.h: Fp::toMpz, Fp::fromMpz", "include/zm.h: power"]}
{"id": "C53", "title": "Programs over the Java interface", "statement": "Any sequence of copy, set, clear, dbl, neg, add, sub, mul, equals on Ec1 (Ec2) objects, in any aliasing, leaves valid objects denoting what the group law gives; set with coordinates that are not on the curve throws and leaves the object as it was; pairing of multiples is the power of the pairing and has order dividing GetParamR().", "quantifier": "every call sequence, every aliasing, every scalar and every pair of points", "why_tests_cant": "unboundedly many call sequences and all points", "anchors": ["java/bn254_if.hpp: Mpz, Fp, Fp2, Fp12, Ec1, Ec2, GetParamR"]}
