# Formal model of herumi/ate-pairing in Rocq (Coq 8.16.1)

The code under /repo is read as text and never built. Build configuration modelled: the
default one of common.mk (64-bit units, `NDEBUG`, `MIE_ZM_VUINT_BIT_LEN` = 576, so nine
units per `Vuint`), for the default curve `Fp254BNb` and for `BN_SUPPORT_SNARK` with b = 3
and b = 82.

Where to start reading: the files `rocq/theories/P_*.v` hold the property theorems. Each
theorem there is a statement followed by `Proof. exact lemma. Qed.`, each file opens with a
reading guide, and `Example`s beside the theorems show that the hypotheses are met. Theorem
names begin with the property id. A property, or a clause of one, that is false of the code
is stated as it fails in a theorem whose name ends in `_refuted`.

## Layers

| layer | model files | specification files | property files |
|---|---|---|---|
| outcomes, limb kernels | Base, Prim | `lv` (value of a limb list) | P_Vuint |
| Vuint | Vuint, VDiv, Dbl, VStr | StrSpec, Z | P_Vuint, P_VDiv, P_Str |
| Vsint | Vsint | Z | P_Vsint |
| ZmZ, power, recodings | ZmZ, Power | Z, PowSpec | P_ZmZ |
| machine code of zm.cpp and zm2.cpp | X64, JitZm, JitFp, JitFp2, JitFp6, JitLine, JitCmp, JitInv | JitSpec, JitFpSpec, JitFp2Spec, JitFp6Spec, JitLineSpec, JitTangentSpec, JitCmpSpec, JitInvSpec (words in memory, calling convention) | P_Jit, P_JitFp, P_JitFp2, P_JitFp6, P_JitLine, P_JitCmp, P_JitNeg, P_JitInv |
| Fp, FpDbl | FpM, FpApi, FpInit | FpSpec (field `F p`), Cfg (the primes) | P_Fp |
| Fp2, Fp6, Fp12 | TowerM, FinalM | TowerSpec (polynomial quotients) | P_Tower, P_Snark |
| points | EcM, ParamM | EcSpec (affine chord and tangent law) | P_Ec |
| pairing | PairM | EcSpec, TowerSpec | P_Pair |
| text of elements and points | TextM | StrSpec | P_Text |
| repeated initialisation | InitM | ParamM (one initialisation) | P_Init |
| concurrent const calls | ConcM | EcSpec | P_Conc |

* 64-bit units are `Z` in [0,2^64), limb vectors little-endian `list Z`. Every operation of
  the model is a total computable function. Outcomes are explicit: `Ok`, `Exit` (errExit),
  `Throw`, `UB` (undefined behaviour, reads of unwritten memory included), `Diverge` (loop
  bound of the model exhausted; theorems show that it does not happen or that the code
  really does not terminate).
* The quotient estimate and `bitLen` of Vuint use `double`. Dbl.v models the conversions,
  products and quotients involved as correctly rounded integer arithmetic (round to nearest
  even on 53 bits); Flocq is not used.
* Fp objects are 256-bit contents in Montgomery form; arithmetic wraps at 2^256 and 2^512
  where the code does.
* Points live in a memory of objects, so that output aliasing is part of the statements.

## What each property rests on

| id | modelled | proof |
|----|----------|-------|
| C01, C02, C04, C05 | limb lists, Vuint operations with exit outcome | induction on limb lists, value equation |
| C03 | division loop with the binary64 estimate | error bound of truncation and rounding, loop invariant q*y+x = const |
| C06 | printer and parser on strings | digit-list induction |
| C07 | bitLen via binary64, testBit | exact characterisation; general claim refuted |
| C08 | the instruction lists emitted by genAddSub, genAddSub1, genMul, genDiv, genMod, run on a register/flag/memory machine (X64) | weakest preconditions of one instruction, induction on the number of loop passes |
| C09-C12 | sign/magnitude records | case analysis over C01..C05; canonical text and sign assignment refuted |
| C13 | ZmZ with extended Euclid loop | Euclid invariant modulo m |
| C14 | square-and-multiply over bits, any monoid | induction on bits |
| C15-C20 | Fp functions with wrap-around | Montgomery bounds, Kaliski invariant |
| C16-C18, C20 (`_code_`) | the instructions emitted for Fp add, sub, neg, addNC, subNC, shr1, shr2, mul, FpDbl add, sub, addNC, subNC, mul, mod and the Fp2 and Fp2Dbl variants of the linear ones | one-instruction rules, macro lemmas (JitMac .. JitMod), frame and call rules (JitFrame, JitFpApi); each equals the integer function of FpM |
| C19 (`_code_`) | the instructions emitted for Fp preInv: a loop with five labels, the loop count in an SSE register, part of one number on the stack | one iteration of the code is one iteration of the integer loop (JitInvApi.go1); induction over the iterations; termination from the invariant of the integer loop |
| C25 (`_code_`) | the instructions emitted for Fp2 mul, square, mul_xi, mul_Fp_0, divBy2 and Fp2Dbl mulOpt1/2, square, mul_xi, mod, with the calls between them | macro lemmas (JitFp2Mac, JitFp2Mac2), a rule for calls of generated subroutines (JitFp2Api); each equals the integer function of TowerM; mul_xi with the output on the operand is refuted on the code too |
| C26, C27, C28 (`_code_`) | the instructions emitted for Fp6 add, sub, mul, Fp6Dbl mul, Fp12 mul, square and Fp12Dbl mul_Fp2_024, with the subroutines they call | symbolic execution over a table of subroutine specifications (JitSub, JitLib: what is read, what is written, which registers survive); one rule for prologue, body and epilogue (JitTop); each equals the integer function of TowerM. Fp6/Fp12 products on SNARK curves: in range ([in12]) proved, in general refuted on the code too |
| C21 | fast_modp per curve | linear arithmetic; SNARK refuted |
| C22 | power by (p+1)/4 and check | Euler criterion from Fermat, p prime |
| C23, C24 | comparison, fallback functions | characterised; parts refuted |
| C25-C28 | tower functions with lazy reduction | range lemmas and `ring` in the quotient |
| C29 | Frobenius functions and tables | Frobenius homomorphism in characteristic p |
| C30, C31 | sqru, Compress | identities modulo the cyclotomic relations; the machine code of square_n (C31_code_*) by symbolic execution of one round and induction on the count |
| C32 | final_exp chain; SNARK curves: the same chain with a range check at every product (SnarkRun) | exponent arithmetic in the cyclotomic subgroup |
| C33 | digit vectors | induction on the vector |
| C34-C37 | Jacobian formulas generic in the field | `field` against the affine law; associativity proved in EcGroup.v |
| C38, C39 | stream readers and writers | token-level round trip; validation of text refuted |
| C40, C41 | twist Frobenius and line steps; the doubling step also as machine code | `field`, Frobenius homomorphism; symbolic execution of the code (JitSym, JitTop2) |
| C42-C46 | pairing functions; SNARK curves: the Miller loops with a range check at every product and square (SnarkRun, SnarkMil) | structural, conjugation argument, fold fusion |
| C47 | whole pairing; SNARK curves: opt_atePairing with a range check at every product and square (SnarkAte) | functions with a given divisor as a cocycle (PairDiv and following; SnarkBiext, SnarkBil, SnarkLin, SnarkTop for the SNARK curves, their generators in Gen2S), no divisor theory imported |
| C48 | constants | Pocklington certificates checked in the kernel |
| C49 | init state machine | history characterisation and counterexample |
| C50 | interleaving semantics of normalize | counterexample schedule and sequential theorem |
| C51 | points of E and of the twist | r G = O by a certificate chain (Gen1Tab, Gen1); E(Fp) has at most 2p + 1 < 3r points and none of order two, hence one coset (Count). For G2 the claim is refuted: the twist has valid points of order 13 (default curve) and 10069 (GenT) |
| C52 | mpz_class as the integer it holds, in sign-magnitude limbs (MpzM) | power and ScalarMult over the limbs reduce to C14 and C37 (MpzProofs); negative numbers reach a limb that does not exist, hence refuted |
| C53 | the classes of java/bn254_if.hpp as calls on point objects (MpzM) | induction over the call sequence with all objects valid (MpzJava), pairing from C47 |

## Trusted base

* Coq 8.16.1's kernel, including its virtual machine (`vm_compute` is used for the prime
  certificates and for closed evaluations).
* Axioms: none. Every P_ file ends with one `Print Assumptions` on the tuple of all its
  theorems; each prints `Closed under the global context`. The checker `coqchk` lists seven
  names `Coq.ssr.ssrunder.Under_rel.*`: they are parameters of a module type of the standard
  library (loaded through `Require`), not axioms any theorem here depends on.
* The reading of the C++ and assembler sources by which the model was written: each
  definition cites the lines it models. Simplifications are stated in that comment.
* The semantics of C++ and of x86-64 assumed in Base.v, Prim.v, X64.v: 64-bit two's
  complement `int64_t`, 32-bit `int`, IEEE binary64 in round-to-nearest mode.

## Modelled

include/zm.h (Vuint, Vsint, ZmZ, power, recodings, text), src/zm.cpp (portable kernels),
include/zm2.h and src/zm2.cpp (Fp, FpDbl, their portable fallbacks and, as functions on
integers with explicit carries, the generated code including preInv/inv, fast_modp,
fused Fp2 operations), include/bn.h (CurveParam/ParamT::init, Fp2T, Fp6T, Fp12T,
CompressT, ecop, EcT, opt_atePairing in all overloads, precomputeG2, millerLoop,
millerLoop2, text, scalars of type mpz_class), java/bn254_if.hpp (the point, field and Mpz
classes without their text conversions).

## Not modelled

* src/zm.cpp 32-bit units, `MIE_USE_UNIT32`; builds without NDEBUG.
* A run of the whole pairing on the SNARK generators inside the kernel: it costs too much, so the
  range condition of C47_bilinear_in_range is not shown for a concrete pair of points. The generators
  meet its other hypotheses (C47_in_range_some), and C43_in_range_some runs the same checked products.
* The register allocation and memory layout of Compress square_n in the SNARK build, which is
  modelled as a function on integers there.  JitZm.v, JitFp.v, JitFp2.v, JitFp6.v, JitLine.v,
  JitCmp.v and JitInv.v list the functions modelled instruction by instruction.
* GMP itself (an mpz_class is the integer it holds), the SWIG wrappers generated from java/ and
  the text conversions of its classes, the example programs under exe/ and test/, xbyak, CPUID detection beyond the choice
  mulx / no mulx.
* iostream formatting beyond what the operators use: width and fill are not modelled;
  locale is the "C" locale.
* Timing and side channels.

## Findings

The following statements about the code are theorems in the files named.

1. Fp2T::squareC of the default build computes 2a(a-b) instead of (a+b)(a-b) (C25_squareC_refuted).
2. Fp_subC subtracts p again when x >= y: exit for every such pair (C24).
3. Fp_mulC called before the machine code is installed does not return (C24).
4. FpDbl::neg(0) is pN, not 0: the generated zero test examines a pointer (C18_neg_range_refuted, C18_code_neg).
5. Fp6 mul on SNARK curves may leave a component unreduced; Fp12 mul is then wrong modulo p
   for some operands (C26_mul_snark_refuted, C27_mul_snark_refuted) and Fp12 square may come
   back unreduced (C27_square_snark_refuted). Fp6 mul is right whenever a sum of six component
   products stays below p*2^256 (C26_mul_in_range), in particular when one operand has no component
   above 22/25 of p (C26_mul_small); Fp12 mul when one has none above 11/25 (C27_mul_small).
6. fast_modp is right for the default prime on [0,6p] and wrong for the SNARK primes (C21).
7. Vuint::bitLen is one too large when the top unit begins with 54 ones (C07).
8. Vuint text: garbage is accepted, large decimals exit; Vsint hexadecimal negative exits (C06, C11).
9. Vsint keeps a stale sign on some assignments; "-0" is printed (C11, C12).
10. ZmZ(int) is not reduced; inv(0) = 0; inv of a non-unit is junk (C13). Fp::inv(0) = 0 (C19).
11. convertToNAF on a one-element vector and convertToBinary(2^64-1) are undefined; power with
    a negative int uses 2^32+e (C14, C33, C37_negative_int_refuted).
12. Vuint::sub with xn < yn is undefined; testBit beyond the size reads stale units (C01, C07).
13. Vuint division with a nine-unit divisor below x exits (C03_div_total_refuted).
14. Fp2::mul_xi with output aliasing input is wrong (C25_mul_xi_alias_refuted).
15. Fp::set(Vuint) exits from six units on; Fp(INT_MIN) is undefined (C15).
16. Fp operator< orders Montgomery contents, not residues (C23).
17. Compress::square_n with n = 0 runs 2^64 times (C31_square_n_0_wraps, C31_code_square_n_0_wraps).
    It is declared with an int but counts in the whole 64 bit register, whose upper half a caller
    need not set (C31_code_square_n speaks of the whole register).
18. Line addition of equal points gives the zero line (C41_add_equal_refuted).
19. precomputeG2 + millerLoop with Q at infinity gives 0, opt_atePairing gives 1 (C45_infinity_refuted).
20. EcT operator>> does not check the curve equation (C38_text_refuted).
21. Fp operator>> leaves the stream failed after a number at the end of the text, assigns 0
    from a failed stream; truncated Fp2 text reads an unwritten character (C39).
22. operator== and operator<< of points rewrite their const arguments: concurrent const use can
    leave a valid point off the curve (C50_equal_equal_refuted, C50_equal_isValid_refuted).
23. Param::init(CurveSNARK2) followed by Param::init(CurveSNARK1) leaves a doubling step that
    uses the coefficient of the first curve (C49_snark2_then_snark1_refuted).
24. EcT<Fp2>::isValid accepts points of the twist outside the group of order r, such as points of
    order 13 (C51_twist_refuted); the pairing theorems need the group of order r.
25. An mpz_class below 0 as exponent or scalar: the negative limb count becomes a huge block
    count, and limbs outside the number are read (C52_power_negative_refuted,
    C52_mul_negative_refuted).  In Java, Mpz.mod truncates, so that reducing a negative scalar
    modulo r leaves it negative (C53_mod_negative_refuted).
26. Fp::fromMpz copies the integer into the Montgomery representation: fromMpz(1) is not 1, and a
    number of more than 256 bits overruns the object (C52_fromMpz_value_refuted,
    C52_fromMpz_overflow_refuted).
27. Ec1.set and Ec2.set of the Java interface throw on coordinates off the curve after storing
    them: the object is invalid afterwards (C53_set_keeps_old_refuted).
