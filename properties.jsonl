{"id": "C01", "title": "Bit transmutation round-trips", "statement": "F32::from_bits(x.to_bits()) gives back x bit for bit, and from_bits(b).to_bits() == b for every u32 b; the value denoted by a pattern is the IEEE-754 binary32 decoding of its sign, exponent and mantissa fields.", "quantifier": "every f32 and every u32", "why_tests_cant": "A test samples a handful of floats; the claim is about every bit pattern, including subnormals, signed zeros, infinities and all NaN payloads.", "anchors": ["src/float.rs: to_bits, from_bits (163-179)"]}
{"id": "C02", "title": "abs clears exactly the sign", "statement": "abs(x) has the bits of x with the sign bit cleared: its value is |x| for finite x, +inf for infinities, NaN stays NaN; abs is idempotent and ignores the sign of its input.", "quantifier": "every f32 bit pattern (all 2^32), every NaN policy, checked and unchecked builds", "why_tests_cant": "A test samples a handful of floats; the claim is about every bit pattern, including subnormals, signed zeros, infinities and all NaN payloads.", "anchors": ["src/float/abs.rs: abs (11-13)", "src/f32ext.rs: abs (116)"]}
{"id": "C03", "title": "copysign composes magnitude and sign", "statement": "copysign(x, s) has the magnitude bits of x and the sign bit of s, so |copysign(x,s)| = |x|, its sign is that of s, and it never panics.", "quantifier": "every pair of f32 bit patterns", "why_tests_cant": "A test samples a handful of floats; the claim is about every bit pattern, including subnormals, signed zeros, infinities and all NaN payloads.", "anchors": ["src/float/copysign.rs: copysign (8-13)"]}
{"id": "C04", "title": "signum contract", "statement": "signum(x) is 1.0 for every non-NaN x with clear sign bit (including +0.0 and +inf), -1.0 for every non-NaN x with set sign bit (including -0.0 and -inf), NaN for NaN.", "quantifier": "every f32 bit pattern (all 2^32), every NaN policy, checked and unchecked builds", "why_tests_cant": "A test samples a handful of floats; the claim is about every bit pattern, including subnormals, signed zeros, infinities and all NaN payloads.", "anchors": ["src/float/signum.rs: signum (11-17)"]}
{"id": "C05", "title": "trunc is exact below 2^32", "statement": "For every finite |x| < 2^32 trunc(x) is exactly the integer part of x (rounded toward zero) and keeps the sign of x, also on zero results.", "quantifier": "every finite f32 with |x| < 2^32", "why_tests_cant": "Correctness depends on every exponent/mantissa combination; tests check a dozen values.", "anchors": ["src/float/trunc.rs: trunc (7-29)"]}
{"id": "C06", "title": "trunc beyond 2^32", "statement": "Exactly which finite x with |x| >= 2^32 trunc leaves unchanged (they are all integers): the documented result 'the integer part' fails for some of them, e.g. trunc(6442450944.0) = 4294967296.0, because the shift amount is taken modulo 32.", "quantifier": "every finite f32 with |x| >= 2^32", "why_tests_cant": "The failing set is spread over exponents 32..54, 64..86 and 96..118 and depends on low mantissa bits.", "anchors": ["src/float/trunc.rs: trunc (16-28)"]}
{"id": "C07", "title": "fract is exact below 2^32 and complements trunc", "statement": "For every finite |x| < 2^32, fract(x) = x - trunc(x) exactly, |fract(x)| < 1, it carries the sign of x, and trunc(x) + fract(x) evaluated in f32 arithmetic is x.", "quantifier": "every finite f32 with |x| < 2^32", "why_tests_cant": "The renormalisation by leading zeros must be right for each of the 23 shift amounts and every mantissa.", "anchors": ["src/float/fract.rs: fract (8-39)", "src/float/trunc.rs: trunc"]}
{"id": "C08", "title": "floor is exact on the i32 range", "statement": "For every finite |x| <= 2^31 floor(x) is the largest integer not above x, represented exactly.", "quantifier": "every finite f32 with |x| <= 2^31", "why_tests_cant": "Needs every float near every integer; tests use a few.", "anchors": ["src/float/floor.rs: floor (7-15)"]}
{"id": "C09", "title": "floor and ceil saturate outside the i32 range", "statement": "floor(x) = 2^31 for every x >= 2^31 (and +inf), -2^31 or its predecessor behaviour for every x < -2^31, and 0 for every NaN, so 'largest integer <= x' fails for every finite |x| > 2^31 (all such x are integers). ceil mirrors this.", "quantifier": "every f32 outside [-2^31, 2^31] and every NaN", "why_tests_cant": "A test samples a handful of floats; the claim is about every bit pattern, including subnormals, signed zeros, infinities and all NaN payloads.", "anchors": ["src/float/floor.rs: floor (7-15)", "src/float/ceil.rs: ceil (7-9)"]}
{"id": "C10", "title": "ceil is exact on the i32 range", "statement": "For every finite |x| <= 2^31 ceil(x) is the smallest integer not below x.", "quantifier": "every finite f32 with |x| <= 2^31", "why_tests_cant": "Needs every float near every integer.", "anchors": ["src/float/ceil.rs: ceil (7-9)"]}
{"id": "C11", "title": "round is nearest-half-away except on an explicit set", "statement": "For every finite |x| <= 2^23 other than +-0.49999997, round(x) is the nearest integer with ties away from zero; at +-0.49999997 it returns +-1; for odd integers 2^23 < |x| < 2^24 it returns a neighbouring integer instead of x; for even integers there, and all integers 2^24 <= |x| < 2^31, it returns x; beyond it saturates.", "quantifier": "every finite f32", "why_tests_cant": "The failures are isolated points that random tests miss.", "anchors": ["src/float/round.rs: round (7-9)"]}
{"id": "C12", "title": "rem_euclid lands in [0, |rhs|]", "statement": "For all finite x and finite nonzero y the result is the exact Euclidean remainder x - q*y (q the integer with 0 <= x - q*y < |y|) rounded once to f32; so it is finite and 0 <= r <= |y|, and it is exact when x % y >= 0. The upper bound |y| is reached (r == |y| for tiny negative x), so the strict bound fails. NaN, infinite x or zero y give NaN.", "quantifier": "every pair of finite f32 with nonzero divisor", "why_tests_cant": "Quotients up to 2^277 and cancellation cases cannot be enumerated.", "anchors": ["src/float/rem_euclid.rs: rem_euclid (7-15)"]}
{"id": "C13", "title": "div_euclid matches the Euclidean quotient", "statement": "For finite x and nonzero finite y with |x/y| <= 2^23, div_euclid(x,y) is an integer within 1 of the true Euclidean quotient, and differs from it exactly by trunc(round_to_f32(x/y)) - trunc(x/y); exact multiples are exact. It is not always the Euclidean quotient: div_euclid(1.0, 0.1) is 10, not 9.", "quantifier": "every pair of finite f32 in the stated range", "why_tests_cant": "Rounding of the quotient to an integer happens on isolated pairs.", "anchors": ["src/float/div_euclid.rs: div_euclid (7-17)"]}
{"id": "C14", "title": "sqrt relative error on normal inputs", "statement": "For every positive normal x, sqrt(x) is a positive normal number and (1 - 2^-24) <= sqrt(x)/true_sqrt(x) <= 1.06067.", "quantifier": "every positive normal f32", "why_tests_cant": "2^31 inputs; the documented figure is an 'average deviation'.", "anchors": ["src/float/sqrt.rs: sqrt (11-17)"]}
{"id": "C15", "title": "sqrt is monotone and panic free", "statement": "sqrt never panics; for all non-negative x <= y with clear sign bit, sqrt(x) <= sqrt(y).", "quantifier": "every pair of non-negative f32 including infinity", "why_tests_cant": "A test samples a handful of floats; the claim is about every bit pattern, including subnormals, signed zeros, infinities and all NaN payloads.", "anchors": ["src/float/sqrt.rs: sqrt (11-17)"]}
{"id": "C16", "title": "sqrt of negatives and NaN is NaN; edge values", "statement": "sqrt(x) is NaN for every x < 0 and every NaN. But sqrt(+0.0) is 1.5*2^-64 (not 0), sqrt(-0.0) is 1.5*2^64 and sqrt(+inf) is 2^64.", "quantifier": "every negative f32, every NaN, and the three edge values", "why_tests_cant": "A test samples a handful of floats; the claim is about every bit pattern, including subnormals, signed zeros, infinities and all NaN payloads.", "anchors": ["src/float/sqrt.rs: sqrt (11-17)"]}
{"id": "C17", "title": "invsqrt relative error on normal inputs", "statement": "For every positive normal x, invsqrt(x) is a positive normal number and |invsqrt(x)*true_sqrt(x) - 1| <= 0.0347.", "quantifier": "every positive normal f32", "why_tests_cant": "2^31 inputs; documentation gives an average.", "anchors": ["src/float/invsqrt.rs: invsqrt (9-11)"]}
{"id": "C18", "title": "invsqrt panics exactly on a half-line of negatives", "statement": "With overflow checks invsqrt(x) panics if and only if the bits of x exceed 0xBE6EB50D, i.e. for finite x iff x < -0.2331..., and on negative infinity and negative NaNs; without overflow checks it never panics.", "quantifier": "every f32 bit pattern (all 2^32), every NaN policy, checked and unchecked builds", "why_tests_cant": "The panic set is a range of 1.09e9 bit patterns, none of which is in the test table.", "anchors": ["src/float/invsqrt.rs: invsqrt (9-11)"]}
{"id": "C19", "title": "invsqrt is antitone", "statement": "For 0 <= x <= y (clear sign bit), invsqrt(y) <= invsqrt(x).", "quantifier": "every pair of non-negative f32", "why_tests_cant": "A test samples a handful of floats; the claim is about every bit pattern, including subnormals, signed zeros, infinities and all NaN payloads.", "anchors": ["src/float/invsqrt.rs: invsqrt (9-11)"]}
{"id": "C20", "title": "inv accuracy and involution", "statement": "For every normal 2^-126 <= x <= 2^126, 1 <= x*inv(x) <= 1.125 exactly over the reals; inv is antitone on non-negative inputs, and inv(inv(x)) == x bit for bit whenever 0 <= x <= 2^127.", "quantifier": "every f32 in the stated ranges", "why_tests_cant": "2^31 inputs.", "anchors": ["src/float/inv.rs: inv (12-36)"]}
{"id": "C21", "title": "inv of negative numbers", "statement": "inv never panics; inv(x) = +0.0 for every finite negative x (and -0.0) and every finite x > 2^127, so it is not an approximation of 1/x there; infinities give signed zeros and NaN gives NaN.", "quantifier": "every negative f32, infinities, NaN", "why_tests_cant": "A test samples a handful of floats; the claim is about every bit pattern, including subnormals, signed zeros, infinities and all NaN payloads.", "anchors": ["src/float/inv.rs: inv (17-35)"]}
{"id": "C22", "title": "recip relative error", "statement": "For every finite x with 2^-126 <= |x| <= 2^125, recip(x) is finite, has the sign of x and |x*recip(x) - 1| <= 1.5e-5.", "quantifier": "every normal f32 in the range, both signs", "why_tests_cant": "2^31 inputs.", "anchors": ["src/float/recip.rs: recip (7-22)"]}
{"id": "C23", "title": "recip edge values", "statement": "recip(+0.0) = +inf and recip(-0.0) = -inf; but recip(+inf) = -inf, recip(-inf) = +inf and recip(f32::MAX) = -inf, so recip is not an approximation of 1/x for large finite x. recip of NaN is NaN, recip never panics, and recip(-x) = -recip(x) for every nonzero non-NaN x (or both are NaN).", "quantifier": "every f32 for panic freedom and oddness; the listed edge values", "why_tests_cant": "A test samples a handful of floats; the claim is about every bit pattern, including subnormals, signed zeros, infinities and all NaN payloads.", "anchors": ["src/float/recip.rs: recip (7-22)"]}
{"id": "C24", "title": "hypot bounds", "statement": "For all finite a,b, not both zero, each zero or with square in [2^-126, 2^125], hypot(a,b) is a positive normal number between (1-2^-22) and 1.0607 times the true hypotenuse; for all non-NaN arguments hypot is symmetric and insensitive to signs, bit for bit; it never panics.", "quantifier": "every pair of finite f32 in the range", "why_tests_cant": "Pairs: 2^64 inputs.", "anchors": ["src/float/hypot.rs: hypot (7-9)"]}
{"id": "C25", "title": "mul_add is not fused", "statement": "mul_add(x,a,b) is round(round(x*a)+b); it differs from the correctly-rounded x*a+b on some inputs, although the module header calls it 'fused'.", "quantifier": "every triple for the equation; existence for the difference", "why_tests_cant": "Tests only use exact small integers.", "anchors": ["src/float/mul_add.rs: mul_add (7-9)"]}
{"id": "C26", "title": "exp accuracy", "statement": "For every f32 0 <= x <= 88.72283172607421875 exp(x) returns a finite positive number with relative error at most 0.000761; for every -87.3365478515625 <= x <= 0 the same with 0.0023975. The relative error 0.001 checked by the unit tests is exceeded on (-1, 0): some x there has relative error above 0.0023.", "quantifier": "every f32 in [-87.3365478515625, 88.72283172607421875], every build", "why_tests_cant": "About 2^31 inputs; tests use 20.", "anchors": ["src/float/exp.rs: exp (11-71)"]}
{"id": "C27", "title": "exp in the overflow window", "statement": "For every x in [88.72283935546875, 89.41597747802734375] exp panics with debug assertions; without them it returns +inf at the first float of the interval and NaN at every other one. These are the only panics: exp(x) panics iff debug assertions are on and x is in the interval.", "quantifier": "every f32 bit pattern, every build", "why_tests_cant": "A window of 90 000 floats absent from the tests.", "anchors": ["src/float/exp.rs: exp_ln2_approx (45-53)", "src/float.rs: set_exponent (199-207)"]}
{"id": "C28", "title": "exp limits", "statement": "exp(x) = +inf for every x >= 89.415985107421875 including +inf; exp(x) = +0 for every x <= -88.029693603515625 including -inf; between -88.03 and -87.3365478515625 the result is in [0, 2^-126]. For every input outside the interval of C27 exp returns a non-NaN float with sign bit clear.", "quantifier": "every f32 bit pattern, every build", "why_tests_cant": "A test samples a handful of floats; the claim is about every bit pattern, including subnormals, signed zeros, infinities and all NaN payloads.", "anchors": ["src/float/exp.rs: exp_ln2_approx"]}
{"id": "C29", "title": "exp does not propagate NaN", "statement": "exp(NaN) is +inf or +0, never NaN, for every NaN payload and every NaN policy of the hardware.", "quantifier": "every NaN bit pattern", "why_tests_cant": "A test samples a handful of floats; the claim is about every bit pattern, including subnormals, signed zeros, infinities and all NaN payloads.", "anchors": ["src/float/exp.rs: exp_ln2_approx"]}
{"id": "C30", "title": "ln accuracy", "statement": "For every finite x >= 1, |ln(x) - true ln(x)| <= 7.61e-5. For every normal 0 < x < 1, -0.11786 <= ln(x) - true ln(x) <= 7.61e-5. The large error below 1 is real: at x = 0.75 the result is more than 0.117 too low.", "quantifier": "every normal positive f32", "why_tests_cant": "2^31 inputs.", "anchors": ["src/float/ln.rs: ln (16-53)"]}
{"id": "C31", "title": "ln domain behaviour", "statement": "ln(x) is NaN for every x with the sign bit set (negatives, -0.0, -inf) and for every NaN. ln(+inf) is NaN (not +inf). ln(+0.0) is the finite number 0xC2B00F3C (about -88.03, not -inf). On +0 and every positive subnormal the result is finite and in [-88.03, -87.33], so at 2^-149 it is off by more than 15.", "quantifier": "every f32 bit pattern", "why_tests_cant": "A test samples a handful of floats; the claim is about every bit pattern, including subnormals, signed zeros, infinities and all NaN payloads.", "anchors": ["src/float/ln.rs: ln (16-53)"]}
{"id": "C32", "title": "log2, log10 accuracy", "statement": "For finite x >= 1, |log2(x) - true| <= 1.2e-4 and |log10(x) - true| <= 4.4e-5. For normal 0 < x < 1 the signed errors lie in [-0.1701, 1.2e-4] and [-0.0512, 4.4e-5].", "quantifier": "every normal positive f32", "why_tests_cant": "2^31 inputs.", "anchors": ["src/float/log2.rs: log2 (8-10)", "src/float/log10.rs: log10 (8-10)"]}
{"id": "C33", "title": "log base change", "statement": "For finite x >= 1 and finite b >= 2, log(x, b) is finite and |log(x, b) - log_b x| <= 1.2e-4 * (1 + log_b x).", "quantifier": "every pair in the range", "why_tests_cant": "2^62 pairs.", "anchors": ["src/float/log.rs: log (7-9)"]}
{"id": "C34", "title": "powf sign and domain rules", "statement": "For every x < 0 (finite or -inf) and every integer-valued n with |n| < 2^32, powf(x,n) is powf(-x,n) when n is even and its negation when n is odd (a panic of the one being a panic of the other); for non-integer n with 1 <= |n| < 2^32 the result is NaN. From 2^32 on the rule fails: powf(-1, 4294967808) is NaN although the exponent is an even integer.", "quantifier": "every negative base and every exponent in the ranges, every build", "why_tests_cant": "A test samples a handful of floats; the claim is about every bit pattern, including subnormals, signed zeros, infinities and all NaN payloads.", "anchors": ["src/float/powf.rs: powf (7-20)", "src/float.rs: is_integer (210-224), is_even (227-235)"]}
{"id": "C35", "title": "powf treats powers of two below one as integers", "statement": "For every x < 0 and every n = +-2^-k with 1 <= k <= 126, powf(x,n) = powf(-x,n), not NaN, contradicting the non-integer rule; every other n with |n| < 1 gives NaN unless its mantissa field is zero.", "quantifier": "every negative base, every finite exponent of magnitude below one, every build", "why_tests_cant": "Only fractional exponents with empty mantissa trigger it.", "anchors": ["src/float.rs: is_integer (210-224)"]}
{"id": "C36", "title": "powi exact and special cases", "statement": "powi(x,0) = 1 for every x including NaN; powi(+-0.0, n>0) returns its argument (so (-0.0)^2 = -0.0); powi(x,1) = x for finite x; for infinite or NaN x the result is an infinity (signed by sign(x) and n's parity) for 0 < n < 2^24 and 0 for -2^24 <= n < -1.", "quantifier": "every f32 bit pattern (all 2^32), every NaN policy, checked and unchecked builds", "why_tests_cant": "A test samples a handful of floats; the claim is about every bit pattern, including subnormals, signed zeros, infinities and all NaN payloads.", "anchors": ["src/float/powi.rs: powi (13-29)"]}
{"id": "C37", "title": "powi accuracy", "statement": "powi(x,n) differs from x^n by at most ((1+2^-24)^(|n|-1) - 1)|x^n| for n > 0, and ((1+2^-24)^(2|n|-1) - 1)|x^n| for n < 0, for every finite x and every n whose power stays in the normal range and whose exponent does not trigger the early exits of C40.", "quantifier": "every finite base, every exponent with |n| < 2^31, subject to the stated no-overflow/no-underflow condition", "why_tests_cant": "Unbounded exponent range.", "anchors": ["src/float/powi.rs: powi (55-67)"]}
{"id": "C38", "title": "powi terminates and does not panic away from i32::MIN and exponent overflow", "statement": "If n <> i32::MIN and extract_exponent(x)*n fits in i32 (in particular whenever |n| < 2^24), or overflow checks are off, powi terminates after at most 31 loop iterations without panic; and powi panics exactly when overflow checks are on and n = i32::MIN, or that product overflows and is evaluated (n <> 0, not a zero base with n > 0, |x| outside [0.5,2)).", "quantifier": "every f32 and every such i32", "why_tests_cant": "2^64 inputs.", "anchors": ["src/float/powi.rs: powi (13-68)"]}
{"id": "C39", "title": "powi at i32::MIN", "statement": "powi(x, i32::MIN) panics with overflow checks; without them it never returns when 0.5 <= |x| < 2 or when x's unbiased exponent is even; in the remaining cases it returns 0 (infinity for a zero base).", "quantifier": "every f32 x, every iteration budget", "why_tests_cant": "Requires reasoning about non-termination.", "anchors": ["src/float/powi.rs: powi (15, 55-67)"]}
{"id": "C40", "title": "powi premature overflow and underflow", "statement": "For normal x with exponent e (e <= -2 or e >= 1) powi(x,n) is infinity (signed by parity) when 127 < e*n and +0 when e*n < -149, both within i32. These exits are premature: there is x in (0.49,0.5) with powi(x,75)=0 although x^75 >= 2^-76, and powi(x,-64)=inf although x^-64 <= 2^65; and powi(4, 2^30) panics with overflow checks and returns 0 without.", "quantifier": "existence, with the exact early-exit condition for all x,n", "why_tests_cant": "The early-exit condition only misfires for particular combinations.", "anchors": ["src/float/powi.rs: powi (33-53)"]}
{"id": "C41", "title": "powi parity", "statement": "powi(-x,n) equals powi(x,n) for even n and nonzero x (NaNs identified); for odd n and non-NaN nonzero x it equals -powi(x,n) or both are +0; for 0.5 <= |x| < 2 it equals -powi(x,n). The two calls also panic, or fail to terminate, together.", "quantifier": "every base, every i32 exponent, every iteration budget", "why_tests_cant": "2^64 inputs.", "anchors": ["src/float/powi.rs: powi (13-68)"]}
{"id": "C42", "title": "cosh evenness, accuracy and exceeded documented error", "statement": "cosh(-x) and cosh(x) are the same float, or both NaN, or both panic, for every x. For |x| <= 88.72283172607421875 the error is at most 0.000381 e^|x| + 0.0012 e^-|x|; on [0,pi] at most 0.0089 and on [0,2pi] at most 0.2041. The documented maxima are exceeded: error above 0.005 somewhere on [0,pi] (documented 0.003) and above 0.19 somewhere on [pi,2pi] (documented 0.1). cosh panics iff debug assertions are on and 88.72283935546875 <= |x| <= 89.41597747802734375.", "quantifier": "every f32 for evenness and panics; every f32 in the ranges for the bounds", "why_tests_cant": "2^30 inputs.", "anchors": ["src/float/cosh.rs: cosh (11-15)"]}
{"id": "C43", "title": "cos accuracy", "statement": "For every finite |x| <= 2^20, |cos(x) - true cos(x)| <= 0.00112 + 1.001e-7*|x|; hence within the documented 0.002 for |x| <= 8192. The documented error fails for some x <= 12870.", "quantifier": "every f32 in [-2^20, 2^20], every NaN policy and build profile; existence for the refutation", "why_tests_cant": "2^31 inputs.", "anchors": ["src/float/cos.rs: cos (226-233)"]}
{"id": "C44", "title": "sin accuracy", "statement": "For every finite |x| <= 2^20-2, |sin(x) - true sin(x)| <= 0.00113 + 1.6e-7*|x|; hence within the documented 0.002 for |x| <= 4096. The documented error fails for some x <= 16045.", "quantifier": "every f32 in the range, every NaN policy and build profile; existence for the refutation", "why_tests_cant": "2^31 inputs.", "anchors": ["src/float/sin.rs: sin (8-10)"]}
{"id": "C45", "title": "cos and sin stay bounded", "statement": "For every finite |x| <= 2^20-2, |cos(x)| <= 1 and |sin(x)| <= 1. Without the range limit this is false: some finite x has cos(x) > 2e11. cos and sin of an infinity return that infinity (not NaN), tan of an infinity is NaN, and all three map NaN to NaN.", "quantifier": "every f32 in the range; both infinities; every NaN", "why_tests_cant": "2^32 inputs.", "anchors": ["src/float/cos.rs: cos", "src/float/sin.rs: sin"]}
{"id": "C46", "title": "sin_cos is the pair", "statement": "sin_cos(x) returns (sin(x), cos(x)) bit for bit, and for |x| <= 4096 the pair satisfies |s^2 + c^2 - 1| <= 0.0067.", "quantifier": "every f32 bit pattern (all 2^32), every NaN policy, checked and unchecked builds", "why_tests_cant": "A test samples a handful of floats; the claim is about every bit pattern, including subnormals, signed zeros, infinities and all NaN payloads.", "anchors": ["src/float/sin_cos.rs: sin_cos (8-10)", "src/f32ext.rs: sin_cos (261-263)"]}
{"id": "C47", "title": "tan accuracy; documented error fails near poles", "statement": "For |x| <= 2^20-2 with |cos x| >= 2e, e = 0.00113 + 1.6e-7|x|, the error of tan is at most 1.01 e (1+|tan x|)/(|cos x| - e); on |x| <= 1.2 it is at most 0.0114. The documented maximum error 0.6 is false: it exceeds 1.19 at x = 1.56.", "quantifier": "every f32 in the range; existence for the refutation", "why_tests_cant": "Continuum near the pole.", "anchors": ["src/float/tan.rs: tan (7-9)"]}
{"id": "C48", "title": "atan accuracy", "statement": "For every finite |x| < 2^64, atan(x) is finite, has the sign bit of x, has magnitude at most f32 pi/2, and |atan(x) - true atan(x)| <= 0.00284; the documented 0.002 is false (x = 0.5625).", "quantifier": "every f32 with |x| < 2^64, every NaN policy and build profile", "why_tests_cant": "2^31 inputs.", "anchors": ["src/float/atan.rs: atan (14-16), atan_norm (20-34)"]}
{"id": "C49", "title": "atan is odd and bounded, NaN on overflow", "statement": "For every finite |x| < 2^64, atan_norm(x) has the sign of x, magnitude at most 1, is within 0.00283 of atan(x) after scaling by pi/2, and atan_norm and atan are odd bit for bit. For every |x| >= 2^64, infinity or NaN both are NaN.", "quantifier": "every f32 bit pattern (all 2^32), every NaN policy, checked and unchecked builds", "why_tests_cant": "A test samples a handful of floats; the claim is about every bit pattern, including subnormals, signed zeros, infinities and all NaN payloads.", "anchors": ["src/float/atan.rs: atan_norm (20-34)"]}
{"id": "C50", "title": "atan2 accuracy and quadrants", "statement": "For finite x, y with |x|,|y| <= 2^62, one of them at least 2^-60, atan2(y,x) is finite and within 0.00284 of the true angle in (-pi, pi], except that for x<0, y<0, |y| < |x|/131072 it may be off by a whole turn (+pi instead of -pi); such a wrong result exists for x = -1.", "quantifier": "every pair in range, all four quadrants and both axes", "why_tests_cant": "2^62 pairs.", "anchors": ["src/float/atan2.rs: atan2 (16-19), atan2_norm (23-45)"]}
{"id": "C51", "title": "atan2 edge cases", "statement": "atan2(+-0,+-0) is NaN although documented as 0; atan2 is NaN whenever an argument is NaN or infinite or |y| >= 2^64, and for some tiny nonzero points; atan2_norm is in [0,4] on the range of C50, and reaches 4 although documented as [0,4).", "quantifier": "all four signed-zero combinations; every pair with a non-finite argument or |y| >= 2^64; every pair in range", "why_tests_cant": "Edge cases.", "anchors": ["src/float/atan2.rs: atan2 (8-45)"]}
{"id": "C52", "title": "asin accuracy and panic domain", "statement": "For every |x| <= 1, asin(x) does not panic and is within 0.0209 of the true value. With overflow checks asin of a non-NaN x panics exactly when |x| >= 0x3F8E236D (1.1104561) or x is infinite; without them it never panics. NaN gives NaN when it does not panic. Outside [-1,1] the result need not be NaN: asin(1.05) = 7e-39.", "quantifier": "every f32 in [-1,1]; every non-NaN f32 for the panic domain", "why_tests_cant": "2^31 inputs.", "anchors": ["src/float/asin.rs: asin (10-12)"]}
{"id": "C53", "title": "acos accuracy and domain", "statement": "acos never panics. For x = 0 and every 2^-64 < |x| <= 1, acos(x) is within 0.0327 of the true value. For every 0 < |x| <= 2^-64 it is NaN (true value about pi/2), and for every |x| > 1, infinity and NaN it is NaN.", "quantifier": "every f32", "why_tests_cant": "A test samples a handful of floats; the claim is about every bit pattern, including subnormals, signed zeros, infinities and all NaN payloads.", "anchors": ["src/float/acos.rs: acos (11-19)"]}
{"id": "C54", "title": "Integer conversions are exact", "statement": "F32::from(n) has exactly the value n for every i8, i16, u8, u16, hence is injective and order preserving; the F32x2/F32x3 conversions do so per component.", "quantifier": "every value of the four integer types", "why_tests_cant": "Joint claim over all values and vectors.", "anchors": ["src/float.rs: From<i8>, From<i16>, From<u8>, From<u16>", "src/vector/vector2d.rs: From<I8x2>.. (336-370)", "src/vector/vector3d.rs: From<I8x3>.. (355-403)"]}
{"id": "C55", "title": "Vector from_slice / from_iter panics exactly on a wrong length", "statement": "from_slice(s) panics iff s.len() != AXES and otherwise yields the vector whose to_array is s; this holds for any component type.", "quantifier": "every list of components of any length and type", "why_tests_cant": "Unbounded lists.", "anchors": ["src/vector.rs: from_slice (41-43)", "src/vector/vector2d.rs: from_iter (92-107)", "src/vector/vector3d.rs: from_iter (83-99)"]}
{"id": "C56", "title": "Vector iterator yields the components in order and is fused", "statement": "Starting from v.iter(), the first AXES calls of next return get(0..AXES) in order and every later call, however many, returns None.", "quantifier": "every vector, every number of next calls", "why_tests_cant": "Unbounded number of calls.", "anchors": ["src/vector/iter.rs: Iter::next (45-53)", "src/vector.rs: iter (46-48)"]}
{"id": "C57", "title": "get and index agree", "statement": "v[i] returns c iff v.get(i) = Some(c), and panics iff get(i) = None iff i >= AXES.", "quantifier": "every vector and every usize index", "why_tests_cant": "Every index.", "anchors": ["src/vector/vector2d.rs: get (116-122), index (177-183)", "src/vector/vector3d.rs: get (108-115), index (186-193)"]}
{"id": "C58", "title": "Conversions between vectors, tuples and arrays are mutually inverse", "statement": "From tuple/array to vector and back is the identity, in both directions; Vector3d::from(Vector2d) appends the default.", "quantifier": "every vector of any component type", "why_tests_cant": "Every value.", "anchors": ["src/vector/vector2d.rs: From impls (129-169)", "src/vector/vector3d.rs: From impls (122-178)"]}
{"id": "C59", "title": "Integer vector arithmetic is exact or panics", "statement": "For integer components, v+w, v-w and v*c give the exact components when all of them fit the type; otherwise they panic with overflow checks and, without, give each component reduced modulo 2^bits into the type's range.", "quantifier": "every integer type, every pair of vectors, both build modes", "why_tests_cant": "All operand pairs.", "anchors": ["src/vector/vector2d.rs: Add, Sub, Mul (186-244)", "src/vector/vector3d.rs: Add, Sub, Mul (196-270)"]}
{"id": "C60", "title": "Integer vector division", "statement": "v/c panics in both build modes iff c = 0 or some component is MIN and c = -1; otherwise it is the truncated quotient. DivAssign agrees with Div.", "quantifier": "every integer type and operands", "why_tests_cant": "A test samples a handful of floats; the claim is about every bit pattern, including subnormals, signed zeros, infinities and all NaN payloads.", "anchors": ["src/vector/vector2d.rs: Div, DivAssign (266-288)", "src/vector/vector3d.rs: Div, DivAssign (281-305)"]}
{"id": "C61", "title": "Scalar multiplication commutes", "statement": "c * v has the components c*x, c*y(, c*z) - for integers exact, wrapped or panicking like the scalar product, for floats bit for bit up to the choice of NaN - and equals v * c, panics included.", "quantifier": "every vector and scalar", "why_tests_cant": "All operands.", "anchors": ["src/vector/commutative.rs: impl_commutative (2-12)"]}
{"id": "C62", "title": "dot is symmetric and bilinear", "statement": "With overflow checks integer dot(v,w) returns iff all products and partial sums fit, and then the exact sum of products; without, it is that sum modulo 2^bits. It is symmetric in every mode and additive in each argument modulo 2^bits; magnitude_sq(v) = dot(v,v), panics included; float dot is symmetric bit for bit up to the choice of NaN.", "quantifier": "all vectors of every component type", "why_tests_cant": "All operands.", "anchors": ["src/vector/vector2d.rs: dot (63-65)", "src/vector/vector3d.rs: dot (65-67)"]}
{"id": "C63", "title": "cross product laws", "statement": "Integer cross(v,w): with overflow checks it returns iff all products and differences fit and is then exact, without it is exact modulo 2^bits; in both modes cross(v,w) = -cross(w,v), cross(v,v) = 0, dot(v,cross(v,w)) = dot(w,cross(v,w)) = 0 and Lagrange's identity hold in the arithmetic of the type. Float cross(v,w) and cross(w,v) are numeric negations (or both NaN) per component, and cross(v,v) is +0 when the products are finite.", "quantifier": "all vectors", "why_tests_cant": "All operands.", "anchors": ["src/vector/vector3d.rs: cross (70-76)"]}
{"id": "C64", "title": "perpendicular_dot is the z component of the 2D cross", "statement": "For every component type Vector2d::cross(v,w) has z = perpendicular_dot(v,w), and for integer components x = y = 0; for floats x,y are NaN when an operand is infinite.", "quantifier": "all 2D vectors", "why_tests_cant": "All operands.", "anchors": ["src/vector/vector2d.rs: perpendicular_dot (75-77), cross (83-85)"]}
{"id": "C65", "title": "Vector sum is a left fold and order independent for wrapping integers", "statement": "sum of a sequence of vectors is the left fold of + from the default; with overflow checks integer sum returns iff every prefix sum of every component fits and is then exact; without, it is the exact sum modulo 2^bits; any two orders that return agree.", "quantifier": "every finite sequence of vectors, every permutation", "why_tests_cant": "Unbounded sequences.", "anchors": ["src/vector/vector2d.rs: Sum (290-334)", "src/vector/vector3d.rs: Sum (307-353)"]}
{"id": "C66", "title": "distance and magnitude accuracy", "statement": "When the squares of the (converted) components are zero or normal and their sum is in (0, 2^126], magnitude(v) is in [1-2^-20, 1.0607] times the true Euclidean norm, and likewise distance(v,w) against the norm of the rounded differences; distance(v,w) = distance(w,v) for all inputs including NaN; distance(v,v) of finite v is 1.5*2^-64, not 0; both never panic.", "quantifier": "all vectors in range", "why_tests_cant": "All operands.", "anchors": ["src/vector.rs: distance (51-61), magnitude (72-83)"]}
{"id": "C67", "title": "normalized yields near-unit vectors", "statement": "Under the same range condition normalized(v) has finite components and Euclidean norm in [0.942, 1.00001]; normalizing a vector of (signed) zeros returns it unchanged, not NaN.", "quantifier": "all vectors in range", "why_tests_cant": "All operands.", "anchors": ["src/vector.rs: normalized (86-93)"]}
{"id": "C68", "title": "map applies the function once per component in order", "statement": "map(f) yields the vector of f applied to each component, for any f.", "quantifier": "every vector and function", "why_tests_cant": "All functions.", "anchors": ["src/vector.rs: map (97-102)"]}
{"id": "C69", "title": "mean definition and edge cases", "statement": "For every sequence of fewer than 2^31 items mean is exactly (left-to-right f32 sum starting from +0.0) / (count as f32); the empty sequence gives NaN; with overflow checks a longer sequence panics (the counter is an i32). For 1 <= n <= 2^20 finite values of magnitude at most M with n*M <= 2^126, |mean - true mean| <= (n+2)*M*2^-24 + 2^-150.", "quantifier": "every finite sequence", "why_tests_cant": "Unbounded sequences.", "anchors": ["src/statistics/mean.rs: mean (16-26)"]}
{"id": "C70", "title": "variance sign and edge cases", "statement": "variance of a non-empty slice is NaN or has no sign bit; it is the f32 sum of squared deviations over (len - 1); a slice of one finite element gives NaN; the empty slice gives -0.0, and stddev of the empty slice is 1.5*2^64.", "quantifier": "every slice of length below 2^64", "why_tests_cant": "Unbounded sequences.", "anchors": ["src/statistics/variance.rs: variance (19-29)", "src/statistics/stddev.rs: stddev (21-23)"]}
{"id": "C71", "title": "stddev tracks the square root of variance", "statement": "When variance(s) is a positive normal number v, stddev(s) is normal and within [1-2^-24, 1.06067] times sqrt(v); mean, variance and stddev never panic on a slice of fewer than 2^31 items.", "quantifier": "every slice", "why_tests_cant": "Unbounded sequences.", "anchors": ["src/statistics/stddev.rs: stddev (21-23)"]}
{"id": "C72", "title": "trim returns an order-preserving selection", "statement": "trim_at(t) yields exactly the input elements n with |n - mean|/stddev < t (all in f32), in order, each occurrence once; the k-th call of next returns the k-th selected element for every k and None ever after; trim is trim_at(2.0).", "quantifier": "every slice, threshold, number of next calls", "why_tests_cant": "Unbounded sequences.", "anchors": ["src/statistics/trim.rs: Iter::new (64-84), next (94-105)"]}
{"id": "C73", "title": "trim of degenerate slices is empty", "statement": "trim of a slice of one element, of a slice with a NaN or infinite element, with a NaN threshold, or with a threshold <= 0 yields nothing.", "quantifier": "every such slice", "why_tests_cant": "Unbounded sequences.", "anchors": ["src/statistics/trim.rs: Iter::new, next"]}
{"id": "C74", "title": "Quaternion conversions and accessors", "statement": "Conversions to and from tuples, arrays and accessors are mutually inverse and bit exact; From<Vector3d> gives a zero real part.", "quantifier": "every quaternion", "why_tests_cant": "All values.", "anchors": ["src/quaternion.rs: new (59), to_array (213), w/x/y/z (218-235), From impls (263-285,343-350)"]}
{"id": "C75", "title": "Quaternion product is Hamilton's", "statement": "Interpreted over the reals the product formula satisfies i^2=j^2=k^2=-1, ij=k, jk=i, ki=j and anticommutation, is associative, bilinear and has multiplicative norm; in f32, for components at most P and Q in magnitude with P*Q <= 2^120, each component is finite and differs from the exact Hamilton product by at most 14*2^-24*P*Q + 2^-147.", "quantifier": "all quaternions", "why_tests_cant": "All operands.", "anchors": ["src/quaternion.rs: Mul (290-297)"]}
{"id": "C76", "title": "Identity is neutral", "statement": "IDENTITY * q and q * IDENTITY compare equal to q componentwise for every finite q; with an infinite component the product has NaN components.", "quantifier": "every finite quaternion", "why_tests_cant": "All operands.", "anchors": ["src/quaternion.rs: IDENTITY (56), Mul (290-297)"]}
{"id": "C77", "title": "Conjugate laws", "statement": "conj(conj(q)) = q bit for bit; norm(conj q) and the real part of q*conj(q) equal norm(q) bit for bit (or all are NaN); over the reals conj reverses products and q*conj(q) is the real number norm(q).", "quantifier": "every quaternion", "why_tests_cant": "All operands.", "anchors": ["src/quaternion.rs: conj (107-109), norm (133-135)"]}
{"id": "C78", "title": "Quaternion inverse", "statement": "inv panics iff the computed norm compares equal to zero, which includes nonzero quaternions whose squares underflow (2^-80); otherwise, when the squares of the components are zero or normal and their sum N is at most 2^125, every component of inv(q) is within 12.51% (plus 2^-150) of that of conj(q)/N.", "quantifier": "every quaternion", "why_tests_cant": "All operands.", "anchors": ["src/quaternion.rs: inv (119-123)"]}
{"id": "C79", "title": "normalize gives near-unit norm", "statement": "When the squares of the components are zero or normal and their sum N is in (0, 2^126], normalize(q) is finite with Euclidean length in [0.965, 1.035], each component is the rounded product of the component of q with one common positive factor, and magnitude(q) is within [1-2^-20, 1.0607] times sqrt(N); normalize panics when the computed norm is zero.", "quantifier": "every quaternion in range", "why_tests_cant": "All operands.", "anchors": ["src/quaternion.rs: normalize (193-199)"]}
{"id": "C80", "title": "rotate is q v q*", "statement": "Over the reals rotate(q,v) is the vector part of q*(0,v)*conj(q), whose real part is 0; for unit q it preserves dot and cross products, and rotate(p*q,v) = rotate(p,rotate(q,v)); in f32, for |q_i| <= Q, |v_i| <= V, each component is within 80*2^-24*Q^2*V + 2^-145*(V+1) of it.", "quantifier": "all quaternions and vectors", "why_tests_cant": "All operands.", "anchors": ["src/quaternion.rs: rotate (157-181), Mul<Vector3d> (360-362)"]}
{"id": "C81", "title": "axis_angle gives a nearly unit half-angle quaternion", "statement": "For an axis with |v|^2 within 1e-5 of 1 and |theta| <= 8192, axis_angle(v,theta) is finite, its scalar part is within 0.0016 of cos(theta/2), each vector component within 0.0019 of v_i*sin(theta/2), and its squared norm is within 0.0068 of 1.", "quantifier": "every axis and angle in range", "why_tests_cant": "All operands.", "anchors": ["src/quaternion.rs: axis_angle (139-153)"]}
{"id": "C82", "title": "to_euler panic condition", "statement": "With overflow checks to_euler panics exactly when the computed 2(wy-xz), if not NaN, is infinite or at least 1.1104561 in magnitude; without them it never panics. Hence it never panics when w^2+x^2+y^2+z^2 <= 1.11, and never on the output of normalize.", "quantifier": "every quaternion; existence", "why_tests_cant": "All operands.", "anchors": ["src/quaternion.rs: to_euler (202-210)", "src/float/asin.rs"]}
{"id": "C83", "title": "from_two_vectors", "statement": "For f32 vectors with components at most 2^29 in magnitude from_two_vectors returns without panic a finite quaternion with non-negative real part; over the reals the formula turns u to the direction of v; when the antiparallel branch is taken the result is zero real part and a positive multiple of an axis orthogonal to u whose length is at least |u|/sqrt(2). Refuted: opposite vectors get a half turn. For (1.5,0,0) and (-1.5,0,0) the approximate square root makes the result a rotation by zero.", "quantifier": "every pair of vectors in range", "why_tests_cant": "All operands.", "anchors": ["src/quaternion.rs: from_two_vectors (65-104)"]}
{"id": "C84", "title": "Scaling and compound assignment agree", "statement": "q*k, k*q, q.scale(k) and q *= k give the same quaternion bit for bit, the componentwise f32 products; likewise += and -= agree with + and -, which are componentwise; also for vectors.", "quantifier": "every quaternion/vector and scalar", "why_tests_cant": "All operands.", "anchors": ["src/quaternion.rs: scale (184-190), Mul<f32> (300-320), AddAssign, SubAssign", "src/vector/vector2d.rs: AddAssign, SubAssign, MulAssign"]}
{"id": "C85", "title": "Panics and termination over the whole float API", "statement": "Of the 32 single-result methods of F32Ext only asin, invsqrt, exp, powf and powi can panic, each exactly under a stated condition (overflow checks and an operand whose bits exceed 0xBE6EB50D for invsqrt and for 1-x*x in asin; debug assertions and an exponent argument in [88.72283935546875, 89.41597747802734375] for exp and powf; overflow checks and n = i32::MIN or an overflowing exponent product for powi). All other methods return for every input in every build, and every method terminates (powi within 31 loop iterations unless n = i32::MIN).", "quantifier": "every method, every f32 bit pattern (all 2^32) per operand, every i32 for powi, every NaN policy, checked and unchecked builds", "why_tests_cant": "A test samples a handful of floats; the claim is about every bit pattern, including subnormals, signed zeros, infinities and all NaN payloads.", "anchors": ["src/f32ext.rs: F32Ext (114-279)", "src/float/*.rs"]}
{"id": "C86", "title": "NaN table of the float API", "statement": "With a NaN operand: abs, acos, atan, atan_norm, atan2, atan2_norm, copysign (first operand), cos, hypot, inv, ln, log, log2, log10, mul_add, recip, rem_euclid, signum, sin, sqrt and tan return NaN; asin returns NaN if it returns; floor and round return +0, ceil returns -0; trunc returns the infinity of the same sign; div_euclid returns an infinity; fract returns a finite number whose magnitude is the mantissa field over 2^23; exp returns +inf or 0; invsqrt returns a tiny positive number for a positive NaN, and for a negative NaN panics (overflow checks) or returns a number below -1e19.", "quantifier": "every NaN payload and sign, every NaN policy, checked and unchecked builds", "why_tests_cant": "A test samples a handful of floats; the claim is about every bit pattern, including subnormals, signed zeros, infinities and all NaN payloads.", "anchors": ["src/float/*.rs"]}
{"id": "C87", "title": "powf accuracy", "statement": "For x >= 1 and |n|(ln x + 0.0000761) <= 87.33, powf(x,n) is finite and positive with relative error at most 1.0023975 exp(0.0000761|n| + 0.0000039) - 1; for |n| <= 8 at most 0.0031. For normal 0 < x < 1 the quotient powf(x,n)/x^n lies in [0.9976 e^-(0.11786n+0.0000039), 1.0024 e^(0.0000761n+0.0000039)] for n >= 0 and in the mirrored interval for n <= 0. The 0.002 of the unit tests is exceeded: above 0.0023 for a base above one, and powf(0.75,1) is more than 11% low.", "quantifier": "every base and every exponent in the ranges, every build", "why_tests_cant": "the statement ranges over pairs of 32-bit inputs (2^64 cases) and compares with real-valued powers; the test vectors only use base 3 and 150", "anchors": ["src/float/powf.rs:7-20", "src/float/ln.rs:16-55", "src/float/exp.rs:11-54"]}
{"id": "C88", "title": "powf special values", "statement": "powf(x,+-0) = 1 for every finite x except -0.0; powf(1,n) = 1 for every finite n; powf(+0,n) = 0 for n >= 1.001 but powf(0,0.5) = 7.667e-20. NaN is not propagated: powf(x,NaN) is +inf or 0 for every x >= 0 (NaN for x < 0) and powf(NaN,n) is not NaN for every integer |n| < 2^32. powf(+inf,n) and powf(-0.0,n) are +inf or 0 for every n.", "quantifier": "every f32 in the named classes, every NaN payload, every build", "why_tests_cant": "special-value rows must hold for whole classes of floats, including every NaN payload", "anchors": ["src/float/powf.rs:7-20"]}
{"id": "C89", "title": "powf range and panics", "statement": "For x >= 1: powf(x,n) = +inf when n >= 0 and n(ln x - 0.0000761) >= 89.416, and = 0 when n <= 0 and n(ln x - 0.0000761) <= -88.0297. For x >= 0 powf panics iff debug assertions are on and the f32 product n*ln(x) is in [88.72283935546875, 89.41597747802734375] (so 2^128.5 panics); without debug assertions powf always returns.", "quantifier": "every f32 base and exponent in the ranges, every build", "why_tests_cant": "the panic set is a thin curve in a 2^64-point space", "anchors": ["src/float/powf.rs:7-20", "src/float/exp.rs:16-54", "src/float.rs:199-207"]}
{"id": "C90", "title": "to_euler accuracy", "statement": "For a quaternion with squared norm at most 1.11, |2(wy-xz)| <= 0.999999 and away from the pole, to_euler returns finite angles: sin(pitch) is within 0.021 of 2(wy-xz), and (rho sin, rho cos) of roll and of yaw are within 0.00284 rho + 7.6e-6 of the points (2(wx+yz), 1-2(x^2+y^2)) and (2(wz+xy), 1-2(y^2+z^2)) at distance rho. At the pole it fails: a quaternion of squared norm within 2e-7 of 1 with 2(wy-xz) = norm gets pitch 0 instead of pi/2.", "quantifier": "every quaternion in range; existence for the failure", "why_tests_cant": "Four free f32 components; the failure needs a norm one rounding above 1 at the pole.", "anchors": ["src/quaternion.rs: to_euler (202-210)", "src/float/asin.rs", "src/float/atan2.rs"]}
{"id": "C91", "title": "The to_euler formulas are the z-y-x Euler angles", "statement": "Over the reals, for a unit quaternion, angles satisfying the formulas of to_euler with cos(pitch) > 0 reproduce the rotation: rotate(q,v) = Rz(yaw) Ry(pitch) Rx(roll) v for every v, and the roll and yaw points both lie at distance cos(pitch).", "quantifier": "every real unit quaternion and vector", "why_tests_cant": "An algebraic identity between the rotation formula and the angle formulas.", "anchors": ["src/quaternion.rs: to_euler (202-210), rotate (157-181)"]}
{"id": "C92", "title": "Arithmetic on F32 and f32 mixes is IEEE-754 in every form", "statement": "For finite x and y every form of +, -, * and / (F32 op F32, F32 op f32, f32 op F32, and the three compound assignments) gives the nearest float to the exact result, or the infinity with its sign when that is out of range; x/0 is the infinity with the product sign for nonzero x and NaN for zero x. Every form of % gives exactly x - trunc(x/y)*y with the sign of x; it is NaN for a NaN operand, infinite x or zero y, and x for infinite y. A NaN operand makes every form NaN. Negation flips the sign bit only and is its own inverse.", "quantifier": "every pair of f32 bit patterns, every build and NaN choice", "why_tests_cant": "2^64 operand pairs for each of 29 impls; one swapped operand in one impl is easy to miss.", "anchors": ["src/float.rs: Add (238-284), Div (293-339), Mul (399-445), Neg (447-454), Rem (490-529), Sub (531-577)"]}
{"id": "C93", "title": "Comparison of F32 and f32 is the order of the values", "statement": "For non-NaN operands partial_cmp is Some of the comparison of the values, with the infinities outside every finite value; it is None exactly when an operand is NaN. == holds exactly when neither is NaN and the bits agree or both are zeros. All mixed forms agree; swapping operands reverses the answer; < is transitive.", "quantifier": "every pair (triple for transitivity) of f32 bit patterns", "why_tests_cant": "2^64 pairs, with NaN, zeros and infinities as corner cases.", "anchors": ["src/float.rs: derives (67), PartialEq (456-466), PartialOrd (468-478)"]}
{"id": "C94", "title": "Sum and Product accumulate one rounding per element", "statement": "For n <= 2^20 finite elements whose absolute values sum to at most 2^126, sum() is finite and within 1.1*n*2^-24 times the sum of absolute values of the exact sum. If every prefix product is between 2^-124 and 2^126 in size, product() is finite and within relative error 1.1*n*2^-24. A NaN element makes either result NaN.", "quantifier": "every list of floats up to 2^20 elements under the size hypotheses", "why_tests_cant": "A bound over all lists of all lengths.", "anchors": ["src/float.rs: Product (480-488), Sum (579-587)"]}
{"id": "C95", "title": "The F32 constants are the extremes they claim, and classification reads the bit fields", "statement": "MIN and MAX bound every finite float; MIN_POSITIVE is at most every normal magnitude; 1 + EPSILON is exact and no float lies strictly between 1 and it; MIN_EXP, MAX_EXP, MIN_10_EXP, MAX_10_EXP bracket MIN_POSITIVE and MAX by powers of 2 and 10; every finite float has at most MANTISSA_DIGITS digits in base RADIX, and 10^DIGITS is below 2^(MANTISSA_DIGITS-1). is_nan, is_infinite, is_finite, is_sign_positive and is_sign_negative are determined by the exponent, mantissa and sign fields as IEEE-754 says.", "quantifier": "every f32 bit pattern", "why_tests_cant": "Extremality quantifies over all 2^32 patterns.", "anchors": ["src/float.rs: constants (71-121), is_nan \u2026 is_sign_negative (123-154)"]}
{"id": "C96", "title": "num-traits Zero, One and Inv", "statement": "is_zero holds exactly for the two zeros, is_one exactly for the pattern 0x3F800000; adding zero() on either side compares equal to x and multiplying by one() on either side gives x bit for bit, for every non-NaN x; Inv::inv gives x*inv(x) between 1 and 9/8 for normal positive x up to 2^126; default() is zero().", "quantifier": "every f32 bit pattern, every build", "why_tests_cant": "Identities over all patterns including signed zeros and infinities.", "anchors": ["src/float.rs: Zero, One, Inv (598-640), Default (67)"]}
{"id": "C97", "title": "ln, log2, log10 have the right sign", "statement": "For every positive finite x (subnormals included) ln, log2 and log10 are finite, positive exactly when x > 1, negative exactly when x <= 1 - 2^-23, and zero in between (x = 1 and the float below it); a nonzero ln is at least 4e-5 in magnitude. ln is not monotone, not even above 1 (refuted by two neighbouring floats).", "quantifier": "every positive finite f32, every build", "why_tests_cant": "The sign near 1 depends on the rounding of a five-term polynomial whose value there is 6e-5; tests sample a dozen values far from 1.", "anchors": ["src/float/ln.rs: F32::ln (16-53)", "src/float/log2.rs (8-10)", "src/float/log10.rs (8-10)"]}
{"id": "C98", "title": "exp is monotone on nonnegative arguments, except at 1", "statement": "For 0 <= x1 <= x2 <= 88.7228317 exp(x1) <= exp(x2), unless x1 is 1 or the float below it and x2 > 1; in every case exp(x1) <= 1.00002*exp(x2). The exception is real: exp(1) > exp(1+2^-23), because the shortcut returns the constant E. On negative arguments monotonicity fails too (exp(-1) < exp(-1-2^-23)).", "quantifier": "every pair of finite f32 in range, every build", "why_tests_cant": "A statement about all pairs of neighbouring floats; tests look at isolated points.", "anchors": ["src/float/exp.rs: exp_ln2_approx (16-54), exp_smallx (63-71)"]}
{"id": "C99", "title": "exp and cosh stay on the right side of 1", "statement": "exp(x) >= 1 for every finite x in [0, 88.7228317]; 0 <= exp(x) <= 1 for every finite x <= 0; cosh(x) >= 1 for every finite |x| <= 88.7228317, although the two rounded exponentials can sum to less than 2. cosh is not monotone on nonnegative arguments (it drops after 1).", "quantifier": "every finite f32 in range, every build", "why_tests_cant": "cosh >= 1 hinges on a round-to-even tie for arguments near 2^-25; no test samples them.", "anchors": ["src/float/exp.rs: F32::exp (11-13)", "src/float/cosh.rs: F32::cosh (11-15)"]}
{"id": "C100", "title": "powf stays on the right side of 1 and is monotone in the exponent", "statement": "For positive finite x and any finite n: if x >= 1 and n <= 0, or x <= 1 and n >= 0, then powf(x,n) does not panic and lies in [0,1]. If x >= 1, n >= 0 and n*(ln x + 7.61e-5) <= 88.7228317 then powf(x,n) >= 1, and powf(x,m) <= 1.00002*powf(x,n) for 0 <= m <= n.", "quantifier": "every positive finite base, every finite exponent in the stated range, every build", "why_tests_cant": "Two-argument order statement over all floats.", "anchors": ["src/float/powf.rs: F32::powf (7-20)"]}
{"id": "C101", "title": "F32Ext forwards to F32", "statement": "Every method of the F32Ext trait implemented for f32 returns what the F32 method of the same name returns, with the arguments in the same order; sin_cos returns (sin, cos).", "quantifier": "every argument, every build", "why_tests_cant": "A swapped argument or a method forwarded to its neighbour (ln/log2, atan2/atan2_norm) is only seen by a test of that very method, and the crate tests the F32 methods, not the trait.", "anchors": ["src/f32ext.rs: impl F32Ext for f32 (114-279)"]}
{"id": "C102", "title": "Multiplication operators are cross product and rotation", "statement": "v*w on 3D integer vectors with overflow checks succeeds exactly when all six products and three differences fit, with the exact cross product; on 2D integer vectors it gives (0, 0, x1*y2-y1*x2), exact when checked and wrapped when not; for every component type v*w equals v.cross(w); the f32 cross product is within 5*2^-24*UV+2^-148 per component for components up to U and V; quaternion*vector equals rotate and is within 80*2^-24*Q^2*V+2^-145*(V+1) of the textbook rotation.", "quantifier": "every vector of every integer type, every f32 vector in range, every build", "why_tests_cant": "Sign and overflow cases over all components.", "anchors": ["src/vector/vector2d.rs: Mul (246-255)", "src/vector/vector3d.rs: cross (70-76), Mul (245-254)", "src/quaternion.rs: Mul<Vector3d> (354-363)"]}
{"id": "C103", "title": "Quaternion polynomials are the textbook formulas", "statement": "The expanded polynomials of mul, conj, dot, norm and rotate equal, over the reals, (s,u)(t,v)=(st-u.v, sv+tu+uxv), the negated vector part, the sum of products, the sum of squares, and (s^2-u.u)v+2(u.v)u+2s(uxv); the f32 product and dot product are within 14*2^-24*PQ+2^-147 of them; dot is symmetric and norm(q)=dot(q,q) bit for bit.", "quantifier": "every quaternion in range, every build", "why_tests_cant": "A sign error in one of 40 terms shows only for operands where that term is not zero.", "anchors": ["src/quaternion.rs: conj (107-109), dot (112-114), norm (133-135), rotate (157-181), Mul (287-298)"]}
{"id": "C104", "title": "from_two_vectors turns u towards v", "statement": "For finite vectors of length 2^-25 to 2^29 with u.v >= -0.9|u||v| the result is, up to 2^-19*k*|u||v| per component, k times (n+u.v, uxv) for some n in [0.999999, 1.0607]*|u||v| and with length in [0.965, 1.035]; that quaternion exactly turns u to (n^2-|u|^2|v|^2)u + 2(n+u.v)|u|^2 v. When u.v >= 0, rotating u by the result in f32 gives r with r.v >= 0.92|u||v| and |r x v| <= 0.0635|u||v|, i.e. within 4 degrees of v.", "quantifier": "every pair of f32 vectors in range, every build", "why_tests_cant": "The error comes from the approximate square root and varies with the operands; the crate tests one pair.", "anchors": ["src/quaternion.rs: from_two_vectors (65-104)", "src/float/sqrt.rs: F32::sqrt (11-17)"]}
{"id": "C105", "title": "variance and stddev against the exact sample values", "statement": "For 2 to 2^20 finite samples of size at most M with n*M^2 <= 2^120, variance is within (n+5)*2^-23*V + 3*d^2 + 2^-147 of the exact sample variance V (divisor n-1), where d = (n+2)*M*2^-24 + 2^-150 bounds the error of the mean. For n <= 1024, V >= 2^-100 and d <= sqrt(V)/100, stddev is between 0.9997 and 1.061 times sqrt(V).", "quantifier": "every slice of that length and range, every build", "why_tests_cant": "The error depends on the length and on the ratio of mean to deviation; tests use one short slice.", "anchors": ["src/statistics/variance.rs: Variance::variance (19-29)", "src/statistics/stddev.rs: StdDev::stddev (21-23)", "src/statistics/mean.rs: Mean::mean (16-26)"]}
{"id": "C106", "title": "axis_angle then rotate is Rodrigues' rotation", "statement": "With exact arithmetic and a unit axis v, rotating x by (cos(t/2), v sin(t/2)) gives x cos t + (v cross x) sin t + v (v.x)(1 - cos t). In f32, with |v|^2 within 1e-5 of 1, |theta| <= 8192 and components of x at most V <= 2^100, each component of rotate(axis_angle(v, theta), x) is finite and within 0.05*V + 2^-144 of that.", "quantifier": "every f32 axis, angle and vector in range, every build", "why_tests_cant": "A wrong sign or a missing half angle still gives a unit quaternion and passes a length check.", "anchors": ["src/quaternion.rs: axis_angle (139-153), rotate (157-181)"]}
{"id": "C107", "title": "Euler angles of turns about the axes", "statement": "to_euler of axis_angle about x gives roll with sine and cosine within 0.025 of those of theta, |sin pitch| <= 0.021 and yaw within 0.003 of 0 in sine and cosine; about z the same with yaw for roll; about y with cos theta >= 0.13 gives |sin pitch - sin theta| <= 0.029 and roll, yaw near 0. A quarter turn about y is refuted: pitch 4.2e-38, roll and yaw pi.", "quantifier": "every finite theta with |theta| <= 8192, every build", "why_tests_cant": "Swapped angles agree at 0, and the pole failure needs 2(wy-xz) to exceed 1.", "anchors": ["src/quaternion.rs: axis_angle (139-153), to_euler (202-215)", "src/float/asin.rs", "src/float/atan2.rs"]}
{"id": "C108", "title": "zero signs of floor, ceil and round", "statement": "floor and round never return -0 and ceil never returns +0, whatever the argument; so floor(-0) = round(-0) = +0 and ceil(+0) = -0. \"A zero is returned unchanged\" is refuted for the three.", "quantifier": "every bit pattern including NaN and infinities, every build", "why_tests_cant": "Assertions compare with ==, which does not distinguish the zeros.", "anchors": ["src/float/floor.rs", "src/float/ceil.rs", "src/float/round.rs", "src/float/trunc.rs"]}
{"id": "C109", "title": "floor, ceil, round and trunc are monotone", "statement": "x <= y (f32 comparison) implies floor x <= floor y, ceil x <= ceil y, round x <= round y and trunc x <= trunc y. fract is refuted to be monotone.", "quantifier": "every pair of floats in the order, infinities and saturated ranges included, every build", "why_tests_cant": "It is a statement about pairs across the saturation and 2^23 boundaries; tests look at single values below 100.", "anchors": ["src/float/floor.rs", "src/float/ceil.rs", "src/float/round.rs", "src/float/trunc.rs", "src/float/fract.rs"]}
{"id": "C110", "title": "idempotence, negation and enclosure of the rounding functions", "statement": "floor, ceil, round and trunc applied twice give the same bits as applied once. ceil(-x) = -floor(x), floor(-x) = -ceil(x), trunc(-x) = -trunc(x) bit for bit, and round(-x) has the value -round(x) for non-NaN x; bit for bit that is refuted. For |x| <= 2^31: floor x <= x <= ceil x, they differ by at most 1, trunc lies between them, and they coincide exactly on integers.", "quantifier": "every bit pattern (enclosure: finite |x| <= 2^31), every build", "why_tests_cant": "A test checks one function at a few points and never relates two of them.", "anchors": ["src/float/floor.rs", "src/float/ceil.rs", "src/float/round.rs", "src/float/trunc.rs"]}
{"id": "C111", "title": "functions followed by their inverses", "statement": "exp(ln x) is within 0.084 % of x for 1 <= x <= 2^127, between 0.885x and 1.0025x for 2^-125 <= x < 1 (a 10 % bound is refuted at 0.7). |ln(exp x) - x| <= 0.00084 for 0 <= x <= 88.7228. On [-1,1]: |sin(asin x) - x| <= 0.0221, |cos(acos x) - x| <= 0.0339 except for 0 < |x| <= 2^-64, |tan(atan x) - x| <= 0.0176. sqrt(x)*sqrt(x) in f32 is between 0.9999997x and 1.12503x for 2^-125 <= x <= 2^126; sqrt(x)*invsqrt(x) is between 0.9652 and 1.0975 for normal x.", "quantifier": "every f32 in the ranges, every build", "why_tests_cant": "Tests check each function against a table; no test composes two.", "anchors": ["src/float/exp.rs", "src/float/ln.rs", "src/float/asin.rs", "src/float/sin.rs", "src/float/acos.rs", "src/float/cos.rs", "src/float/tan.rs", "src/float/atan.rs", "src/float/sqrt.rs", "src/float/invsqrt.rs"]}
{"id": "C112", "title": "symmetries of the trigonometric functions", "statement": "atan is odd at every float and asin at every non-NaN float, bit for bit (NaNs identified; asin panics at x exactly when at -x). acos(-x) is the f32 difference pi - acos(x) for every x > 0, bit for bit. |cos(-x) - cos(x)| <= 1e-5 + 5e-7|x| for |x| <= 524288 and |sin(-x) + sin(x)| <= 1.1e-5 + 8e-7|x| for |x| <= 200000; bitwise evenness of cos, oddness of sin (at 0) and oddness of tan to within 100 (near pi/2) are refuted.", "quantifier": "every f32 in the ranges, every build", "why_tests_cant": "Tests compare each value with a table to 0.02; they never compare x with -x.", "anchors": ["src/float/atan.rs", "src/float/asin.rs", "src/float/acos.rs", "src/float/cos.rs", "src/float/sin.rs", "src/float/tan.rs"]}
{"id": "C113", "title": "where sqrt, inv and invsqrt are exact", "statement": "For every positive normal x, sqrt(x) equals the real square root if and only if x is an even power of two or 4095^2 times an even power of two. For 2^-126 <= x <= 2^126, inv(x) is the exact reciprocal if and only if x is a power of two. invsqrt(x) is never the exact reciprocal square root of a positive normal x.", "quantifier": "every positive normal f32, every build", "why_tests_cant": "Tests compare a dozen points within 5 %; exactness on a set described by a formula needs all 2^31 inputs.", "anchors": ["src/float/sqrt.rs", "src/float/inv.rs", "src/float/invsqrt.rs"]}
{"id": "C114", "title": "the proved error bounds are nearly reached", "statement": "There are inputs at which the error is at least: cos 0.00109, sin 0.00109 (bounds 0.00112, 0.00113 near 0), tan 0.00568 on |x| <= 1.2 (bound 0.0114), atan 0.002827 (0.00284), asin 0.01797 (0.0209), acos 0.02896 (0.0327), exp 0.000755 e^x for x > 0 (0.000761) and 0.00239 e^x for x < 0 (0.0023975), cosh 0.0003778 e^x (0.000381), ln 6.9e-5 above 1 (7.61e-5) and -0.11777 below (-0.11786), log2 1.037e-4 and -0.1699 (1.2e-4, -0.1701), log10 3.24e-5 and -0.05115 (4.4e-5, -0.0512), sqrt factor 1.06066 (1.06067), invsqrt +0.03397 and -0.03436 (0.0347), inv factor 1.125 (1.125), recip 9.489e-6 (1.5e-5).", "quantifier": "there exists an f32, for every build", "why_tests_cant": "The test tables do not contain the worst inputs, so the tests suggest smaller errors than occur.", "anchors": ["src/float/cos.rs", "src/float/sin.rs", "src/float/tan.rs", "src/float/atan.rs", "src/float/asin.rs", "src/float/acos.rs", "src/float/exp.rs", "src/float/cosh.rs", "src/float/ln.rs", "src/float/log2.rs", "src/float/log10.rs", "src/float/sqrt.rs", "src/float/invsqrt.rs", "src/float/inv.rs", "src/float/recip.rs"]}
{"id": "C115", "title": "trigonometric functions near zero", "statement": "For every |x| <= 2^-25: sin(x) = +0, tan(x) = +0 and cos(x) = 1, bit for bit. For 2^-100 <= |x| <= 2^-12, atan(x) has the sign of x and 0.936|x| <= |atan(x)| <= 0.937|x|. For 2^-99 <= |x| <= 2^-13, asin(x) has the sign of x and 0.904|x| <= |asin(x)| <= 0.906|x|. So the relative error near 0 is 100 %, 6 % and 10 %.", "quantifier": "every f32 in the ranges, every build", "why_tests_cant": "Tests check absolute error at table points and never a nonzero argument this small.", "anchors": ["src/float/sin.rs", "src/float/cos.rs", "src/float/tan.rs", "src/float/atan.rs", "src/float/asin.rs"]}
{"id": "C116", "title": "exact means, equal samples, negated samples", "statement": "If the samples are k_i 2^e with sum |k_i| <= 2^24, mean is the exact mean rounded once (in particular for integers). For n >= 2 equal samples with n max(1,|k|) <= 2^24 the mean is the sample, the variance +0, the standard deviation 1.5*2^-64, and trim_at with a finite t > 0 keeps every item. In general the mean of three equal samples can be smaller than the sample with positive variance, and reordering can change the mean from 0 to above 0.3. Negating every sample of any nonempty list shorter than 2^31 negates the mean, leaves variance and stddev unchanged, and trim_at keeps the same items.", "quantifier": "every list of samples of any length in the stated range, every build", "why_tests_cant": "Quantifies over lists of arbitrary length and sample values; the tests use two fixed lists.", "anchors": ["src/statistics/mean.rs", "src/statistics/variance.rs", "src/statistics/stddev.rs", "src/statistics/trim.rs"]}
{"id": "C117", "title": "scaling by powers of two", "statement": "Multiplying inputs by a power of two (same sign; each value 0 or normal in the ranges below) scales the approximations exactly: sqrt(4^k x) = 2^k sqrt(x), invsqrt(4^k x) = 2^-k invsqrt(x), inv and recip of 2^k x are 2^-k times those of x, hypot, vector and quaternion magnitude scale by 2^k and quaternion norm by 4^k, Quaternion::inverse by 2^-k, (sums of squares nonzero, squares 0 or normal, sums at most 2^126; inverse: components 0 or in [2^-30,2^30]; inv up to 2^126, recip up to 2^125), while Vector::normalized, Quaternion::normalize and, for coordinates 0 or of magnitude in [2^-61,2^61], atan2 return the identical result. For 2 to 2^16 samples that are 0 or of magnitude in [2^-16,2^16] in both lists, mean scales by 2^k, variance by 4^k, and if the variance is positive stddev scales by 2^k and trim_at keeps the same items. With variance 0 stddev does not scale: it stays at 1.5*2^-64.", "quantifier": "every k and every pair of inputs in the stated ranges, every build", "why_tests_cant": "Relates the outputs at two different inputs for every scale factor; the tests look at single outputs at fixed inputs.", "anchors": ["src/float/sqrt.rs", "src/float/invsqrt.rs", "src/float/inv.rs", "src/float/recip.rs", "src/float/hypot.rs", "src/float/atan2.rs", "src/vector.rs", "src/quaternion.rs", "src/statistics/mean.rs", "src/statistics/variance.rs", "src/statistics/stddev.rs", "src/statistics/trim.rs"]}
{"id": "C118", "title": "a quaternion and its negation", "statement": "For every q with finite components, -q and q give the same rotate, to_euler, norm and magnitude bit for bit (rotate and norm for every q, NaNs identified); normalize(-q) = -normalize(q), inverse(-q) = -inverse(q), panicking together; conj(-q) = -conj(q); q.scale(-1) = -q. (-p)*q and p*(-q) are the negation of p*q as numbers and (-p)*(-q) = p*q bit for bit, for all p, q. rotate(q, -v) is the negation of rotate(q, v). axis_angle(-v, t) is the conjugate of axis_angle(v, t). If from_two_vectors(u, v) is finite with nonzero scalar part, from_two_vectors(v, u) has the same scalar part and the negated vector part. conj(p*q) = conj(q)*conj(p) is refuted in f32.", "quantifier": "every quaternion, vector and angle (finite where stated), every build and choice of NaN", "why_tests_cant": "Relates two runs on all quaternions, including overflow, infinities and signed zeros; the tests check single values.", "anchors": ["src/quaternion.rs", "src/vector/vector3d.rs"]}
{"id": "C119", "title": "powi, hypot, the norms and the mean are monotone", "statement": "powi(x, n) for 0 < n < 2^24 never decreases when a nonnegative base x grows, infinity included and across the early exits. hypot, the Vector2d, Vector3d and quaternion magnitudes never decrease when components grow in absolute value, overflow included. The mean of up to 2^24 samples never decreases when samples grow, as long as both results are finite. recip, atan, asin, acos, cos and tan are not monotone where the function they approximate is: refuted on neighbouring floats.", "quantifier": "all f32 bases and exponents 0 < n < 2^24; all components without NaN; all sample slices of at most 2^24 elements; all environments", "why_tests_cant": "Pairs of floats, and the breaks found by search sit between neighbouring floats.", "anchors": ["src/float/powi.rs", "src/float/hypot.rs", "src/vector.rs", "src/quaternion.rs", "src/statistics/mean.rs"]}
{"id": "C120", "title": "trim drops at most a quarter of the samples", "statement": "For 2 to 4090 samples of any element type whose f32 variance is finite, trim drops at most (n-1)/4 samples (Chebyshev's inequality, in f32 and with the approximate square root); with 2 to 4 samples it keeps all. For trim_at(t) with finite t >= 1 and up to 2^20 samples, k dropped samples satisfy k*t^2*(1-(n+10)*2^-24) <= n-1. sqrt(x) >= (1-2^-24)*true sqrt(x) for every finite x >= +0, subnormals included. If the variance overflows this fails: of (2^100, -2^100), with mean 0, trim keeps nothing.", "quantifier": "all slices of 2 to 4090 (trim) or 2^20 (trim_at) elements with finite variance, all element types and conversions, all finite thresholds >= 1, all environments", "why_tests_cant": "A bound over all sample vectors and sizes; random samples rarely come near it and the f32 rounding of the sums could break it on crafted data.", "anchors": ["src/statistics/trim.rs", "src/statistics/variance.rs", "src/float/sqrt.rs"]}
{"id": "C121", "title": "powi is exact where it can be, and antitone for negative exponents", "statement": "If every power of x up to the N-th is an f32 then powi(x, N) is exactly x^N; in particular for integer bases with |m|^N <= 2^24 and for powers of two down to 2^-149, also with negative exponents. powi(x, 2) is the rounded product x*x for finite |x| >= 2^-74, overflow included; below that the early exit can return 0 where x*x is 2^-149 (refuted). powi(x, 3) is x*(x*x) for 2^-49 <= |x| < 2^42 and powi(x, -1) is 1/x for every x that is not NaN. For 0 < n < 2^24 and 0 <= x <= y, powi(y, -n) <= powi(x, -n), zero and infinity included, and powi(x, n) is on the same side of 1 as x.", "quantifier": "all f32 bases and exponents in the stated ranges, all environments", "why_tests_cant": "The exponent is a free 31-bit parameter and the ordering is over pairs of floats.", "anchors": ["src/float/powi.rs"]}
{"id": "C122", "title": "f32 inner products and norms: error bounds, Cauchy-Schwarz, triangle inequality", "statement": "dot of f32 vectors is within (3*2^-24 + 2^-46) of the sum of the absolute products, plus 2^-148 (2*2^-24 + 2^-46 in two dimensions, also for perpendicular_dot), as long as that sum is at most 2^126. magnitude is exactly sqrt(dot(v, v)), distance is exactly the magnitude of the difference and hypot(x, y) the magnitude of (x, y), for all floats. For components up to 2^61, including zero and tiny ones: the magnitude is at least (1 - 2^-20) times the norm and at most 1.06067 times it or between 1.5*2^-64 and 2^-63; |dot(u, v)| <= (1 + 2^-18) |u| |v| for the computed values; distance(u, w) <= 1.0607 (distance(u, v) + distance(v, w)), and the same for the magnitude of a sum; a factor 1.0588 is not enough (refuted). A normalized vector has norm at most 1 + 1.5*2^-20, so the computed cosine of the angle between two vectors is at most 1 + 2^-18; it can exceed 1, and acos is then NaN (refuted).", "quantifier": "all f32 vectors in the stated ranges, all environments", "why_tests_cant": "Pairs and triples of vectors of floats, with worst cases where rounding, underflow and the error of the bit-level sqrt meet.", "anchors": ["src/vector/vector2d.rs", "src/vector/vector3d.rs", "src/vector.rs", "src/float/sqrt.rs", "src/float/hypot.rs"]}
{"id": "C123", "title": "Quaternion algebra in f32: associativity, composition of rotations, norm, isometry, inverse", "statement": "For finite f32 quaternions and vectors with Euclidean norms at most P, Q, R, V (between 1 and 2^30 for products, 2^20 for rotations; u = 2^-24): (1) (p q) r and p (q r) differ per component by at most 85 u PQR, and exact associativity is false ((4097*4097)*4099). (2) rotate(p q, v) and rotate(p, rotate(q, v)) differ per component by at most 380 u P^2 Q^2 V, and are not always equal. (3) rotate(conj q, rotate(q, v)) is |q|^4 v within 241 u Q^4 V per component. (4) norm(p q) is |p|^2 |q|^2 within 71 u P^2 Q^2. (5) The inner product of two rotated vectors is |q|^4 times that of the vectors within 321 u Q^4 U V. (6) If every component of q is zero or has a square in the normal range and 2^-80 <= |q|^2 <= 2^80, inv does not panic and q * inv(q) has scalar part in [0.999997, 1.12502] and vector part at most 1.2e-6 per component. (7) For an axis v of squared length within 1e-5 of 1 and angles up to 8192, axis_angle(v, a) * axis_angle(v, b) is (cos((a+b)/2), v sin((a+b)/2)) within 0.0077 per component.", "quantifier": "all finite f32 quaternions, vectors and angles in the stated ranges", "why_tests_cant": "The laws relate results of two or three chained operations for up to twelve independent f32 inputs; the bounds are worst cases over all roundings.", "anchors": ["src/quaternion.rs"]}
{"id": "C124", "title": "cos and sin are monotone between their extrema", "statement": "Let turns(x) be x times 10680707/2^26 (the f32 value of 1/(2 PI)) rounded to nearest, and h = 13176795/2^23 the f32 value of PI/2. turns(x) is x/(2 PI) within 1.5921e-8 |x| + 2^-150. For finite f32 x <= y of absolute value at most 10^6 and any integer n: (1) if n - 1/2 <= turns(x) and turns(y) <= n then cos x <= cos y, with no error term. (2) If n <= turns(x) and turns(y) <= n + 1/2, and turns(x) >= 1/4 in the case n = 0, then cos y <= cos x, with no error term. (3) If 0 <= turns(x) and turns(y) <= 1/2 then cos y <= cos x + 2^-21; without the term this is false (1.4044012e-7 and the next float). (4) In terms of x and y: cos rises on [-2h, 0] and [2h, 4h], falls on [-4h, -2h] and [h, 2h], and falls up to 2^-21 on [0, 2h]. sin rises on [-h, h], falls on [-3h, -h] and [2h, 3h], and falls up to 2^-21 on [h, 3h]; the term is needed there too (1.5712669 and the next float).", "quantifier": "all pairs of finite f32 up to 10^6 in one half turn", "why_tests_cant": "Monotonicity is about pairs of inputs, and a break between neighbouring floats is one or two ulps at a few isolated places; the exact results hold for every half turn up to 159154.", "anchors": ["src/float/cos.rs", "src/float/sin.rs"]}
{"id": "C125", "title": "atan, asin and acos keep the order up to a few roundings", "statement": "Let u = 2^-24. (1) For finite f32 x <= y of absolute value below 2^64, atan x <= atan y + 15 u max(|atan x|, |atan y|), results finite. (2) For 0 <= x <= y <= 2^-30, subnormals included, atan x <= atan y with no error term. (3) For -1 <= x <= y <= 1, asin panics for neither and asin x <= asin y + 15 u max(|asin x|, |asin y|). (4) For -1 <= x <= y <= 1, each zero or of absolute value above 2^-64, acos panics for neither, the results are finite and acos y <= acos x + 28 u. (5) None of (1), (3), (4) holds without its error term: neighbouring floats at 1.23578942 (atan), 0.768685997 (asin) and 0.125000685 (acos) are mapped the wrong way round.", "quantifier": "all ordered pairs of finite f32 in the stated ranges", "why_tests_cant": "The functions are not monotone, so the claim is a bound over all pairs of inputs; the worst violations are four ulps at isolated places.", "anchors": ["src/float/atan.rs", "src/float/asin.rs", "src/float/acos.rs"]}
{"id": "C126", "title": "ln, log2 and log10 keep the order up to a few roundings", "statement": "Let u = 2^-24. For finite f32 0 <= x <= y (with +0.0 and subnormals, and across x = 1 and every power of two) all results are finite and (1) ln x <= ln y + 2e-6 + 4.1 u max(|ln x|, |ln y|); (2) log2 x <= log2 y + 3e-6 + 6.2 u max(|log2 x|, |log2 y|); (3) log10 x <= log10 y + 1e-6 + 6.2 u max(|log10 x|, |log10 y|). (4) If x is normal and y >= 1.0001 x then ln x + 2.5e-5 <= ln y, log2 x < log2 y and log10 x < log10 y. (5) The order is not kept exactly: there are floats 1 < x < y (1.50000167 and the next one) with ln y < ln x, log2 y < log2 x and log10 y < log10 x.", "quantifier": "all ordered pairs of finite f32 at or above +0.0", "why_tests_cant": "A statement about all pairs; below one ln is off by up to 0.118, so its accuracy says nothing about its order, and the violations that do occur are a few ulps at isolated places.", "anchors": ["src/float/ln.rs", "src/float/log2.rs", "src/float/log10.rs"]}
{"id": "C127", "title": "exp and cosh keep the order up to a few roundings", "statement": "(1) For finite f32 -87.3365478515625 <= x <= y <= 88.72283172607421875 exp x and exp y are finite and positive and exp x <= 1.000034 exp y; if moreover |x - 1| >= 2^-23 and |y + 1| >= 2^-23 then exp x <= 1.000003 exp y; and if x + 5e-5 <= y then exp x < exp y. (2) For every pair of finite x <= y <= 88.72283172607421875, however negative, exp x <= 1.000034 exp y + 2^-126. (3) For finite x, y with |x| <= |y| <= 88.72283172607421875 cosh x and cosh y are finite and cosh x <= 1.000032 cosh y; if |x| and |y| are both at least 2^-23 away from 1 then cosh x <= 1.000002 cosh y.", "quantifier": "all ordered pairs of finite f32 up to the overflow threshold", "why_tests_cant": "A statement about all pairs of arguments; its error against the true exponential is hundreds of ulps in places, so its accuracy says nothing about its order, and C98 has the order of exp for non-negative arguments only.", "anchors": ["src/float/exp.rs", "src/float/cosh.rs"]}
{"id": "C128", "title": "powf keeps the order of exponents and of separated bases", "statement": "Below, results never panic, are finite and nonnegative, and a <~ b means a <= 1.000034 b + 2^-126. (1) For every x >= 1 and finite m <= n with n(ln x + 7.61e-5) <= 88.72283172607421875, powf(x,m) <~ powf(x,n). (2) For normal 0 < x < 1 and finite m <= n with -m(0.11786 - ln x) <= 88.72283172607421875, powf(x,n) <~ powf(x,m). (3) For normal x > 0 and y >= 1.0001 x: if n >= 0, and n(ln y + 7.61e-5) <= 88.72283172607421875 in case y >= 1, then powf(x,n) <~ powf(y,n); if n <= 0, and -n(0.11786 - ln x) <= 88.72283172607421875 in case x < 1, then powf(y,n) <~ powf(x,n). (4) Neighbouring bases are not ordered: there are 1 < x < y and n > 0 with powf(x,n) > 1.0008 powf(y,n).", "quantifier": "all finite exponents, however large, and all normal positive bases, up to the overflow threshold", "why_tests_cant": "A statement about all triples; the composition of two approximations that are themselves not monotone, where a fall of eight ulps in ln is turned into 0.08 % by the seams of exp.", "anchors": ["src/float/powf.rs", "src/float/ln.rs", "src/float/exp.rs"]}
{"id": "C129", "title": "tan keeps the order between its poles", "statement": "(1) With turns as in C124: if finite |x|, |y| <= 10^6, x <= y, turns(x) >= 1/8 and turns(y) <= 1/2 then cos y <= cos x, with no error term. (2) For finite f32 -13176793/2^23 <= x <= y <= 13176794/2^23 (from two floats above the f32 value 13176795/2^23 of -PI/2 to one float below that of PI/2) tan x and tan y are finite and tan x <= tan y + 14*2^-24 |tan y| + 2^-148; if x <= 0 or x >= 0.7853982 then tan x <= tan y with no error term. (3) tan of the f32 PI/2 is +inf and of the next float above it negative; tan of the f32 -PI/2 and of the next float above it is -inf. (4) Without the error term (2) is false between 0 and 1.", "quantifier": "all ordered pairs of finite f32 between the poles", "why_tests_cant": "A statement about all pairs; the quotient of two approximations, one of which is not monotone, with an error of 0.6 and more near the poles.", "anchors": ["src/float/tan.rs", "src/float/sin.rs", "src/float/cos.rs"]}
{"id": "C130", "title": "The derived == of vectors and quaternions is equality of numbers, and the operations respect it", "statement": "(1) Vectors of integers: v == w iff v = w. (2) Vectors of f32 and quaternions: == iff every pair of components is equal as extended real numbers (same finite value, so +0.0 and -0.0 are equal, or the same infinity). (3) == is symmetric and transitive, and v == v iff no component is NaN. (4) If v == w and no component of v is a zero then v and w are identical. (5) Equal arguments give results that are equal, or NaN, component by component: add, sub, scaling, dividing by one scalar, dot, perpendicular_dot, cross, normalized; for quaternions add, sub, mul, scaling, conj, dot, rotate, conversion from a vector. Magnitude and distance of equal vectors, norm and magnitude of equal quaternions are identical; inverse and normalize panic for both or for neither and otherwise agree. (6) v + default == v for every v without NaN, v - v == default for every finite v. (7) v == w iff their three-dimensional embeddings are equal, and iff their conversions to f32 are, for components from -32768 to 65535. (8) Division by equal scalars can differ: (1, 1) / 0.0 != (1, 1) / -0.0.", "quantifier": "all vectors and quaternions, every NaN pattern and signed zero", "why_tests_cant": "A relation between two runs over all pairs of arguments that differ only in signs of zero; and the integer vectors have 2^192 pairs.", "anchors": ["src/vector/vector2d.rs", "src/vector/vector3d.rs", "src/quaternion.rs"]}
{"id": "C131", "title": "Which functions respect == of floats, that is, treat -0.0 as +0.0", "statement": "For f32 x == y (same number, or zeros of any signs): (1) abs, floor, ceil, round, cos, sin, tan, acos, exp and cosh give identical results (including the same panic), and so does hypot for equal pairs. (2) trunc, fract, atan and asin give equal results; asin panics for both or for neither. (3) For equal pairs and triples atan2, rem_euclid and mul_add give equal results or NaN for both; in particular atan2 ignores the sign of a zero in either argument. (4) Equal finite quaternions have equal Euler angles (or NaN in the same place), or to_euler panics for both; axis_angle of equal axes and angles agrees. (5) The remaining functions tell the zeros apart: signum gives 1 and -1, sqrt gives 2^-64 * 1.5 and 2^64 * 1.5, invsqrt 0x5F375A86 and 0x1F375A86, inv 2^127 and 0, recip +inf and -inf, ln, log2 and log10 a finite number and NaN.", "quantifier": "all pairs of equal f32, of equal pairs and triples, of equal quaternions", "why_tests_cant": "A relation between two runs at the one place where equal numbers have different bits; the bit-level functions mix the sign bit into the result in ways that only show at zero.", "anchors": ["src/float/atan2.rs", "src/float/asin.rs", "src/float/sqrt.rs", "src/float/invsqrt.rs", "src/float/inv.rs", "src/float/ln.rs", "src/quaternion.rs"]}
{"id": "C132", "title": "The model of the float functions is the meaning of their source text", "statement": "The text of src/float.rs and src/float/*.rs (without comment lines, blank lines and tests) is kept as strings; a lexer, a parser and an interpreter for the part of Rust used there, written in Gallina and knowing only f32 and machine-integer primitives, are run on it. (1) For all arguments, build profiles and NaN choices, each of the 37 functions of src/float/*.rs run from the text gives exactly the result of its definition in the model: value, panic or, for powi, being cut off after a given number of loop rounds. (2) The same holds of the constants and helper functions of src/float.rs. (3) The operator, assignment-operator, comparison, negation and From impls of F32 act on the f32 inside; Zero, One and Inv are as modelled. (4) Every file is read and no function of src/float/*.rs is left out.", "quantifier": "all f32 arguments, all integers, all build profiles and NaN choices, all loop budgets", "why_tests_cant": "It relates the program text itself to the model for all inputs; tests can only compare outputs at chosen points.", "anchors": ["src/float.rs", "src/float/*.rs"]}
{"id": "C133", "title": "The model of vectors, quaternions, statistics and F32Ext is the meaning of their source text", "statement": "The text of src/f32ext.rs, src/vector.rs, src/vector/*.rs, src/quaternion.rs and src/statistics/*.rs (without comment lines, blank lines and tests) is kept as strings and read by the lexer, parser and interpreter of C132. For all arguments, build profiles and NaN choices, running the text gives exactly the result of the model, value or panic: (1) each method of F32Ext for f32; (2) each function and impl of Vector2d and Vector3d, for each of the eight component types (f32, F32 and the six integer types), the functions that need a conversion to f32 for the types that have one; (3) each function and impl of Quaternion, those that take vectors for each such component type; (4) mean, variance, stddev, trim and trim_at for lists of any length, and next of the trimming iterator when the loop is given more rounds than items are left; (5) Sum and Product of F32. (6) Every function with a body in these files is one of those, save the ones of the defmt feature; map of the trait Vector is covered through its caller normalized.", "quantifier": "all vectors of the eight component types, all quaternions, all lists, all f32, all build profiles and NaN choices", "why_tests_cant": "It relates the program text itself to the model for all inputs and component types; tests can only compare outputs at chosen points.", "anchors": ["src/f32ext.rs", "src/vector.rs", "src/vector/*.rs", "src/quaternion.rs", "src/statistics/*.rs", "src/float.rs"]}
{"id": "C134", "title": "Accuracy and panics stated of the source text itself", "statement": "Run by the interpreter of C132 and C133, the program text has these properties for all inputs in the given ranges and all builds: sqrt of a normal positive x lies between (1 - 2^-24) and 1.06067 times the square root; floor is the floor for |x| <= 2^31; cos is within 0.002 for |x| <= 8192; atan is within 0.00284 for |x| < 2^64; exp is within 0.0761 percent on [0, 88.7228317] and panics exactly in builds with debug assertions on [88.7228394, 89.4159775]; invsqrt panics in a checked build exactly for bits above 0xBE6EB50D; Vector3d<i32>::dot in a checked build returns d exactly when every product and partial sum fits and d is the exact integer; mean of up to 2^20 items is within the given rounding error of the exact mean; Quaternion::inv is within 12.51 percent per component; Vector3d<f32>::distance is between (1 - 2^-20) and 1.0607 times the root of the sum of squares of the computed differences.", "quantifier": "all inputs in the stated ranges, all build profiles and NaN choices, all loop budgets", "why_tests_cant": "The statements join the program text to real-number bounds over the whole range of f32, all lists and all integers; a test samples points.", "anchors": ["src/float/sqrt.rs", "src/float/floor.rs", "src/float/cos.rs", "src/float/atan.rs", "src/float/exp.rs", "src/float/invsqrt.rs", "src/vector/vector3d.rs", "src/vector.rs", "src/statistics/mean.rs", "src/quaternion.rs"]}
