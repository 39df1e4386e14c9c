# Model and proofs for micromath

Everything is stated over a Rocq (Coq 8.16.1) model of the source text in `/repo/src`.
The Rust code is never run.

## What is modelled

| file | models |
|---|---|
| `Base.v` | the Rust primitives: `f32`, casts, integer types, panics, the build (`Env`) |
| `Float.v` | `src/float.rs` and `src/float/*.rs`, one Gallina function per Rust function |
| `F32Wrap.v` | the `F32` newtype: operators in all mixed forms, comparisons, constants, classification, `Sum`, `Product`, `num-traits` (`float.rs` 67-640) |
| `F32Ext.v` | the `F32Ext` trait of `src/f32ext.rs` as one dispatch over its methods |
| `Vector.v` | `src/vector.rs`, `src/vector/*.rs`: generic over the component type (i8 … u32, f32), the iterator, conversions, operators, products, norms |
| `Stats.v` | `src/statistics/*.rs`: mean, variance, stddev, trim |
| `Quaternion.v` | `src/quaternion.rs`, written over an abstract arithmetic and used at f32 |
| `Equality.v` | the derived `PartialEq` of the vectors and of `Quaternion` |
| `SrcText.v`, `RustSyntax.v`, `RustSem.v`, `Source.v` | the text of `src/float.rs` and `src/float/*.rs` as strings; a lexer and parser for that part of Rust; an interpreter; the table that pairs each function of the text with its definition in `Float.v` |
| `SrcText2.v`, `Source2.v` | the same for the other files |
| `QuatReal.v` | the same quaternion formulas at the real numbers (for the algebraic laws) |

Choices that matter:

* `f32` is Flocq's `binary32` (`binary_float 24 128`), i.e. IEEE-754 binary32 with signed
  zeros, subnormals, infinities and NaN payloads.  `to_bits`/`from_bits` are Flocq's
  `bits_of_b32`/`b32_of_bits`.
* `+ - * /` are the correctly rounded (nearest-even) Flocq operations.  Which NaN an
  operation produces is left open by Rust, so it is a parameter (class `Env`) over which every
  theorem quantifies.  `%` is C `fmod`, defined by exact integer arithmetic.
* `as i32` saturates and maps NaN to 0.  Integer to float casts round to nearest even.
* Integer arithmetic is on `Z` with explicit ranges.  `Env` carries two booleans,
  `overflow_checks` and `debug_assertions`; checked overflow is the explicit value `Panic`,
  unchecked overflow wraps.  Theorems quantify over `Env`, so they cover both profiles.
* `Env` also carries the sign of the zero from which `f32::sum` starts, which has changed
  between Rust releases.
* `res A := Ok a | Panic | NoFuel`.  `NoFuel` only occurs in the `powi` loop; C38 and C85 give
  the fuel that suffices and C39 the one case where none does.
* `no_std` build: `.sqrt()`/`.abs()` on `f32` inside `vector.rs` and `statistics/` are
  `F32Ext`'s.
* `Float.v` identifies the newtype `F32` with `f32`; `F32Wrap.v` keeps them apart.

Every model definition carries a comment with the file and lines it transcribes, and says so
where it is simplified.

## What is not modelled

* String code: `Display`, `Debug`, `LowerExp`, `UpperExp`, `FromStr`, `from_str_radix`, `defmt`.
* Generic component types other than the seven the crate implements `Component` for.
* x87-style excess precision, flush-to-zero, non-default rounding modes.
* Performance and code size.

## Layout

`Spec.v` and `SpecOps.v` hold the vocabulary of the statements: bit fields, real value,
rounding, exact sums, machine-integer outcomes.  They import only `Base.v`, so no statement is
phrased with the helpers it is about.  `SpecQuat.v` has the textbook quaternion formulas; it takes
only the record types from the model.  `SpecMore.v` has the exact mean and variance and the relations used between two runs; `SpecSym.v` has negated vectors and quaternions; `SpecVec.v` has exact norms of lists of floats;
`SpecTrig.v` has PI/2 as a float and the number of turns of an angle; `SpecEq.v` has equality of numbers.  `P_*.v`, `RealBounds*.v`, `AngleReal.v`, `*Lemmas.v`,
`Literals.v` hold proofs.  `Props_*.v` hold only the theorems named `C##_…`, each proved by
`exact`, followed by `Print Assumptions` and by concrete cases (`Example`), which are tests of
the statements and of the model, not claims.  `TestEnv.v` has the two builds used in examples.
`UnitTests.v` evaluates the crate's own `#[test]` functions in the model (debug build), one
`Example` each; all agree, which is evidence for the transcription.  Only `normalized` in
`vector.rs` is left out: under `cargo test` that code calls the platform's `sqrt`.

## Properties and methods

| group | properties | files | method |
|---|---|---|---|
| bits | C01-C04 | `Props_Round` | case analysis on the Flocq constructors, `Z.land` on fields |
| rounding to integers | C05-C11 | `Props_Round` | decode bits, Euclidean division of the significand by powers of two |
| Euclidean remainder | C12, C13 | `Props_Round` | exactness of the integer `fmod`, rounding monotonicity |
| bit-trick roots and inverses | C14-C21 | `Props_Roots` | piecewise linear mantissa map; polynomial inequality per exponent parity |
| recip, hypot, mul_add | C22-C25 | `Props_Recip` | forward rounding error analysis |
| exp, cosh | C26-C29, C42 | `Props_Exp` | argument reduction exactness, forward error, interval arithmetic |
| logarithms | C30-C33 | `Props_Log` | same, on the mantissa |
| powf | C34, C35, C87-C89 | `Props_Powf` | composition of ln and exp |
| powi | C36-C41 | `Props_Powi` | invariant of the square-and-multiply loop |
| trigonometry | C43-C53 | `Props_Trig` | forward error, periodicity, interval arithmetic; atan2 by quadrant |
| vectors | C54-C68 | `Props_Vector` | generic lemmas over a component record; ring reasoning modulo 2^n |
| statistics | C69-C73 | `Props_Stats` | induction on lists |
| variance and stddev against exact values | C105 | `Props_Stats2` | rounding error of the mean and of the sum of squares |
| quaternions | C74-C80, C83, C84 | `Props_Quat` | the same formulas at R and at f32; forward error |
| angles | C81, C82, C90, C91 | `Props_Euler` | forward error through sin, cos, atan2, asin; rotation matrices |
| quaternions against textbook formulas | C79, C83 (rest), C102-C104 | `Props_Quat2` | `SpecQuat.v` gives the formulas with dot and cross products; forward error; exact identity for the half-angle construction |
| axis_angle with rotate and to_euler | C106, C107 | `Props_AxisAngle` | Rodrigues' formula; perturbation of the rotation; C81 with C90 |
| whole float API | C85, C86, C101 | `Props_Ext` | combination of the above |
| sign and order of ln, exp, cosh, powf | C97-C100 | `Props_Order` | monotone chains of rounded operations, a tie argument for cosh |
| order, idempotence, zero signs of rounding | C108-C110 | `Props_RoundOrder` | clamp form of floor, ceil, round; binade cases for trunc |
| functions followed by their inverses | C111 | `Props_RoundTrip` | Lipschitz bounds on top of C26, C30, C43-C53 |
| symmetries of the trigonometric functions | C112 | `Props_Symmetry` | sign transport through each operation; Lipschitz bound of the cos parabola across its period |
| exact results of sqrt, inv, invsqrt | C113 | `Props_Exact` | mantissa equations; 4095 is the only odd mantissa satisfying them |
| worst inputs nearly reach the bounds | C114 | `Props_Sharp` | `vm_compute` of the model at a given input, `interval` for the true value |
| trigonometric functions near zero | C115 | `Props_Tiny` | monotone rounding around constants; relative errors |
| exact means, equal and negated samples | C116 | `Props_Stats3` | exact partial sums on a grid; sign transport |
| scaling by powers of two | C117 | `Props_Scale` | rounding commutes with scaling; bit patterns shift by k exponents |
| q and -q, swapped vectors | C118 | `Props_Sign` | sign transport through rounded operations, NaNs identified |
| monotone powi, norms, mean | C119 | `Props_Mono` | rounding is monotone, so nonnegative non-NaN products and sums are; the powi loop keeps all values in [0, 1] or all in [1, inf], so no NaN arises; the early exits depend only on the exponent field, which is monotone; neighbouring floats refute the rest |
| samples dropped by trim | C120 | `Props_Trim` | Chebyshev's inequality with rounding: lower bounds of the f32 sum of squares and of sqrt, count of a filter |
| exact and negative powers | C121 | `Props_Powi4` | loop invariant r = x^i, b = x^j, i + j n = N with every intermediate power representable; 1/x exchanges the classes [0, 1] and [1, inf] used for monotonicity |
| f32 inner products and norms | C122 | `SpecVec`, `Props_Dot` | rounding error of two- and three-term sums of products with the underflow term kept; Cauchy-Schwarz and Minkowski over the reals; sqrt never undershoots and has a floor of 1.5 * 2^-64, which absorbs the underflow terms |
| quaternion laws in f32 | C123 | `SpecQuat`, `Props_Quat5` | Euclidean norm bounds (`nb`) over the reals; one f32 product or rotation is the exact one plus a component error, carried through the exact law |
| monotone cos and sin | C124 | `SpecTrig`, `Props_TrigMono` | each stage of `cos` is a real function with explicit roundings; on a half turn the reduction and the parabola are exact up to one final rounding, and the correction is monotone because neighbouring floats are further apart than its errors |
| order of atan, asin, acos | C125 | `Spec`, `Props_AtanMono` | `atan` as a real function with explicit roundings is the increasing rational function within 7.2 half ulps above 2^-30 and has denominator exactly 1 below; `invsqrt` and `sqrt` are monotone on bit patterns |
| order of ln, log2, log10 | C126 | `Spec`, `Props_LnMono` | exponent times ln 2 plus the polynomial is an increasing real function (slope bounded by `interval`, the step at each power of two is upwards); each float result is within 9.1e-7 + 2.01 half ulps of it; below one the bit-level `inv` is antitone |
| order of exp, cosh | C127 | `Spec`, `Props_ExpMono` | the two computed factors compared with the real function 2^n * series(r) of the exact reduction, which is shown monotone across the seams (RealBounds8 for the slope of the series) |
| order of powf | C128 | `Spec`, `Props_PowfMono` | C127 for the rounded product n * ln x, underflow and overflow of the product to -inf included, with the strict part of C126 for two bases |
| order of tan | C129 | `Spec`, `SpecTrig`, `Props_TanMono` | C124 for sine and cosine, with cosine exactly antitone from an eighth of a turn on (integer argument on the grid 2^-26); the quotient of ordered values, rounded |
| equality | C130 | `Equality`, `SpecEq`, `Props_Equality` | equal numbers are identical or both zeros; case analysis of each operation at zeros |
| functions at signed zeros | C131 | `Equality`, `SpecEq`, `Props_FunEq` | equal numbers are identical or both zeros; evaluation at zeros, and for `atan2` the quotient is 0/x^2 or y^2/y^2 |
| text and model | C132 | `RustSyntax`, `RustSem`, `SrcText`, `Source`, `Props_Source` | the interpreter is run symbolically on each function with the models in place of its callees; linking in order of calls; induction for the two loops |
| text and model, other files | C133 | `SrcText2`, `Source2`, `P_Source2`, `Props_Source2` | as C132; one lemma per item with its callees abstract, case analysis on the component type, induction over lists for the iterator adaptors and the trimming loop |
| text, end to end | C134 | `Props_SourceEnd` | C132 and C133 joined with the theorems on the model |
| F32 newtype | C92-C96 | `Props_Wrap` | Flocq correctness theorems, induction on lists |

Where the documentation or the natural contract is false of the code, the exact domain of
validity is proved and the failure is a theorem named `..._refuted`.  A `..._partial` suffix
would mark a weakened claim; there is none.

## Mutation tests

`seeded/LOG.jsonl` has one line per wrong program tried against the theorems.  Each line comes from
a build of a scratch copy with only that edit.  `failed` lists the theorems whose file, or a file it
depends on, no longer compiles and which speak of the edited function; a broken script (or a
timeout) does not by itself show that the statement is false of the wrong program, so where
`witness` is present it is an input evaluated in the edited model at which the named statement is
false.

## Trusted base

* The Coq 8.16.1 kernel, including its `vm_compute` machine and, through the Interval
  tactics, its primitive 63-bit integers and floats.
* The reading of Rust semantics listed under "Choices that matter".
* That `SrcText.v` and `SrcText2.v` are the text of the files
  (`python3 tools/gen_src.py /repo | diff - rocq/theories/SrcText.v` and
  `python3 tools/gen_src.py /repo rest | diff - rocq/theories/SrcText2.v` print nothing), and that
  `RustSyntax.v` and `RustSem.v` give the text the meaning Rust gives it.  That the model is that
  meaning is a theorem (C132 for `src/float.rs` and `src/float/*.rs`, C133 for the other files), so
  for the functions these two name the transcription is not trusted.  The pairing of each item with
  its definition is in the statements.
* Simplifications of the interpreter: it works with dynamic types, so traits are resolved by the
  kind of the first argument; an empty array or slice carries a value that stands for its component
  type; `usize` does not overflow; an iterator over a slice is the list of its items and `map`,
  `zip`, `rev`, `sum` and `fold` act on that list; a method that takes `&mut self` gives back
  the new value of `self`; `impl_commutative!` is expanded by a
  function on tokens that takes the body from the text of the macro; default methods of a trait are copied to the types that implement it;
  derived impls are read from the `derive` list.
* What neither theorem names: the impls of the `defmt` feature, and the constants and impls of
  `src/float.rs` that are not in the lists of C132 and C133 (formatting, parsing, further constants);
  as far as these are modelled they are transcribed by hand.
* Flocq's definition of binary32 arithmetic (definitions only; it adds no axioms).
* The axioms below, all from Coq's standard library.  The files add none, use no
  `Admitted`, no functors, no module types, and no kernel flags.

`Print Assumptions` gives one of the following sets for each theorem.  `sig_forall_dec`,
`sig_not_dec`, `functional_extensionality_dep` come with the real numbers, `classic` with Flocq's
and Coquelicot's analysis; `PrimInt63`, `Uint63`, `PrimFloat`, `FloatAxioms` specify the machine
integers and floats that the Interval tactics compute with.

A whole-environment listing (`coqchk`, or all assumptions of the loaded libraries) also shows
names such as `mathcomp.ssreflect.finfun.FinfunDef.finfunE`,
`mathcomp.ssreflect.fintype.SubsetDef.subsetEdef`, `…Finite.EnumDef.enumDef`,
`Coq.ssr.ssrunder.Under_rel.…` and `Coq.Reals.Rdefinitions.RbaseSymbolsImpl.…`.  These are
fields of modules sealed by a signature; each has a definition inside its module.  They are loaded
because Interval depends on mathcomp, and they are in no theorem's `Print Assumptions`.

<!-- generated: axiom sets -->

* **S0** (0 axioms): closed under the global context.
* **S1** (2 axioms): S0 plus
  `ClassicalDedekindReals.sig_forall_dec`,
  `FunctionalExtensionality.functional_extensionality_dep`
* **S2** (3 axioms): S1 plus
  `ClassicalDedekindReals.sig_not_dec`
* **S3** (4 axioms): S2 plus
  `Classical_Prop.classic`
* **S4** (55 axioms): S3 plus
  `PrimInt63.add`, `PrimInt63.addc`, `PrimInt63.addcarryc`, `PrimInt63.addmuldiv`,
  `PrimInt63.compare`, `PrimInt63.div`, `PrimInt63.diveucl`, `PrimInt63.diveucl_21`,
  `PrimInt63.eqb`, `PrimInt63.head0`, `PrimInt63.int`, `PrimInt63.land`, `PrimInt63.leb`,
  `PrimInt63.lor`, `PrimInt63.lsl`, `PrimInt63.lsr`, `PrimInt63.ltb`, `PrimInt63.lxor`,
  `PrimInt63.mod`, `PrimInt63.mul`, `PrimInt63.mulc`, `PrimInt63.sub`, `PrimInt63.subc`,
  `PrimInt63.subcarryc`, `PrimInt63.tail0`, `Uint63.add_spec`, `Uint63.addc_def_spec`,
  `Uint63.addcarryc_def_spec`, `Uint63.addmuldiv_def_spec`, `Uint63.compare_def_spec`,
  `Uint63.div_spec`, `Uint63.diveucl_21_spec`, `Uint63.diveucl_def_spec`, `Uint63.eqb_correct`,
  `Uint63.eqb_refl`, `Uint63.head0_spec`, `Uint63.land_spec`, `Uint63.leb_spec`,
  `Uint63.lor_spec`, `Uint63.lsl_spec`, `Uint63.lsr_spec`, `Uint63.ltb_spec`,
  `Uint63.lxor_spec`, `Uint63.mod_spec`, `Uint63.mul_spec`, `Uint63.mulc_spec`,
  `Uint63.of_to_Z`, `Uint63.sub_spec`, `Uint63.subc_def_spec`, `Uint63.subcarryc_def_spec`,
  `Uint63.tail0_spec`
* **S5** (63 axioms): S3 plus
  `FloatAxioms.Prim2SF_SF2Prim`, `FloatAxioms.Prim2SF_valid`, `FloatAxioms.SF2Prim_Prim2SF`,
  `FloatAxioms.abs_spec`, `FloatAxioms.add_spec`, `FloatAxioms.classify_spec`,
  `FloatAxioms.compare_spec`, `FloatAxioms.div_spec`, `FloatAxioms.eqb_spec`,
  `FloatAxioms.frshiftexp_spec`, `FloatAxioms.ldshiftexp_spec`, `FloatAxioms.ltb_spec`,
  `FloatAxioms.mul_spec`, `FloatAxioms.next_down_spec`, `FloatAxioms.next_up_spec`,
  `FloatAxioms.normfr_mantissa_spec`, `FloatAxioms.of_uint63_spec`, `FloatAxioms.opp_spec`,
  `FloatAxioms.sqrt_spec`, `FloatAxioms.sub_spec`, `PrimFloat.abs`, `PrimFloat.add`,
  `PrimFloat.classify`, `PrimFloat.compare`, `PrimFloat.div`, `PrimFloat.eqb`,
  `PrimFloat.float`, `PrimFloat.frshiftexp`, `PrimFloat.ldshiftexp`, `PrimFloat.ltb`,
  `PrimFloat.mul`, `PrimFloat.next_down`, `PrimFloat.next_up`, `PrimFloat.normfr_mantissa`,
  `PrimFloat.of_uint63`, `PrimFloat.opp`, `PrimFloat.sqrt`, `PrimFloat.sub`, `PrimInt63.add`,
  `PrimInt63.eqb`, `PrimInt63.int`, `PrimInt63.land`, `PrimInt63.leb`, `PrimInt63.lor`,
  `PrimInt63.lsl`, `PrimInt63.lsr`, `PrimInt63.ltb`, `PrimInt63.sub`, `Uint63.add_spec`,
  `Uint63.eqb_correct`, `Uint63.eqb_refl`, `Uint63.land_spec`, `Uint63.leb_spec`,
  `Uint63.lor_spec`, `Uint63.lsl_spec`, `Uint63.lsr_spec`, `Uint63.ltb_spec`, `Uint63.of_to_Z`,
  `Uint63.sub_spec`
* **S6** (93 axioms): S5 plus
  `PrimInt63.addc`, `PrimInt63.addcarryc`, `PrimInt63.addmuldiv`, `PrimInt63.compare`,
  `PrimInt63.div`, `PrimInt63.diveucl`, `PrimInt63.diveucl_21`, `PrimInt63.head0`,
  `PrimInt63.lxor`, `PrimInt63.mod`, `PrimInt63.mul`, `PrimInt63.mulc`, `PrimInt63.subc`,
  `PrimInt63.subcarryc`, `PrimInt63.tail0`, `Uint63.addc_def_spec`,
  `Uint63.addcarryc_def_spec`, `Uint63.addmuldiv_def_spec`, `Uint63.compare_def_spec`,
  `Uint63.div_spec`, `Uint63.diveucl_21_spec`, `Uint63.diveucl_def_spec`, `Uint63.head0_spec`,
  `Uint63.lxor_spec`, `Uint63.mod_spec`, `Uint63.mul_spec`, `Uint63.mulc_spec`,
  `Uint63.subc_def_spec`, `Uint63.subcarryc_def_spec`, `Uint63.tail0_spec`

S0 (50 theorems):
  C102_mul_2, C102_mul_3_checked, C102_mul_is_cross, C130_int, C55_from_slice_2,
  C55_from_slice_3, C56_iterator_2, C56_iterator_3, C57_get_index_2, C57_get_index_3,
  C58_conversions_2, C58_conversions_3, C59_add_2, C59_add_3, C59_scale_2, C59_scale_3,
  C59_sub_2, C59_sub_3, C60_div_2, C60_div_3, C60_div_assign, C61_commutes, C61_int_2,
  C61_int_3, C62_dot_checked_2, C62_dot_checked_3, C62_dot_linear_2, C62_dot_linear_3,
  C62_dot_release, C62_dot_symmetric, C62_magnitude_sq, C63_cross_anti, C63_cross_checked,
  C63_cross_orthogonal, C63_cross_release, C63_cross_self, C63_lagrange, C64_cross_int,
  C64_perp_int, C65_sum_checked_2, C65_sum_checked_3, C65_sum_fold, C65_sum_permutation,
  C65_sum_release_2, C65_sum_release_3, C68_map, C74_array_roundtrip, C74_from_vector,
  C74_tuple_roundtrip, C84_vector_assign

S1 (16 theorems):
  C06_large_is_integer, C103_textbook, C104_between_exact, C12_euclid_quot_meaning,
  C75_associative, C75_bilinear, C75_norm_multiplicative, C75_units, C77_conj_real,
  C80_rotate_composition, C80_rotate_conjugation, C80_rotate_isometry, C83_between_rotates,
  C91_euler_lengths, C92_neg, C95_digits

S2 (2 theorems):
  C106_exact, C91_euler_reconstructs_rotation

S3 (377 theorems):
  C01_bits_decode, C01_bits_roundtrip, C02_abs, C03_copysign, C04_signum, C05_trunc_exact,
  C06_trunc_cut, C06_trunc_nonfinite, C06_trunc_refuted, C07_fract_exact, C07_fract_refuted,
  C07_fract_total, C08_floor_exact, C09_ceil_saturates, C09_floor_ceil_wrong,
  C09_floor_saturates, C09_nan, C101_ext_forwards, C102_cross_f32_rounding, C102_mul_vector,
  C103_dot_rounding, C103_dot_symmetric, C103_mul_rounding, C104_from_two_accuracy,
  C104_from_two_turns, C105_stddev_accuracy, C105_variance_accuracy, C107_y_pole_refuted,
  C108_zero_signs, C108_zero_unchanged_refuted, C109_fract_monotone_refuted, C109_monotone,
  C10_ceil_exact, C110_around, C110_idempotent, C110_negation, C110_round_odd_refuted,
  C111_exp_ln_refuted, C111_sqrt_invsqrt, C111_square_sqrt, C112_cos_even_refuted,
  C112_sin_odd_refuted, C112_tan_odd_refuted, C113_inv_exact, C113_invsqrt_never_exact,
  C113_sqrt_exact, C114_inv_bound_sharp, C115_cos_tiny, C115_sin_tiny, C115_tan_tiny,
  C116_mean_between_extremes_refuted, C116_mean_correctly_rounded, C116_mean_of_equal_samples,
  C116_mean_of_integers, C116_mean_order_independent_refuted, C116_negated_samples,
  C116_spread_of_equal_samples, C117_atan2, C117_hypot, C117_inv, C117_invsqrt,
  C117_magnitude_2d, C117_magnitude_3d, C117_normalized_2d, C117_normalized_3d,
  C117_quaternion_inverse, C117_quaternion_magnitude, C117_quaternion_norm,
  C117_quaternion_normalize, C117_recip, C117_sqrt, C117_statistics,
  C117_stddev_zero_variance_refuted, C118_axis_angle_negated_axis, C118_conjugate,
  C118_conjugate_of_product_refuted, C118_from_two_vectors_swapped, C118_inverse,
  C118_magnitude, C118_negation_is_scale, C118_norm, C118_normalize, C118_product,
  C118_rotate_all, C118_rotate_bits, C118_rotate_negated_vector, C118_scale, C118_to_euler,
  C119_acos_refuted, C119_asin_refuted, C119_atan_refuted, C119_cos_refuted, C119_hypot,
  C119_mean, C119_powi, C119_quaternion_magnitude, C119_recip_refuted, C119_tan_refuted,
  C119_vector2d_magnitude, C119_vector3d_magnitude, C11_round_2p23_2p24, C11_round_2p24_2p31,
  C11_round_exact, C11_round_nan, C11_round_refuted, C11_round_saturates,
  C120_overflow_refuted, C120_sqrt_never_low, C120_trim, C120_trim_at, C120_trim_few,
  C121_antitone, C121_cube, C121_exact, C121_integer, C121_minus_one, C121_power_of_two,
  C121_power_of_two_negative, C121_side_of_one, C121_square, C121_square_tiny_refuted,
  C121_zero_negative, C122_cauchy_schwarz_2, C122_cauchy_schwarz_3, C122_cosine_2,
  C122_cosine_3, C122_cosine_refuted, C122_distance_is_magnitude_2,
  C122_distance_is_magnitude_3, C122_dot_2, C122_dot_3, C122_hypot_is_magnitude,
  C122_magnitude_2, C122_magnitude_3, C122_magnitude_is_sqrt_dot_2,
  C122_magnitude_is_sqrt_dot_3, C122_normalized_2, C122_normalized_3, C122_perpendicular_dot,
  C122_sum_2, C122_sum_3, C122_triangle_2, C122_triangle_3, C122_triangle_refuted,
  C123_associative, C123_associative_refuted, C123_back, C123_compose, C123_compose_refuted,
  C123_inverse, C123_isometry, C123_norm, C124_cos_falling_refuted, C124_sin_falling_refuted,
  C125_acos_refuted, C125_asin_refuted, C125_atan_refuted, C126_refuted, C128_refuted,
  C129_poles, C129_refuted, C12_rem_euclid, C12_rem_euclid_below_refuted, C12_rem_euclid_nan,
  C130_conversions, C130_equivalence, C130_f32, C130_metric, C130_neutral, C130_quaternion,
  C130_quaternion_norm, C130_refuted, C130_same, C130_vector2d, C130_vector3d, C131_axis_angle,
  C131_equal, C131_equal2, C131_euler, C131_hypot, C131_identical, C131_refuted, C132_any_call,
  C132_covered, C132_functions, C132_helpers, C132_num_traits, C132_operators, C133_covered,
  C133_dot, C133_f32ext, C133_quaternion, C133_quaternion_vector, C133_statistics, C133_sum,
  C133_vector2d, C133_vector2d_f32, C133_vector2d_int, C133_vector3d, C133_vector3d_f32,
  C133_vector3d_int, C134_distance, C134_dot, C134_floor, C134_inverse, C134_invsqrt_panic,
  C134_mean, C134_sqrt, C13_div_euclid, C13_div_euclid_exact, C13_div_euclid_refuted,
  C14_sqrt_accuracy, C15_sqrt_monotone, C15_sqrt_total, C16_sqrt_edges, C16_sqrt_nan,
  C17_invsqrt_accuracy, C18_invsqrt_panic, C18_invsqrt_panic_value, C18_invsqrt_release,
  C19_invsqrt_antitone, C20_inv_accuracy, C20_inv_antitone, C20_inv_involutive, C21_inv_edges,
  C22_recip_accuracy, C23_recip_edges, C23_recip_large_refuted, C23_recip_nan, C23_recip_odd,
  C24_hypot_accuracy, C24_hypot_symmetry, C24_hypot_total, C25_mul_add,
  C25_mul_add_fused_refuted, C31_ln_inf, C31_ln_nan, C31_ln_negative, C31_ln_zero,
  C34_powf_even, C34_powf_integer_2_32_refuted, C34_powf_not_integer, C34_powf_odd,
  C35_powf_below_one, C35_powf_power_of_two, C36_powi_exponent_one, C36_powi_exponent_zero,
  C36_powi_nonfinite, C36_powi_nonfinite_neg, C36_powi_zero_base, C37_powi_accuracy_base_ge1,
  C37_powi_accuracy_base_le1, C37_powi_accuracy_negative_ge1, C37_powi_accuracy_negative_le1,
  C38_powi_panic_iff, C38_powi_small_exponents_total, C38_powi_terminates,
  C39_powi_min_checked, C39_powi_min_unchecked_loops, C39_powi_min_unchecked_returns,
  C40_powi_early_inf, C40_powi_early_zero, C40_powi_exponent_product_overflow_refuted,
  C40_powi_overflow_exit_refuted, C40_powi_underflow_exit_refuted, C41_powi_even, C41_powi_odd,
  C41_powi_odd_middle, C45_cos_bounded_refuted, C45_infinite_argument, C45_nan_argument,
  C46_sin_cos_pair, C49_atan_overflow_nan, C50_atan2_negative_axis_refuted,
  C51_atan2_norm_range, C51_atan2_norm_range_refuted, C51_atan2_origin_nan,
  C51_atan2_overflow_nan, C51_atan2_underflow_refuted, C52_asin_nan, C52_asin_outside_refuted,
  C52_asin_panic, C52_asin_unchecked_total, C53_acos_outside_nan, C53_acos_tiny_nan,
  C53_acos_total, C54_from_int_exact, C54_from_int_order, C54_vector_conversions, C61_f32,
  C62_dot_f32, C63_cross_f32_anti, C63_cross_f32_self, C64_cross_f32, C66_distance_2,
  C66_distance_3, C66_distance_self, C66_distance_symmetric, C66_magnitude_2, C66_magnitude_3,
  C66_total, C67_normalized_2, C67_normalized_3, C67_normalized_zero, C69_mean_accuracy,
  C69_mean_counter_panics, C69_mean_definition, C69_mean_empty_nan, C70_empty_slice,
  C70_one_element_nan, C70_variance_definition, C70_variance_nonnegative, C71_stddev_accuracy,
  C71_stddev_total, C72_trim_default, C72_trim_iterator, C72_trim_selects,
  C73_trim_nan_threshold, C73_trim_nonfinite, C73_trim_nonpositive_threshold,
  C73_trim_one_element, C75_mul_rounding, C76_identity_infinite_refuted, C76_identity_neutral,
  C77_conj_involutive, C77_mul_conj_real, C77_norm_conj, C78_inv_accuracy,
  C78_inv_nonzero_panics, C78_inv_panic, C79_direction, C79_magnitude, C79_normalize,
  C79_zero_norm_panics, C80_rotate_rounding, C82_euler_after_normalize, C82_euler_no_panic,
  C82_euler_panic_iff, C82_euler_unchecked_total, C83_antiparallel_axis,
  C83_antiparallel_branch, C83_from_two_total, C83_opposite_refuted, C84_quaternion_assign,
  C84_quaternion_scaling, C85_ext_total, C86_div_euclid_nan, C86_ext_nan, C86_invsqrt_nan,
  C87_powf_small_base_refuted, C88_powf_base_one, C88_powf_nan_exponent_negative,
  C88_powf_zero_half_refuted, C89_powf_overflow_panics_refuted, C90_euler_pole_refuted,
  C92_add, C92_div, C92_mul, C92_nan, C92_rem, C92_sub, C93_eq, C93_partial_cmp, C93_swap,
  C93_trans, C94_nan, C94_product, C94_sum, C95_classify, C95_epsilon, C95_exponents,
  C95_extremes, C96_num_traits, C97_ln_monotone_refuted, C98_exp_monotone_negative_refuted,
  C98_exp_monotone_refuted, C99_cosh_monotone_refuted

S4 (50 theorems):
  C112_acos_supplement, C112_asin_odd, C112_atan_odd, C112_cos_even, C112_sin_odd,
  C114_acos_bound_sharp, C114_asin_bound_sharp, C114_atan_bound_sharp, C114_cos_bound_sharp,
  C114_cosh_bound_sharp, C114_exp_neg_bound_sharp, C114_exp_pos_bound_sharp,
  C114_invsqrt_hi_bound_sharp, C114_invsqrt_lo_bound_sharp, C114_ln_ge1_bound_sharp,
  C114_ln_lt1_bound_sharp, C114_log10_bound_sharp, C114_log10_lt1_bound_sharp,
  C114_log2_bound_sharp, C114_log2_lt1_bound_sharp, C114_recip_bound_sharp,
  C114_sin_bound_sharp, C114_sqrt_hi_bound_sharp, C114_sqrt_lo_bound_sharp,
  C114_tan_bound_sharp, C115_asin_small, C115_atan_small, C124_cos_falling,
  C124_cos_falling_near, C124_cos_intervals, C124_cos_rising, C124_sin_intervals,
  C124_turns_close, C125_asin, C125_atan, C125_atan_tiny, C129_cos_exact, C129_tan, C134_atan,
  C43_cos_002_refuted, C44_sin_002_refuted, C45_cos_sin_bounded, C47_tan_06_refuted,
  C48_atan_002_refuted, C48_atan_accuracy, C49_atan_norm_accuracy, C49_atan_odd,
  C50_atan2_accuracy, C50_atan2_accuracy_plain, C87_powf_test_error_refuted

S5 (3 theorems):
  C26_exp_error_0_001_refuted, C30_ln_uniform_accuracy_refuted,
  C42_cosh_documented_error_refuted

S6 (86 theorems):
  C100_powf_ge_one, C100_powf_le_one, C100_powf_monotone_exponent, C106_axis_angle_rotates,
  C107_x_is_roll, C107_y_is_pitch, C107_z_is_yaw, C111_cos_acos, C111_exp_ln,
  C111_exp_ln_below_one, C111_ln_exp, C111_sin_asin, C111_tan_atan, C123_axis_angle, C125_acos,
  C126_ln, C126_log2_log10, C126_strict, C127_cosh, C127_exp, C127_exp_all, C128_base,
  C128_exponent, C134_cos, C134_exp, C134_exp_panic, C26_exp_accuracy_neg,
  C26_exp_accuracy_nonneg, C27_exp_panic_iff, C27_exp_window, C28_exp_gradual, C28_exp_over,
  C28_exp_total_outside, C28_exp_under, C29_exp_nan, C30_ln_accuracy_ge1, C30_ln_accuracy_lt1,
  C31_ln_subnormal, C31_ln_subnormal_accuracy_refuted, C32_log10_accuracy_ge1,
  C32_log10_accuracy_lt1, C32_log2_accuracy_ge1, C32_log2_accuracy_lt1, C33_log_accuracy,
  C42_cosh_0_2pi, C42_cosh_0_pi, C42_cosh_accuracy, C42_cosh_documented_error_tau_refuted,
  C42_cosh_even, C42_cosh_panic_iff, C43_cos_accuracy, C43_cos_documented_error,
  C44_sin_accuracy, C44_sin_documented_error, C46_sin_cos_unit, C47_tan_accuracy,
  C47_tan_accuracy_1_2, C52_asin_accuracy, C53_acos_accuracy, C81_axis_angle,
  C85_ext_panic_iff, C85_ext_terminates, C86_ext_nan_others, C87_powf_accuracy_ge1,
  C87_powf_accuracy_lt1, C87_powf_accuracy_lt1_neg, C87_powf_accuracy_small_exponent,
  C88_powf_base_zero, C88_powf_exponent_zero, C88_powf_inf_base, C88_powf_nan_base,
  C88_powf_nan_exponent, C88_powf_negative_zero_base, C89_powf_overflow, C89_powf_panic_iff,
  C89_powf_release_total, C89_powf_underflow, C90_euler_accuracy, C97_ln_jump, C97_ln_sign,
  C97_log10_sign, C97_log2_sign, C98_exp_monotone, C99_cosh_ge_one, C99_exp_ge_one,
  C99_exp_le_one

<!-- end generated -->
