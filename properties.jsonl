{"id": "C01", "title": "A ratio denotes the fraction it was built from", "statement": "units::ratio(n, d, e) with d != 0 denotes exactly n/d * 10^e after its internal normalisation, and the normalisation always terminates. The only inputs that do not produce a ratio are d == 0 (contract violation) and inputs for which an absolute value or the exponent leaves the range of intmax_t.", "quantifier": "all intmax_t numerators, denominators and exponents", "why_tests_cant": "2^192 inputs; tests use a few dozen literals and never look at the extremes of intmax_t.", "anchors": ["src/core/include/units/ratio.h: ratio::ratio", "src/core/include/units/bits/ratio_maths.h: normalize"]}
{"id": "C02", "title": "Ratios are kept in lowest terms", "statement": "Every ratio obtainable by construction or by *, /, inverse, pow, sqrt, cbrt, common_ratio has a positive denominator, coprime numerator and denominator, neither of which is divisible by 10, and zero has the single form 0/1*10^0.", "quantifier": "all inputs of all ratio-producing operations", "why_tests_cant": "An invariant over every reachable ratio; tests look at a few values.", "anchors": ["src/core/include/units/ratio.h", "src/core/include/units/bits/ratio_maths.h: normalize"]}
{"id": "C03", "title": "Equality of ratios", "statement": "Ratios that compare equal denote the same number. Conversely two ratios denoting the same number compare equal exactly when they carry the same power of ten; the representation is not canonical in general (2/5 and 4*10^-1 differ under == although equal in value).", "quantifier": "all pairs of ratios", "why_tests_cant": "Needs the equivalence of two denotations over all pairs; tests compare chosen literals only.", "anchors": ["src/core/include/units/ratio.h: operator=="]}
{"id": "C04", "title": "Ratio multiplication is exact or refused", "statement": "l * r, when it yields a ratio, denotes exactly the product of the two numbers; it yields a ratio whenever the cross-reduced numerator and denominator products fit in intmax_t within the documented guard; it never yields a wrong number because of overflow.", "quantifier": "all pairs of ratios with components in intmax_t", "why_tests_cant": "Overflow behaviour depends on 2^256 combinations.", "anchors": ["src/core/include/units/ratio.h: operator*", "src/core/include/units/bits/ratio_maths.h: safe_multiply"]}
{"id": "C05", "title": "Ratio division and inverse are exact", "statement": "l / r denotes the exact quotient and inverse(r) the exact reciprocal for every r != 0; a zero divisor is a contract violation and never yields a ratio; inverse is an involution by value.", "quantifier": "all pairs of ratios", "why_tests_cant": "Universally quantified algebraic law.", "anchors": ["src/core/include/units/ratio.h: operator/, inverse"]}
{"id": "C06", "title": "Ratio arithmetic laws", "statement": "Multiplication of ratios is commutative (as ==), has ratio(1) as identity (as ==), and is associative in value; == associativity does not hold, with a witness.", "quantifier": "all triples of ratios for which the operations are defined", "why_tests_cant": "Algebraic laws over all triples.", "anchors": ["src/core/include/units/ratio.h: operator*"]}
{"id": "C07", "title": "Checked 64-bit product", "statement": "The guarded product used by ratio multiplication returns a*b exactly when it returns, and accepts every pair whose true product lies strictly within the guard; the guard itself can overflow only when both operands have low 32-bit words whose product exceeds intmax_t and one operand is small in its high word.", "quantifier": "all pairs of intmax_t", "why_tests_cant": "2^128 pairs.", "anchors": ["src/core/include/units/bits/ratio_maths.h: safe_multiply"]}
{"id": "C08", "title": "Modular helpers are correct on the whole range", "statement": "For every modulus m > 0 and all uint64 operands the modular product equals (a*b) mod m and the modular power equals (a^e) mod m (for m > 1), although intermediate results would overflow 64 bits.", "quantifier": "all uint64 triples", "why_tests_cant": "2^192 triples; the interesting ones exercise wrap-around.", "anchors": ["src/core/include/units/bits/ratio_maths.h: mulmod, modpow"]}
{"id": "C09", "title": "gcd with a scaled operand", "statement": "gcdpow(a, e, b) equals gcd(a*10^e, b) for all positive a, b and e >= 0 even when a*10^e is astronomically large.", "quantifier": "all positive intmax_t a, b; all e >= 0", "why_tests_cant": "Unbounded e.", "anchors": ["src/core/include/units/bits/ratio_maths.h: gcdpow"]}
{"id": "C10", "title": "is_integral decides integrality", "statement": "is_integral(r) is true exactly when the number denoted by r is an integer, for every positive ratio.", "quantifier": "all ratios in lowest terms with positive numerator", "why_tests_cant": "Iff over all ratios.", "anchors": ["src/core/include/units/ratio.h: is_integral"]}
{"id": "C11", "title": "common_ratio is the greatest common divisor", "statement": "common_ratio(a, b) of two positive ratios denotes a number g such that a/g and b/g are integers and every number that divides both a and b an integral number of times also divides g; so it is the coarsest unit in which both units are whole multiples.", "quantifier": "all pairs of positive ratios accepted by its guards", "why_tests_cant": "Universal (greatest) property, quantifies over all rationals.", "anchors": ["src/core/include/units/ratio.h: common_ratio", "src/core/include/units/bits/ratio_maths.h: gcd_frac"]}
{"id": "C12", "title": "common_ratio is symmetric, idempotent and associative in value", "statement": "common_ratio(a,b) == common_ratio(b,a), common_ratio(a,a) == a, and grouping three ratios either way denotes the same number.", "quantifier": "all triples of positive ratios accepted by the guards", "why_tests_cant": "Algebraic laws over all triples.", "anchors": ["src/core/include/units/ratio.h: common_ratio"]}
{"id": "C13", "title": "Integer powers of ratios are exact", "statement": "pow<N>(r) denotes r^N for every integer N (negative N inverts) whenever it yields a ratio; pow<0> is 1.", "quantifier": "all N in intmax_t, all ratios", "why_tests_cant": "Recursion over unbounded N.", "anchors": ["src/core/include/units/ratio.h: pow", "src/core/include/units/bits/pow.h: pow_impl"]}
{"id": "C14", "title": "Roots of ratios", "statement": "root/sqrt/cbrt of a positive ratio that is an exact power of a rational returns that rational exactly whenever the stored power of ten is divisible by the root degree. For other operands the result is rounded silently, and not always downwards (sqrt of 1/2 is 1), and even an exact square is rounded when its power of ten is odd.", "quantifier": "all positive ratios, all root degrees >= 1", "why_tests_cant": "Iff over unboundedly many operands; silent rounding is invisible to example tests.", "anchors": ["src/core/include/units/ratio.h: root, sqrt, cbrt, make_exp_align", "src/core/include/units/bits/root.h: iroot"]}
{"id": "C15", "title": "Integer root", "statement": "iroot<N>(v) started from a floating-point estimate within one unit of floor(v^(1/N)) returns exactly floor(v^(1/N)), except that an estimate one too low is kept when v is not a perfect N-th power. The run-time square root (IEEE double) always returns floor(sqrt(v)) for v below 3037000498^2; for the largest operands (root+1)^2 overflows.", "quantifier": "all non-negative intmax_t v, all N >= 1", "why_tests_cant": "2^63 operands; correctness depends on rounding of the floating-point estimate.", "anchors": ["src/core/include/units/bits/root.h: iroot_impl, iroot_runtime"]}
{"id": "C16", "title": "Powers of ten", "statement": "ipow10(e) is 10^e for 0 <= e <= 18 and is never silently wrong for larger e (overflow is undefined behaviour); fpow10(e) is exact while 5^e fits the significand (0 <= e <= 22 for double), within gamma(|e|) of 10^e while the power is inside the range of the type (|e| <= 307 for double), and infinity or zero beyond it (e >= 309, e <= -324 for double).", "quantifier": "all exponents", "why_tests_cant": "Unbounded exponent.", "anchors": ["src/core/include/units/bits/pow.h: ipow10, fpow10"]}
{"id": "C17", "title": "Integral quantity_cast truncates toward zero", "statement": "For integral representations, quantity_cast<To>(q) has as its number the exact rational value of q expressed in To's unit, truncated toward zero, whenever no intermediate product overflows; unless a representation is the unsigned 64-bit type, an overflow is undefined behaviour of the code and never part of a defined result (unsigned 64-bit products wrap silently: witness; unknown dimensions of different systems share one reference, so a cast between them ignores the system: witness).", "quantifier": "all numbers, all pairs of units with the same reference, all integral representations", "why_tests_cant": "All units and all numbers.", "anchors": ["src/core/include/units/quantity_cast.h: quantity_cast, cast_ratio"]}
{"id": "C18", "title": "quantity_cast error and direction", "statement": "The result of an integral quantity_cast differs from the exact value by strictly less than one target unit, never exceeds it in magnitude, keeps its sign, and the cast is monotone.", "quantifier": "all numbers and unit pairs for which the cast is defined", "why_tests_cant": "Order property over all pairs of inputs.", "anchors": ["src/core/include/units/quantity_cast.h: quantity_cast"]}
{"id": "C19", "title": "Casting to a finer unit and back loses nothing", "statement": "If the source unit is a whole multiple of the target unit, quantity_cast is exact and casting back returns the original number.", "quantifier": "all numbers, all unit pairs with an integral quotient", "why_tests_cant": "Round trip over all units.", "anchors": ["src/core/include/units/quantity_cast.h: quantity_cast", "src/core/include/units/quantity.h: safe_castable_to_"]}
{"id": "C20", "title": "Implicit conversions between units are lossless", "statement": "An implicit conversion between quantities of integral representations exists exactly when the source unit is a whole multiple of the target unit; when it exists and the scaled value is representable, the physical value is preserved. A conversion that only narrows the representation is accepted and may change the value (witness).", "quantifier": "all unit pairs, all integral representations, all numbers", "why_tests_cant": "Quantifies over every pair of units and representation.", "anchors": ["src/core/include/units/quantity.h: quantity(const Q&), safe_castable_to_, harmonic_"]}
{"id": "C21", "title": "Cast chains", "statement": "For units each a multiple of the next, and for units each dividing the next, casting through any chain of intermediate units gives the same number as casting directly; a detour through a coarser unit does not (witness).", "quantifier": "all chains of any length", "why_tests_cant": "Induction over chain length.", "anchors": ["src/core/include/units/quantity_cast.h: quantity_cast"]}
{"id": "C22", "title": "Floating-point quantity_cast accuracy", "statement": "For floating-point representations quantity_cast differs from the exact scaled value by at most the classical bound gamma(k) for k = |exponent of the conversion factor| + 5 roundings (6 from an integral source, one more in the narrower type when narrowing), barring overflow and underflow of the intermediate factors; casting to an integral type truncates that value or is undefined; casting to the same unit is the identity on every value (NaN, infinities and signed zeros included); whole multiples are exact while they fit the significand; the order is preserved; there and back the errors add up. Outside the range the result can be wrong by any factor (witness).", "quantifier": "all finite float, double and long double values, all unit pairs and exponents", "why_tests_cant": "All doubles.", "anchors": ["src/core/include/units/quantity_cast.h: quantity_cast", "src/core/include/units/bits/pow.h: fpow10"]}
{"id": "C23", "title": "Equality means equal physical values", "statement": "q1 == q2 for quantities of possibly different units (integral representation) is true exactly when the two physical values are equal, provided the conversions do not overflow.", "quantifier": "all numbers and unit pairs", "why_tests_cant": "All numbers and units.", "anchors": ["src/core/include/units/quantity.h: operator=="]}
{"id": "C24", "title": "Ordering means ordering of physical values", "statement": "q1 <=> q2 agrees with the order of the physical values, so it is a total order compatible with == and transitive across three different units.", "quantifier": "all triples of numbers and units", "why_tests_cant": "Transitivity across units cannot be sampled.", "anchors": ["src/core/include/units/quantity.h: operator<=>"]}
{"id": "C25", "title": "Addition and subtraction are exact", "statement": "q1 + q2 and q1 - q2 denote exactly the sum and difference of the physical values, in the coarsest common unit, whenever the representation does not overflow; addition is commutative and associative in value.", "quantifier": "all numbers, unit pairs (same dimension or equivalent dimensions)", "why_tests_cant": "All numbers and units.", "anchors": ["src/core/include/units/quantity.h: operator+, operator-", "src/core/include/units/bits/common_quantity.h"]}
{"id": "C26", "title": "The common unit of two quantities", "statement": "The unit chosen for the common type of two quantities of one dimension divides both units a whole number of times and is the coarsest such unit; the result type is independent of operand order for quantities of the same dimension.", "quantifier": "all pairs of units, same and equivalent dimensions", "why_tests_cant": "Universal property over all units.", "anchors": ["src/core/include/units/bits/common_quantity.h: common_quantity_impl"]}
{"id": "C27", "title": "Common type across systems of units", "statement": "For equivalent dimensions of different systems (different base units) the common unit still divides both physically, provided the coherent units of both dimensions have ratio one with respect to their reference; otherwise the computed unit can fail to divide an operand (witness).", "quantifier": "all dimension pairs, all unit pairs", "why_tests_cant": "Ranges over all user-definable systems of units.", "anchors": ["src/core/include/units/bits/common_quantity.h: common_quantity_impl (last case)", "src/core/include/units/quantity_cast.h: quantity_ratio"]}
{"id": "C28", "title": "Multiplication and division of quantities are physical", "statement": "The physical value of q1 * q2 is the product of the physical values, and for exactly divisible numbers the physical value of q1 / q2 is the quotient, for any units and dimensions; division of integers truncates the number.", "quantifier": "all quantities of any dimension and unit", "why_tests_cant": "All units and dimensions.", "anchors": ["src/core/include/units/quantity.h: operator*, operator/", "src/core/include/units/reference.h: reference_multiply_impl, reference_divide_impl"]}
{"id": "C29", "title": "Reciprocal of a quantity", "statement": "v / q has the truncated quotient as its number and a unit of magnitude 1/m exactly when the ratios of the coherent units of q's dimension and of the inverse dimension, each to its reference, multiply to one; otherwise (for instance mass in kilograms) the value is off by that product (witness).", "quantifier": "all numbers, dimensions and units", "why_tests_cant": "Ranges over all systems of units.", "anchors": ["src/core/include/units/quantity.h: operator/(const Value&, const quantity&)"]}
{"id": "C30", "title": "Scaling by a number", "statement": "q * v, v * q and q / v keep the unit and scale the physical value; (q * v) / v == q when nothing overflows and v != 0; q * v == v * q.", "quantifier": "all numbers, scalars, units", "why_tests_cant": "All numbers.", "anchors": ["src/core/include/units/quantity.h: operator*(quantity, Value), operator/(quantity, Value)"]}
{"id": "C31", "title": "Remainder law", "statement": "For quantities of the same unit (a / b) * b + (a % b) == a, |a % b| < |b|, and the remainder has the sign of a. For operands of different units the code takes the remainder of the raw numbers: the expression (a / b) * b + (a % b), computed with the library's own operators, still gives a back, in a unit of the same size and the same dimension, because the unit of the quotient compensates, but the remainder is no longer the physical one (witness). The same recovery holds when b is a plain number.", "quantifier": "all integral numbers and unit pairs", "why_tests_cant": "All numbers and units.", "anchors": ["src/core/include/units/quantity.h: operator%"]}
{"id": "C32", "title": "Compound assignment histories", "statement": "Any sequence of ++, --, +=, -=, *=, /=, %= on a quantity leaves it with the number that the same sequence of operations on the plain representation gives, in the same unit; as long as the values on the way are values of the type, the physical value of an integral quantity is the one of the exact history. Unary minus negates the physical value.", "quantifier": "all finite sequences of operations and all operands", "why_tests_cant": "Unbounded histories.", "anchors": ["src/core/include/units/quantity.h: operator+=, operator-=, operator*=, operator/=, operator%=, operator++, operator--"]}
{"id": "C33", "title": "Zero, one, min and max", "statement": "For every integral representation and unit, quantity::zero() is the identity of +, min() and max() bound every quantity of the type, and comparison with a quantity of another unit respects that.", "quantifier": "all integral representations and numbers", "why_tests_cant": "All values of the type.", "anchors": ["src/core/include/units/quantity.h: zero, one, min, max", "src/core/include/units/customization_points.h: quantity_values"]}
{"id": "C34", "title": "Mixed-representation arithmetic", "statement": "For integral representations of different width or signedness the result representation is the one of the C++ usual arithmetic conversions; the physical result is exact when both operands and the result are representable there; conversion of a negative number to an unsigned representation gives a wrong defined result (witness).", "quantifier": "all pairs of standard integer types and numbers", "why_tests_cant": "All type pairs and numbers.", "anchors": ["src/core/include/units/quantity.h: operator+, operator<=>", "src/core/include/units/quantity_cast.h: cast_traits"]}
{"id": "C35", "title": "Dimension product does not depend on order or grouping", "statement": "Multiplying dimensions in any order and grouping gives the same dimension, provided the symbol of a base dimension identifies it.", "quantifier": "all finite products of base and derived dimensions", "why_tests_cant": "Unbounded products.", "anchors": ["src/core/include/units/bits/dimension_op.h: dimension_multiply", "src/core/include/units/bits/dim_consolidate.h"]}
{"id": "C36", "title": "Dimension product adds exponents", "statement": "The exponent of every base dimension in a product (quotient) of dimensions is the exact rational sum (difference) of its exponents in the factors; base dimensions with total exponent zero disappear.", "quantifier": "all dimensions", "why_tests_cant": "All exponent lists.", "anchors": ["src/core/include/units/bits/dimension_op.h", "src/core/include/units/bits/dim_consolidate.h"]}
{"id": "C37", "title": "Dimensions have a normal form", "statement": "The exponent list of a dimension obtained by multiplication, division or make_dimension is strictly sorted by symbol, without duplicates or zero exponents, provided the symbol identifies the base dimension; two such dimensions are the same type exactly when all exponents agree.", "quantifier": "all recipes and products", "why_tests_cant": "Invariant over all reachable dimensions.", "anchors": ["src/core/include/units/derived_dimension.h: make_dimension", "src/core/include/units/bits/dimension_op.h"]}
{"id": "C38", "title": "Base dimensions sharing a symbol", "statement": "Without that proviso the normal form is lost: the ordering of base dimensions ignores the base unit when symbols are equal, so products of dimensions of two systems depend on operand order and can contain the same base dimension twice (witness).", "quantifier": "existence", "why_tests_cant": "Order-dependence shows up only in combinations of systems no test multiplies.", "anchors": ["src/core/include/units/base_dimension.h: base_dimension_less"]}
{"id": "C39", "title": "Dimension group laws", "statement": "D / D is dimensionless, D * dimensionless is D, 1/(1/D) is D, D1/D2 = D1 * (1/D2).", "quantifier": "all dimensions in normal form", "why_tests_cant": "All dimensions.", "anchors": ["src/core/include/units/bits/dimension_op.h: dim_invert, dimension_divide"]}
{"id": "C40", "title": "Dimension powers", "statement": "Raising a dimension to Num/Den multiplies every exponent by Num/Den as long as neither the exponent, nor the power, nor the resulting exponent (each in lowest terms) has a numerator or denominator divisible by ten; a positive power in lowest terms yields the same type as the corresponding product. Otherwise factors of ten are dropped (witnesses: tenth power, (L^(3/2))^10), and negative or unreduced powers may yield a type that is not equivalent to the base dimension it denotes (witnesses).", "quantifier": "all dimensions and rational powers", "why_tests_cant": "Unbounded exponents.", "anchors": ["src/core/include/units/bits/dimension_op.h: dimension_pow", "src/core/include/units/exponent.h: exponent_multiply"]}
{"id": "C41", "title": "Compile-time sort", "statement": "The type-list sort used for dimensions returns a permutation of its input that is sorted, for every list length, and terminates.", "quantifier": "all lists", "why_tests_cant": "Unbounded list length.", "anchors": ["src/core/include/units/bits/external/type_list.h: type_list_sort, type_list_merge_sorted, type_list_split_half"]}
{"id": "C42", "title": "Equivalence of dimensions", "statement": "equivalent is reflexive, symmetric and transitive on dimensions, and equivalent dimensions have the same exponents over base dimensions with the same symbol and reference unit.", "quantifier": "all dimensions", "why_tests_cant": "Transitivity over all triples.", "anchors": ["src/core/include/units/bits/equivalent.h"]}
{"id": "C43", "title": "Equivalence of units", "statement": "equivalent on units is reflexive and symmetric; it is not transitive (two aliases of one unit are each equivalent to it but not to one another).", "quantifier": "all unit hierarchies", "why_tests_cant": "All hierarchies.", "anchors": ["src/core/include/units/bits/equivalent.h"]}
{"id": "C44", "title": "Base-unit ratio is multiplicative", "statement": "The ratio between a coherent unit built from base units and their references is the product of the base unit ratios raised to the exponents, so it is multiplicative under dimension product and inverts under inversion (integral exponents).", "quantifier": "all dimensions with integral exponents", "why_tests_cant": "All exponent lists.", "anchors": ["src/core/include/units/bits/base_units_ratio.h"]}
{"id": "C45", "title": "Derived units", "statement": "A unit declared with derived_unit or named_derived_unit has the magnitude of the product of its constituent units raised to the (whole) exponents of the recipe exactly when the ratios of the default units of the constituent dimensions, each raised to its exponent less one towards zero, multiply to the ratio of the coherent unit; in particular whenever the coherent unit is its own reference and every constituent's default unit has ratio 1 or an exponent of magnitude 1. Otherwise the default unit's ratio enters with the wrong power, and denominators of exponents are ignored (witnesses).", "quantifier": "all recipes and constituent units", "why_tests_cant": "All user-definable units.", "anchors": ["src/core/include/units/bits/derived_unit.h: derived_ratio", "src/core/include/units/unit.h: derived_unit"]}
{"id": "C46", "title": "References multiply like units", "statement": "The reference expression u1 * u2 or u1 / u2 denotes a unit whose physical magnitude is the product or quotient of the operands' magnitudes, for all dimensions and units, so n * (u1 / u2) equals (n * u1) / (1 * u2).", "quantifier": "all references", "why_tests_cant": "All units.", "anchors": ["src/core/include/units/reference.h"]}
{"id": "C47", "title": "Named and prefixed units", "statement": "A prefixed unit is prefix-factor times its reference unit, nested named_scaled_units compose multiplicatively, and quantities expressed through any chain of scaled definitions compare equal iff the products of factors agree.", "quantifier": "all chains of unit definitions", "why_tests_cant": "Unbounded chains.", "anchors": ["src/core/include/units/unit.h: named_scaled_unit, prefixed_unit", "src/core/include/units/prefix.h"]}
{"id": "C48", "title": "Downcasting preserves meaning", "statement": "Looking up the user-facing type of a dimension or unit returns either the type itself or the registered child whose base is that type; the result does not depend on the order of declarations, and an ambiguous registration is an error in the strict mode and falls back to the base type in the automatic mode.", "quantifier": "all histories of type declarations", "why_tests_cant": "All declaration histories.", "anchors": ["src/core/include/units/bits/external/downcasting.h"]}
{"id": "C49", "title": "Affine laws of quantity points", "statement": "For points of one origin: (p + v) - p == v, p + (q - p) == q, (p + v) + w == p + (v + w), p - v == p + (-v), and comparison of points agrees with comparison of the relative quantities, across units.", "quantifier": "all points, vectors and units", "why_tests_cant": "All numbers and units.", "anchors": ["src/core/include/units/quantity_point.h"]}
{"id": "C50", "title": "Points of different origins do not mix", "statement": "Subtraction, comparison and conversion between two quantity points are available only if their origins are equivalent; adding a vector keeps the origin.", "quantifier": "all origins", "why_tests_cant": "All user-defined origins.", "anchors": ["src/core/include/units/quantity_point.h", "src/core/include/units/bits/quantity_of.h"]}
{"id": "C51", "title": "Casting a quantity point", "statement": "quantity_point_cast to another unit, representation, dimension or full type gives the relative value of the corresponding quantity_cast (truncating towards the origin for integral representations). Every overload returns a point with the dynamic origin of the dimension, also the ones given a full target type: a point with the dynamic origin keeps it, and no cast of a point with a declared origin can be compared with, subtracted from or converted back to it.", "quantifier": "all points", "why_tests_cant": "Type-level behaviour over all origins.", "anchors": ["src/core/include/units/quantity_cast.h: quantity_point_cast"]}
{"id": "C52", "title": "Kinds behave like their quantities and do not mix", "statement": "Arithmetic and comparison on quantity_kind agree with those of the underlying quantities, and are available for two operands only if their kinds are equivalent; multiplication by a plain quantity stays within kinds derived from the same base kind.", "quantifier": "all kinds and numbers", "why_tests_cant": "All kinds.", "anchors": ["src/core/include/units/quantity_kind.h", "src/core/include/units/kind.h"]}
{"id": "C53", "title": "Points of kinds", "statement": "quantity_point_kind satisfies the affine laws with quantity_kind as its vector type, for operands of equivalent kinds and origins only. The sum of a point and a vector always has the dynamic origin, so for a declared origin (p + k) - p does not compile; member operators keep the origin.", "quantifier": "all point kinds and numbers", "why_tests_cant": "All numbers and kinds.", "anchors": ["src/core/include/units/quantity_point_kind.h"]}
{"id": "C54", "title": "Powers and roots of quantities", "statement": "pow<N>(q) of an integral quantity, N > 0, has the number raised to N (whenever std::pow is exact on whole numbers that fit) and the physical value of q raised to N exactly when the ratio of the coherent unit of the result is the N-th power of that of the operand (refuted for kilograms); pow<0> is a plain 1; the D-th power of the unit of pow<N,D>, sqrt and cbrt is the N-th power of the unit of q when the unit's ratio is a perfect power, otherwise the unit is silently rounded; sqrt of an integral quantity below 2^52 is the floor of the root, beyond it can be one too large, of a floating one it is correctly rounded; abs(q) keeps the unit and yields the absolute value, except for the lowest number (undefined, or unchanged for narrow types); epsilon is the distance from one to the next number.", "quantifier": "all quantities, units, representations, N and D, all dimension systems", "why_tests_cant": "All N, units and numbers; the failures are at particular magnitudes.", "anchors": ["src/core/include/units/math.h: pow, sqrt, cbrt, exp, abs, epsilon"]}
{"id": "C55", "title": "std::chrono interoperability", "statement": "A std::chrono::duration with period Num/Den becomes a quantity with the same count whose unit is Num/Den seconds, for every positive period. Between such quantities quantity_cast computes what duration_cast computes, and the implicit conversion exists exactly when std::chrono has one. A time point becomes a quantity point whose origin is that of its clock; a point is never constructed from a time point of another clock, and construction in another unit keeps the value.", "quantifier": "all positive periods, representations, counts and clocks", "why_tests_cant": "Tests use the named durations; the claim is about every std::ratio and every count.", "anchors": ["src/core/include/units/chrono.h:33-54", "src/core/include/units/quantity.h:158-160", "src/core/include/units/quantity_point.h:85-89"]}
{"id": "C56", "title": "Superscript and decimal rendering", "statement": "The exponent rendered as superscript or ASCII digits, and the decimal rendering of an integer, denote that integer: distinct integers have distinct renderings and parsing the text returns it, for every non-negative integer; for negative integers the plain rendering mixes in superscript digits.", "quantifier": "all intmax_t", "why_tests_cant": "All integers.", "anchors": ["src/core/include/units/bits/external/text_tools.h: superscript, regular"]}
{"id": "C57", "title": "fixed_string and symbol_text", "statement": "Concatenation is associative with the empty string as unit, its length is additive, equality is pointwise and the ordering is the lexicographic total order consistent with equality; symbol_text concatenation acts on the Unicode and ASCII forms separately.", "quantifier": "all strings", "why_tests_cant": "Unbounded strings.", "anchors": ["src/core/include/units/bits/external/fixed_string.h", "src/core/include/units/symbol_text.h"]}
{"id": "C58", "title": "Unit symbols of derived units", "statement": "The text of a derived unit lists every constituent with its exponent: a single negative exponent is rendered with a slash, several with explicit negative powers; reading either text back gives the exponents. Only a fractional negative exponent beside another negative exponent loses its sign (witness).", "quantifier": "all exponent lists", "why_tests_cant": "All recipes.", "anchors": ["src/core/include/units/bits/derived_symbol_text.h", "src/core/include/units/bits/unit_text.h"]}
{"id": "C59", "title": "Nested unnamed dimensions in unit symbols", "statement": "When a recipe mentions a dimension whose coherent unit is unnamed, the printed text expands it; the outer exponent is applied only if it is one, otherwise it is lost (witness).", "quantifier": "all nested recipes", "why_tests_cant": "All recipes.", "anchors": ["src/core/include/units/bits/unit_text.h: exponent_list_with_named_units"]}
{"id": "C60", "title": "Ratio rendering in unit symbols", "statement": "The bracketed prefix [num/den x 10^exp] printed for a unit without name denotes exactly the ratio of the unit to the coherent unit; distinct ratios print differently.", "quantifier": "all ratios", "why_tests_cant": "All ratios.", "anchors": ["src/core/include/units/bits/unit_text.h: ratio_text, prefix_or_ratio_text"]}
{"id": "C61", "title": "Output of a quantity", "statement": "Stream output of a quantity is the number, a space and the unit text (no space-unit part if the text is empty).", "quantifier": "all quantities", "why_tests_cant": "All numbers and units.", "anchors": ["src/core-io/include/units/quantity_io.h"]}
{"id": "C62", "title": "Format specification parser and formatted output", "statement": "Every format specification of the documented grammar ([fill-and-align][width], literal characters, %Q with modifiers, %q, %Aq, %n, %t, %%) is accepted up to its closing brace and printed as its items in order, padded as asked, provided all %Q in it carry the same modifiers, all %q too, and no locale is combined with a type; an empty specification prints number, space, symbol as an output stream does. Parsing any string at all terminates without reading beyond its end, and what parsing accepts, formatting can print. Unknown types, a precision for an integral representation and unfinished conversions are rejected. Witnesses for deviations: modifiers are shared by the whole specification, L is placed after the type, any character is accepted as unit modifier, and the search for Q or q crosses the closing brace.", "quantifier": "all format strings, numbers, units and ways to write a number", "why_tests_cant": "Strings of any length; every combination of modifiers; every character that is not a type.", "anchors": ["src/core-fmt/include/units/format.h: parse_units_format, parse_units_rep, format_units_quantity_value, units_formatter, formatter::parse, formatter::format"]}
{"id": "C63", "title": "Predefined prefixes", "statement": "Every SI prefix denotes its power of ten and every IEC binary prefix its power of 1024, and they are pairwise distinct.", "quantifier": "all predefined prefixes", "why_tests_cant": "Finite but exhaustive; tests cover a few.", "anchors": ["src/systems/si/include/units/isq/si/prefixes.h", "src/systems/isq-iec80000/include/units/isq/iec80000/binary_prefixes.h"]}
{"id": "C64", "title": "Predefined dimensions", "statement": "Every predefined derived ISQ dimension has the exponents over base dimensions that ISO 80000 assigns to it.", "quantifier": "all predefined dimensions", "why_tests_cant": "Finite but exhaustive against an independent table.", "anchors": ["src/systems/isq/include/units/isq/dimensions"]}
{"id": "C65", "title": "Predefined units", "statement": "Every predefined unit has the magnitude its defining standard gives it; exceptions are listed with witnesses (hectolitre, pound-force per square inch, ...).", "quantifier": "all predefined units", "why_tests_cant": "Finite but exhaustive against an independent table.", "anchors": ["src/systems"]}
{"id": "C66", "title": "Random distributions", "statement": "A quantity distribution yields, over any sequence of draws, exactly the numbers the underlying standard distribution with the unwrapped parameters yields, tagged with the quantity's unit, and leaves distribution and generator in the same state; its parameters are given back, and a distribution over an interval draws only quantities between its two bounds whatever units these were given in. The weights of a piecewise constant distribution are the sums of the function at neighbouring boundaries.", "quantifier": "all generators, parameters and draw sequences", "why_tests_cant": "All generators and histories.", "anchors": ["src/core/include/units/random.h:30-92", "src/core/include/units/random.h:393-436"]}
{"id": "C67", "title": "Conversions between predefined units", "statement": "In any program made of the library's predefined units and dimensions, a conversion between two units of equivalent dimensions (also across systems) uses the quotient of the values the standards give them: casts truncate number times quotient, implicit conversions are exact. The only pairs for which no conversion compiles are listed (horse power and foot-pound units to units outside the fps system; parsec and survey or international miles).", "quantifier": "all selections and orders of the predefined declarations, all downcasting modes, all pairs of units, all integral values", "why_tests_cant": "Tests convert a handful of the several ten thousand pairs, at a handful of values.", "anchors": ["src/systems", "src/core/include/units/quantity_cast.h"]}
{"id": "C68", "title": "Dimensional analysis of whole expressions", "statement": "An expression of quantities (any nesting of + - * / %, scaling by numbers, conversions and casts) that compiles and evaluates obeys the rules of dimensional analysis, and the dimension of its result is the one the rules give; an expression against the rules never has a value, and comparison accepts only operands of one dimension. The one hole: a plain number may be added to a quantity whose unit is 'one' whatever its dimension, as natural-units speed.", "quantifier": "all expressions, representations, units, systems and sets of declarations", "why_tests_cant": "Tests try particular expressions; the claim is about every nesting of operators and every system of units a user declares.", "anchors": ["src/core/include/units/quantity.h:289-439", "src/core/include/units/quantity_cast.h:114-219", "src/core/include/units/bits/equivalent.h"]}
{"id": "C69", "title": "Exact values of integral expressions", "statement": "Within one system of units, an expression of 64-bit integral quantities that evaluates without overflow has exactly the physical value rational arithmetic gives, whatever units its parts are written in and wherever the library converts between them (divisions coming out even). Hence two expressions of one value and dimension have one dimension type and compare equal, and expressions compare as their values do.", "quantifier": "all expressions, all units and values", "why_tests_cant": "Unbounded nesting of operators and all mixtures of units.", "anchors": ["src/core/include/units/quantity.h:289-439", "src/core/include/units/bits/common_quantity.h", "src/core/include/units/reference.h"]}
{"id": "C70", "title": "Formulas in coherent units cost nothing and change nothing", "statement": "A formula of floating-point quantities in coherent units of one system compiles and evaluates if and only if it obeys dimensional analysis, and the number of its result is bit for bit the number the same formula yields on bare floating-point numbers, again in a coherent unit.", "quantifier": "all formulas (sums, differences, products, quotients, scaling, conversions), all floating values including infinities and NaN, all systems", "why_tests_cant": "All formulas and all floating-point values.", "anchors": ["src/core/include/units/quantity.h:319-428", "src/core/include/units/quantity_cast.h:42-112", "src/core/include/units/reference.h"]}
{"id": "C71", "title": "Logarithm, exponential and power computed by the compiler are accurate", "statement": "The decimal form of every finite number but zero has one digit before the point, the sign of the number and its value up to rounding, and the loops that find it end. The compile-time logarithm of every positive double is defined (the table is never read outside) and within 10^-12 of the logarithm; other operands violate the precondition. With the orders and factors the library uses, the exponential is within 2*10^-13 relative between e^-23 and e^23 and the power within (1.1|e| + 0.2)*10^-12 relative. An infinity never leaves the loop.", "quantifier": "all doubles, subnormal ones included", "why_tests_cant": "2^63 operands; the tests compare a handful of literals.", "anchors": ["src/core/include/units/bits/constexpr_math.h:32-239"]}
{"id": "C72", "title": "Roots taken by the compiler", "statement": "The compile-time estimate of a root is never further than one from it, for every operand and degree. Hence the root of a perfect power of any degree is exact as long as the next power fits, the root of any number up to 10^12 divided by the degree is rounded down, a compile-time square root below 5*10^11 equals the run-time one, and the roots of ratios and of units that are perfect powers are exact, nothing assumed of the estimate. Further up the compiler may be one below the run-time result, and degrees above 62 overflow.", "quantifier": "all operands and degrees", "why_tests_cant": "2^63 operands for every degree; the failures are isolated numbers next to perfect powers.", "anchors": ["src/core/include/units/bits/root.h:34-96", "src/core/include/units/bits/constexpr_math.h", "src/core/include/units/ratio.h:111-156"]}
{"id": "C73", "title": "Unit literals, reference constants and unit aliases mean what they are called", "statement": "Every user-defined literal (2_q_km), reference constant (2 * km) and unit alias (km<>) the headers provide reads, by the prefixes and symbols of the SI Brochure and the customary symbols, as exactly one unit of its quantity, and stands for a unit with that value in every program that can use it; in the natural system for the power of the gigaelectronvolt of its quantity. A literal written with digits only yields a quantity holding that number, whatever the number; a decimal literal, and a number times a reference, hold the number given. Within a namespace a name stands for one thing.", "quantifier": "all 1810 names, all programs that include any of the headers in any order and downcasting mode, all numbers", "why_tests_cant": "Tests spell out a few dozen of the names and numbers that fit; the interesting ones are the names nobody wrote a test for and the numbers that do not fit the representation.", "anchors": ["src/systems/si/include/units/isq/si/length.h:62-257", "src/systems/si/include/units/isq/si/radioactivity.h:198-218", "src/core/include/units/reference.h:60-130", "src/core/include/units/generic/angle.h"]}
{"id": "C74", "title": "Physical constants hold their defined value in their dimension", "statement": "The constants of the SI 2019 namespace (but the reduced Planck constant, which is shown to be 10^15 times its value) and the natural speed of light compile for every floating-point representation in every program that can use them, have the dimension of the constant, and their number times the magnitude of their unit is the value of the SI Brochure up to the rounding of the literal to double and of that to the representation. With an integral representation the constants written with a decimal point do not compile and the others hold exactly their number if the type has it.", "quantifier": "all programs that include the headers in any order and downcasting mode, all constants, all arithmetic representations", "why_tests_cant": "The tests use one or two of them, as double, and compare with the same digits; the value is spread over a number, a unit ratio and a dimension that depends on the headers included.", "anchors": ["src/systems/si/include/units/isq/si/constants.h:35-60", "src/systems/isq-natural/include/units/isq/natural/constants.h:29-30"]}
{"id": "C75", "title": "Dimensions of the library's systems multiply and divide as the quantities of the ISQ do", "statement": "In every program with downcasting that uses the SI, CGS, FPS or natural system, the product and the quotient of two dimensions the program has declared is the declared dimension of the quantity with that product (quotient) as its ISO 80000 dimension, provided that dimension is not declared under a second name: a length by a time is a speed, a force times a length an energy. Within each of these systems and the information system the theorems about whole expressions apply to the dimensions as declared.", "quantifier": "all programs that include any of the headers in any order, all pairs of declared dimensions", "why_tests_cant": "The pairs times the subsets of headers; which headers are included changes which type comes out.", "anchors": ["src/systems/isq/include/units/isq/dimensions/", "src/core/include/units/bits/dimension_op.h:136-165", "src/core/include/units/bits/external/downcasting.h:33-86"]}
{"id": "C76", "title": "The concept of a quantity accepts exactly the quantities of that kind", "statement": "Each concept of the ISQ headers (isq::Length, isq::Speed, isq::Energy, ...) names one quantity of ISO 80000 and every quantity has one. A quantity of a declared dimension satisfies the concept of the quantity it was declared for and no other. Whatever satisfies a concept, in any mode of downcasting, has the ISO dimension of that quantity. With downcasting, whatever the operators make of declared quantities in any number of steps satisfies the concept of the declared quantity whose dimension it has. Without downcasting the concepts of nine quantities (Acceleration, AngularVelocity, Area, CurrentDensity, Frequency, Luminance, Radioactivity, Speed, Volume) accept such a result if and only if it has their dimension, and asking any other concept about a result that is not a declared dimension does not compile (Force for a mass times an acceleration). Dimensionless accepts exactly what has no exponents; the concepts of the quantities of information exactly their own dimension among the declared ones.", "quantifier": "all programs that include any of the headers in any order, all modes of downcasting, all concepts, all declared dimensions and all products, quotients and inverses of them of any depth", "why_tests_cant": "Tests check one accepted and one refused type per concept; the types are those of all products over all subsets of headers, and the answer depends on the mode and on the order of symbols.", "anchors": ["src/core/include/units/bits/quantity_of.h:30-77", "src/systems/isq/include/units/isq/dimensions/", "src/core/include/units/generic/dimensionless.h:45", "src/core/include/units/generic/angle.h:41"]}
{"id": "C77", "title": "A quantity of a user-defined representation behaves as its observed numbers do", "statement": "For every class used as a representation whose own operators act on a number that can be read off its values (an element of a vector, the central value of a measurement with an uncertainty, the integer inside a wrapper), the casts, conversions, sums, differences, products with and quotients by numbers and quantities, negation and equality of quantities over that class act on this number as the same operation does on the quantity of the plain number: same unit, same dimension, same truncation, and whatever the class-valued operation defines the plain one defines too. A vector of integers is cast exactly when every element is, each truncated towards zero. Exceptions, stated and witnessed: a cast from a signed to an unsigned representation of no greater width (the plain cast multiplies in the unsigned type, the class in the signed one), and a class whose operators take its own narrow element type by value (the factors are narrowed before they are applied); the uncertainty of a measurement is not observed (a cast of 0 +- 1 has none).", "quantifier": "all classes that meet the requirement, all their values (vectors of any length), all units, dimensions and element types", "why_tests_cant": "custom_rep_test_min_expl.cpp, measurement.cpp and linear_algebra.cpp use a handful of values of three classes; the requirement is on every class, value and pair of units.", "anchors": ["src/core/include/units/quantity_cast.h:80-139", "src/core/include/units/customization_points.h", "src/core/include/units/quantity.h:319-455", "example/measurement.cpp", "example/references/linear_algebra.cpp", "test/unit_test/static/custom_rep_test_min_expl.cpp"]}
{"id": "C78", "title": "Comparisons and sums of floating-point quantities in different units", "statement": "When two quantities, at least one of them floating-point, are compared or added in different units of one dimension, each is converted to their common unit. If the format holds the two whole factors, the comparison is that of the two values correctly rounded in the common unit: equal physical values compare equal, a reported < or > is the true order, and reported orders never form a circle; a sum is the correctly rounded sum of the two correctly rounded values. For any factors, values further apart than the errors of their conversions are ordered rightly and equal results mean values within those errors, and the error of a sum is bounded by the same. Addition is commutative bit for bit. Beyond whole factors the format holds, the order can be reported the wrong way (1 Ym against 9.99..e38 fm).", "quantifier": "all units, all values of all floating-point formats (with no overflow), any mixture with integers the format holds", "why_tests_cant": "Tests compare a few round numbers; which pairs of values are compared wrongly depends on the last bits of all values and on the factor between all pairs of units.", "anchors": ["src/core/include/units/quantity.h:399-455", "src/core/include/units/bits/common_quantity.h:45-77", "src/core/include/units/quantity_cast.h:114-139"]}
{"id": "C79", "title": "The printed symbol of a unit says what the unit is", "statement": "Whatever set of the library's headers a program includes, every unit has a text for every dimension it measures. Read with the symbols and prefixes of the SI Brochure and the customary ones, and with the usual notation of products, powers and factors, the Unicode and the ASCII text of a unit each have exactly one reading as a unit of the quantity, and it is the size of the unit (up to the deviations of C65); this also holds for the unnamed units that arise in calculations, with any ratio. So units of one quantity with the same text have the same size, even across systems. In the natural system the text gives the right power of GeV. The exceptions: radian per second, joule per cubic metre, poundal and pound-force per square foot are printed wrongly, and unnamed multiples of the kilogram and the centimetre can get two prefixes.", "quantifier": "all programs made of headers of the library, all their units and dimensions, all ratios of unnamed units", "why_tests_cant": "The tests print some dozens of units; the texts of several hundred pairs of unit and dimension, and of unboundedly many unnamed units, are composed from parts chosen by downcasting and by prefix families.", "anchors": ["src/core/include/units/bits/unit_text.h:36-180", "src/systems/si/include/units/isq/si/angular_velocity.h:32-40", "src/core-io/include/units/quantity_io.h:30-60"]}
{"id": "C80", "title": "Headers can be included in any order and, but for three clashes, together", "statement": "A program that includes headers of the library gets exactly the declarations of these headers and of those they include, each once and after what it uses. Every header can be included alone, in every downcasting mode. With downcasting off or automatic every selection compiles; in the default mode a selection compiles exactly if it does not bring in both frequency.h and radioactivity.h, both pressure.h and energy_density.h, or both the international and the foot-pound-second length.h. Neither order nor repetition nor the way a header is reached matters: two programs that include the same headers both fail or both compile, and then have the same names with the same meaning and the same downcasting, so every expression has the same type and value, compares and prints the same in both.", "quantifier": "all lists of include lines (any length, order, repetitions), all downcasting modes, all expressions of quantities, all output formats", "why_tests_cant": "There are more than 2^100 selections of the headers and as many factorials of orders; the tests include some twenty of them in one order each.", "anchors": ["src/systems/si/include/units/isq/si/si.h:26-80", "src/core/include/units/bits/external/downcasting.h:45-101", "src/systems/si/include/units/isq/si/energy_density.h:38", "src/systems/si/include/units/isq/si/radioactivity.h:59", "src/systems/si-fps/include/units/isq/si/fps/length.h:38-57", "src/systems/si-international/include/units/isq/si/international/length.h:40-63"]}
{"id": "C81", "title": "Dimensionless quantities compare with plain numbers like numbers, if these fit", "statement": "A quantity compares with a plain number, on either side, only if it is dimensionless in the unit one and the types alone lose no fraction; a percentage, a quantity with a dimension, or a floating-point number against a whole representation do not compile. If the representation can hold the number, the result is the order of the two real numbers, the order agrees with the sign of the difference, assignment takes the number over, += and -= add and subtract it and v % q is the remainder. If it cannot hold it, equality means equality modulo 2^w, or with the nearest number of the format. Exchanging the sides exchanges less and greater, also for NaN.", "quantifier": "all quantity types, all representations, all numbers of all arithmetic types", "why_tests_cant": "The tests compare 123 with 321; the narrowing conversion hidden in the comparison shows only for numbers outside the range of the representation, and not as an error.", "anchors": ["src/core/include/units/quantity.h:150-153", "src/core/include/units/quantity.h:212-224", "src/core/include/units/quantity.h:369-389"]}
{"id": "C82", "title": "Whatever a quantity, point, kind or point of a kind is constructed from, it keeps the value, and it is constructed only from what belongs to it", "statement": "An object constructed from a number, a quantity, a duration, a point, a time point, a kind or a point of a kind has the physical value of the argument, a bare number counting units of the target. No quantity is constructed from a point or a kind, no kind from a point or another kind, no point from a kind, from another origin or from the time points of another clock, nothing from another dimension. From a bare number a point of any dimension can be constructed, but a kind, or a point of a kind, only if it is dimensionless. Implicit conversions do what the constructor does and exist only within one class template, and from a number to dimensionless<one>. Every object is rebuilt by its type from its common() or relative(), and deduced template arguments give the object constructed with the deduced type.", "quantifier": "all types of the four class templates, all arguments, all declared kinds and origins", "why_tests_cant": "The tests try about a hundred constructions with small numbers; which of the seven sorts of arguments each constructor accepts, and that none changes the value, are statements about all types and numbers.", "anchors": ["src/core/include/units/quantity.h:150-160", "src/core/include/units/quantity_point.h:77-89", "src/core/include/units/quantity_kind.h:96-106", "src/core/include/units/quantity_point_kind.h:64-77"]}
{"id": "C83", "title": "Whole expressions of quantities and points obey affine algebra, and nothing but relative() depends on where an origin lies", "statement": "Every expression of quantities and points that compiles obeys the rules of affine dimensional analysis (a point less a point is a quantity, a point and a quantity make a point, points are neither added, scaled, negated nor subtracted from a quantity, dimensions match), and these rules alone decide whether the result is a quantity or a point and of which dimension; an expression against them does not compile. For signed 64-bit numbers in one system the result is what plain arithmetic on the places of the points gives wherever the origins are put: quantities computed from points do not change when the points are written from another origin, resulting points lie at the same place, and points compare as their places. The distance relative() does depend on the origin (witness).", "quantifier": "all expressions (any depth), origins, placements of the origins, units, representations (rules) and numbers", "why_tests_cant": "The tests check single operators on chosen points; the law is about every composition and every placement of the origins.", "anchors": ["src/core/include/units/quantity_point.h: operator+, operator-, relative", "src/core/include/units/quantity.h: operators", "src/core/include/units/quantity_cast.h: quantity_point_cast"]}
{"id": "C84", "title": "Whether an expression compiles, and its type, depend on the types of the objects only, never on their numbers", "statement": "If an expression of quantities and points has a value for some numbers, then with any other numbers of the same types it has a value of exactly the same type (dimension, unit, representation, origin), unless its arithmetic is undefined on them; it is never rejected, violates no contract and does not get stuck. Every text is either accepted for all numbers, with one type, or for none, and the compiler's computation on the types alone decides which. The same holds for comparisons.", "quantifier": "all expressions (any depth), numbers, representations, units, systems, origins and worlds of declared dimensions", "why_tests_cant": "A static_assert checks one text with one set of numbers; that the numbers cannot matter is a statement about all of them.", "anchors": ["src/core/include/units/quantity.h: operators, constructors", "src/core/include/units/quantity_point.h: operators, constructors", "src/core/include/units/quantity_cast.h: quantity_cast, quantity_point_cast"]}
{"id": "C85", "title": "A program that compiles never goes wrong: its variables keep their types and no operation fails, except by undefined arithmetic", "statement": "Take any program built from variables of quantity and point types, assignments, ++ -- += -= *= /= %=, comparisons, if and while. If the compiler accepts it, then from every initial numbers, after any number of steps, each variable still holds an object of its declared type, and no operation is rejected, violates a contract or gets stuck: the run ends, continues, or its arithmetic is undefined. Conversely the compiler accepts every straight-line program that runs. ++x and --x step the number of the variable by one and touch no other variable, and the six relations of any two objects fit together, also for unordered numbers.", "quantifier": "all programs (any length, nesting and number of iterations), initial numbers, representations, units, systems, origins and worlds", "why_tests_cant": "Loops make the set of executions infinite; a test runs one program on one input.", "anchors": ["src/core/include/units/quantity.h: operators, compound assignment", "src/core/include/units/quantity_point.h: operators, compound assignment"]}
{"id": "C86", "title": "A program with loops computes the values of the ideal program on real magnitudes, whatever units it is written in", "statement": "Run a program of quantities and points (assignments, += -= *= /=, comparisons, if, while) with signed 64-bit numbers. If the run ends, without overflow and with every integer division coming out even, then the same program on plain rational magnitudes takes the same branches and ends, and every variable holds exactly the magnitude (or, for points, place) of its counterpart. Therefore two spellings of one program - variables declared in other units, literals written in other units, other conversions on the way - started from the same magnitudes end with the same magnitudes.", "quantifier": "all programs (any length, nesting and number of iterations), initial numbers, units of a system, origins and their places", "why_tests_cant": "The equivalence relates infinitely many executions of every program in every combination of units.", "anchors": ["src/core/include/units/quantity.h: operators, compound assignment, comparisons", "src/core/include/units/quantity_point.h: operators, compound assignment, comparisons"]}
{"id": "C87", "title": "Truncation errors of casts and integer divisions add up exactly as error analysis predicts, in whole expressions of quantities and points", "statement": "For every expression of quantities and points with signed 64-bit numbers, including explicit casts (quantity_cast, quantity_point_cast) and integer divisions that do not come out even, the computed result differs from the exact value by at most the bound obtained by propagating, through the expression, one unit of its result for every cast and division and nothing for conversions, sums and products. A comparison whose sides differ by more than their bounds decides as exact arithmetic does. In particular, casting n quantities to a coarser unit and adding them loses at most n units, adding first and casting once at most one.", "quantifier": "all expressions (any depth), numbers, units of a system, origins, lists of summands of any length", "why_tests_cant": "Tests check single casts on single numbers; the accumulated error depends on the shape of the expression and on all numbers.", "anchors": ["src/core/include/units/quantity_cast.h: quantity_cast, quantity_point_cast", "src/core/include/units/quantity.h: operator/"]}
{"id": "C88", "title": "The relative error of an expression of floating-point quantities in any units is that of its operations and non-trivial conversion factors, and nothing else", "statement": "For every expression of floating-point quantities in whatever units of a system, the result equals the exact value up to as many roundings as the expression has operations plus the costs of its unit conversions, where a conversion between equal types costs nothing. Products and quotients of floating-point quantities of any units give, bit for bit, the number that the same formula on bare numbers gives. Adding up n+1 non-negative quantities of one type costs n roundings. A comparison whose sides differ by more than their error bounds decides as exact arithmetic does. Under cancellation no such bound exists.", "quantifier": "all expressions (any depth), floating-point numbers, units of a system, lists of summands of any length, all three formats", "why_tests_cant": "Tests compare single results with a tolerance; the bound concerns all numbers and all shapes of expressions.", "anchors": ["src/core/include/units/quantity.h: operator+, operator-, operator*, operator/, operator<=>", "src/core/include/units/quantity_cast.h: quantity_cast", "src/core/include/units/bits/common_quantity.h: common_quantity"]}
{"id": "C89", "title": "Types that equivalent<T, U> identifies have units of one size; conversions between them change no number", "statement": "Within one decimal system of units, if equivalent<> holds for two quantity types then their units have the same magnitude; a conversion between them (same representation) leaves the number unchanged, for quantities, points, kinds and point kinds; comparisons of such quantities are comparisons of the numbers; and the relation is reflexive, symmetric and transitive. Across systems it is neither sound nor transitive: SI metre and CGS centimetre are equivalent.", "quantifier": "all quantity, point, kind and point kind types over any declared units of a decimal system, all representations and numbers", "why_tests_cant": "The tests use the predicate as the oracle of type identity with downcasting off; that it implies equal meaning concerns all pairs of types.", "anchors": ["src/core/include/units/bits/equivalent.h: equivalent, equivalent_impl, equivalent_unit", "test/unit_test/static/test_tools.h: compare"]}
{"id": "C90", "title": "What a program declares, and its downcasting mode, change the names of types but no number", "statement": "If an expression of quantities and points of one decimal system compiles in two programs, whatever dimensions and units these declare and in whatever downcasting modes, then its arithmetic is undefined in both or the results have the same number, representation, exponents and unit ratio; their types are equivalent<>, their units have the same size, and comparisons of such expressions agree. This holds for any two programs of the library's SI headers. Whether an expression compiles may differ.", "quantifier": "all programs, modes, expressions (any depth), representations and numbers", "why_tests_cant": "The test suite is compiled in one mode at a time with fixed includes; the claim relates all pairs of programs.", "anchors": ["src/core/include/units/bits/external/downcasting.h: downcast_base, downcast", "src/core/include/units/bits/dimension_op.h: dimension_multiply, dimension_divide", "src/core/include/units/bits/common_quantity.h: common_quantity", "src/core/include/units/quantity.h: operators"]}
{"id": "C91", "title": "Expressions of kinds follow the discipline of kinds and compute what the bare quantities compute", "statement": "An expression of quantity kinds, points of kinds and quantities, of any size, compiles with a value exactly when it follows the discipline of kinds (one base kind on both sides of sums, differences, remainders, products and quotients; quantities only multiply and divide kinds; points are moved by their kind and subtracted only with the same origin; only casts to a named kind and common() leave a kind) and the same expression with the kinds taken away has a value; the number, unit, dimension and representation are then those of that bare expression. Without such casts all kinds mentioned have one base kind, which is that of the result. Moving a point forgets its named origin.", "quantifier": "all expressions (any depth), kinds, point kinds, origins, units, representations, registries of declared kinds and programs of one system", "why_tests_cant": "Tests try single operators on chosen kinds; that no composition mixes kinds, and that kinds never change a result, concerns all expressions.", "anchors": ["src/core/include/units/quantity_kind.h: operator+, operator-, operator*, operator/, operator%, common", "src/core/include/units/quantity_point_kind.h: operator+, operator-, relative", "src/core/include/units/quantity_cast.h: quantity_kind_cast, quantity_point_kind_cast", "src/core/include/units/kind.h: downcast_kind, kind"]}
{"id": "C92", "title": "Checking the ranges of the numbers suffices for expressions of mixed integral types", "statement": "For an expression of quantities and points whose numbers have any mixture of signed and unsigned integral types of 8 to 64 bits, in one system of units: if it compiles, and by the bounds of the numbers in its objects every operand and result fits the type the library computes it in (and no divisor can be zero), then it is defined for all such numbers, its number is within the computed bounds, its type is the one the compiler found, and it has exactly the value the arithmetic of rational numbers gives; comparisons of two such expressions compare these values. It suffices to check the ends of the ranges for sums, differences, conversions and casts, the four corners for products and quotients. Without the check, mixtures compile and silently give other values.", "quantifier": "all expressions (any depth), integral types, units, numbers within the bounds, bounds, origins, frames and programs of one system", "why_tests_cant": "Promotion, the choice of the common representation, the cast through 64 bits and wrap-around depend on the mixture of types and the numbers at every node; tests evaluate a few literals.", "anchors": ["src/core/include/units/quantity.h: operators, converting constructor", "src/core/include/units/quantity_cast.h: quantity_cast, cast_traits", "src/core/include/units/bits/common_quantity.h: common_quantity_t", "src/core/include/units/quantity_point.h: operators"]}
{"id": "C93", "title": "A transparent wrapper of a number behaves like the number", "statement": "If the representation is a class with implicit conversions from and to a number and nothing else, every expression of wrapped and plain numbers in any mixture has the same outcome as without the wrappers: it compiles if that compiles, is undefined if that is, and has the same dimension, unit and number; so do comparisons and changes in place by wrapped operands. Results of operators are plain numbers, a wrapped quantity cannot be changed in place, values convert implicitly only to dimensionless<one>, and min() and max() of a wrapped type are both zero, so they bound nothing.", "quantifier": "all expressions (any depth), representations, wrappers, units, dimensions, numbers and programs", "why_tests_cant": "The tests evaluate literals of int and double for lengths only; the mixtures at each node of an expression and the other number types are not covered.", "anchors": ["src/core/include/units/quantity.h: operators, constructors, min, max", "src/core/include/units/quantity_cast.h: cast_traits, quantity_cast", "src/core/include/units/customization_points.h: treat_as_floating_point, quantity_values", "test/unit_test/static/custom_rep_test_min_impl.cpp"]}
{"id": "C94", "title": "When terms cancel, the error of an expression is still a count of roundings, relative to the magnitude of the terms", "statement": "For every expression of floating-point quantities in whatever units of a system and of whatever signs, the result is a number and differs from the exact value by at most the error of the roundings counted (one per operation, plus the costs of unit conversions) relative to the magnitude of the expression, that is its value with all terms counted positively. A divisor or part whose magnitude is at most c times its value costs c times as many roundings. A sum of n+1 quantities costs n roundings of the sum of magnitudes, a scalar product of n pairs n roundings. The difference of two quantities of one type within a factor of two is exact. Comparisons of results that differ by more than their errors decide as exact arithmetic does.", "quantifier": "all expressions (any depth), floating-point numbers of any signs, units of a system, lists of any length, all three formats", "why_tests_cant": "Tests compare single results with a tolerance; that nothing but the count and the magnitude matters, however strongly the terms cancel, concerns all numbers and shapes of expressions.", "anchors": ["src/core/include/units/quantity.h: operator+, operator-, operator*, operator/, operator<=>", "src/core/include/units/quantity_cast.h: quantity_cast", "src/core/include/units/bits/common_quantity.h: common_quantity", "example/references/linear_algebra.cpp"]}
{"id": "C95", "title": "The Kalman filters built on quantities stay within the range of the measurements and close to the exact filter", "statement": "For quantities of doubles whose units need no rescaling, kalman_gain returns a number from 0 to 1, on the right side of a half and within 2^-52 of a/(a+b), for any two nonnegative uncertainties that are not both zero. state_update moves towards the measurement (or not at all for a gain of 0 or a measurement equal to the state), stays within every power of two that bounds state and measurement, and is within three roundings of x+k(m-x); covariance_update never yields a negative or larger uncertainty. The filters run any number of turns without overflow or undefined operations, each turn being the gain, update and extrapolation of the one before; without noise no uncertainty exceeds the first. A filter of quantity points is the filter of the quantities relative to the origin. The running average of the first example is the mean of the measurements up to n+1 units. For states with velocity and acceleration every variable is within a few roundings of its formula, and a measurement equal to the prediction changes nothing.", "quantifier": "all doubles and integer measurements within a power of two, all numbers of turns, all unit types without rescaling, any std::pow", "why_tests_cant": "Example programs print a dozen turns for one series of measurements; that no series of any length makes the filter leave the range, divide by zero or grow its uncertainty is a statement about all doubles and an induction on the turns.", "anchors": ["example/kalman_filter/kalman.h: kalman_gain, state_update, covariance_update, state_extrapolation, covariance_extrapolation", "example/kalman_filter/kalman_filter-example_1.cpp", "example/kalman_filter/kalman_filter-example_5.cpp", "example/kalman_filter/kalman_filter-example_6.cpp"]}
{"id": "C96", "title": "A whole program does the same whatever dimensions and units are declared around it, and with downcasting on or off", "statement": "Take one program text of quantities and points of a decimal system (assignments, ++ -- += -= *= /= %=, comparisons, if, while; any representations, casts, conversions and origins) that compiles in two surroundings: with other dimensions and units declared, or with downcasting switched off. Start it from variables holding the same numbers, in types that may differ in their names (as those of auto variables do). Then it takes the same branches in both, and after any number of steps either both runs have ended with the same numbers in types that differ only in names, or the arithmetic of both is undefined, or both go on. If the declared types of the variables are the same, the final states are identical.", "quantifier": "all programs (any length, nesting and number of iterations), initial numbers, representations, units, origins and pairs of surroundings", "why_tests_cant": "The downcasting mode and the set of included systems are fixed per build; no test compares two builds of every program on every input.", "anchors": ["src/core/include/units/bits/external/downcasting.h: downcast, UNITS_DOWNCAST_MODE", "src/core/include/units/bits/common_quantity.h", "src/core/include/units/quantity.h: operators, compound assignment, comparisons", "src/core/include/units/quantity_point.h: operators, compound assignment, comparisons"]}
{"id": "C97", "title": "The glide computer prints the flight of its plain formulas, finds the right leg, ends over flat terrain and arrives at the finish", "statement": "For any waypoints, glider polar, weather, safety height and tow (any doubles): the types and kinds of the example compile, the task's legs join consecutive waypoints with running total distances (an empty task throws, one waypoint alone is undefined), and every number that estimate prints is the one obtained with plain doubles in km, m, s, km/h and m/s: the kinds, units and conversions change no digit. No estimate is ill-formed; it prints a table, has undefined behaviour, or does not end. The leg found for a distance is the first that does not end before it. Undefined behaviour after a glide occurs exactly when the glide passed the finish. Over flat terrain with room R > 0 between the circling height and the clouds, a flight that has to gain H metres needs fewer than 2H/R + 2 turns. The last line is at the altitude of the finish, and at the task's length up to 2^-52 of it. Not promised: a direct flight (undefined), a nearly direct one (negative circling time), clouds at the circling height (endless).", "quantifier": "all lists of waypoints, polars, weathers, safety heights, tows, start times, central angles and numbers of turns", "why_tests_cant": "The example runs on fixed gliders, weathers and one task; nothing compares its output with the formulas, and the undefined and endless flights lie outside these data.", "anchors": ["example/glide_computer/include/glide_computer.h: task, get_leg_index, get_leg_dist_offset, agl, length_3d, glide_ratio, operator/", "example/glide_computer/glide_computer.cpp: make_legs, make_leg_total_distances, terrain_level_alt, glide_distance, tow, circle, glide, final_glide, estimate", "example/glide_computer/geographic.cpp: spherical_distance"]}
{"id": "C98", "title": "Whether an expression of quantities, kinds and point kinds compiles, and its kind, unit and representation, do not depend on the numbers", "statement": "Take any expression built from quantities, quantity kinds and quantity point kinds with the operators, conversions and casts of the headers. If it has a value for some numbers, then for all other numbers of the same types it has a value of the same type (the same kind or point kind, unit and representation), or its arithmetic is undefined on these numbers; it is never rejected half way and violates no contract. The type can be computed from the types of the objects alone, and that computation accepts every expression that has a value and none that is rejected. A text rejected for some numbers has no value for any. Whether two values compare, with <=> and with ==, is decided by their types too.", "quantifier": "all expressions of any size, numbers, kinds, point kinds, units, representations, sets of declared kinds and dimensions", "why_tests_cant": "static_asserts and unit tests instantiate single operators on single types with single numbers; no test covers all compositions and all numbers.", "anchors": ["src/core/include/units/quantity_kind.h: make_quantity_kind_fn, downcasted_kind, operators", "src/core/include/units/quantity_point_kind.h: operators, deduction guides", "src/core/include/units/quantity_cast.h: quantity_kind_cast, quantity_point_kind_cast", "src/core/include/units/kind.h: downcast_kind, downcast_point_kind"]}
{"id": "C99", "title": "Programs with kinds keep them apart and do exactly what the same programs without the kinds do", "statement": "Take any program with variables of quantity, quantity kind and quantity point kind types, assignments, ++, --, +=, -=, %=, *=, /=, conditions and loops. If it compiles, then however long it runs every variable keeps the kind, unit and representation it was declared with, no operation is rejected half way and no contract is violated; assignments, compound assignments and comparisons bring together only things of one base kind. A program without branches that runs compiles. In a system of units whose base dimensions are identified by their symbols, the program obtained by taking the kinds away (the same text on the quantities under the kinds and on the distances of the points from their origins) compiles too and has the same outcome after every number of steps: the same numbers in the same units, undefined arithmetic in the same cases, still running in the same cases. So which derived kinds and point kinds are declared changes no number.", "quantifier": "all programs, stores, numbers, kinds, point kinds, units, representations, sets of declared kinds and dimensions, numbers of steps", "why_tests_cant": "unit tests of kinds check single operators on single values; that the kinds never change a number or the definedness of a computation is a statement about all programs and all values.", "anchors": ["src/core/include/units/quantity_kind.h: operators +=, -=, %=, *=, /=, ++, --, ==, <=>", "src/core/include/units/quantity_point_kind.h: operators +=, -=, ++, --, ==, <=>", "src/core/include/units/quantity.h: converting constructor, member operators"]}
{"id": "C100", "title": "Nothing of units, dimensions, origins and kinds is left when a program runs", "statement": "An object of a quantity or quantity point type holds its number and nothing else. Every expression and every program of quantities and quantity points that compiles is an expression or a program of plain built-in numbers, fixed before the values of the variables are known: started from the numbers of the variables it goes through the same number of steps, ends with the numbers of the variables, and is undefined or still running in exactly the same cases. It takes at most 13 arithmetic operations, comparisons and conversions for each operator in the text, and if the operands of +, -, comparisons and assignments have the same types, so that no conversion is asked for, not more operations than there are operators. The same holds for programs with quantity kinds and quantity point kinds.", "quantifier": "all expressions, programs, declared variables, values, units, dimensions, origins, representations, sets of declared dimensions, numbers of steps", "why_tests_cant": "tests and benchmarks compare the code of single operators with hand-written code for single types; that the abstraction costs nothing is a statement about all programs and values.", "anchors": ["src/core/include/units/quantity.h: operators, converting constructor", "src/core/include/units/quantity_point.h: operators", "src/core/include/units/quantity_cast.h: quantity_cast", "docs/introduction.rst:31: safety and performance, everything that can be decided at compile time is"]}
{"id": "C101", "title": "Uncertainties of measurements propagate by the theory of errors, in any units", "statement": "In an expression of quantities whose representation is the class measurement (a value with an uncertainty, example/measurement.cpp) the central value and the type of the result are, bit by bit, those of the same expression of plain floating-point numbers, no uncertainty is negative, and the uncertainty is, up to the counted roundings, the one the theory of errors gives for independent measurements in whatever units the operands are: roots of sums of squares for sums and differences, of relative uncertainties for products and quotients, the relative uncertainty kept by scaling, conversions and casts. It does not hold for a measurement combined with itself, nor for products, scalings and conversions of measured values of zero, whose uncertainty becomes NaN.", "quantifier": "all expressions of measurements, units, dimensions, sets of declared dimensions, values and uncertainties in range, floating-point types, accuracies of std::hypot", "why_tests_cant": "the example prints three results; that the propagation survives every combination of conversions and operators, with a bound on the accumulated rounding error, concerns all expressions.", "anchors": ["example/measurement.cpp:34-118: class measurement", "src/core/include/units/quantity.h: operators, converting constructor", "src/core/include/units/quantity_cast.h: quantity_cast"]}
{"id": "C102", "title": "Powers and roots of floating-point quantities are accurate in any units; the total energy", "statement": "pow<N> of a floating-point quantity in any unit has the power of its value, up to the error of std::pow and the known factor by which the ratios of the coherent units disagree; sqrt likewise with one rounding. The factors cancel: sqrt(pow<2>(q)) has the dimension and the value |q| in every unit, even in kilograms, where the square alone is wrong by a factor of a million. Hence sqrt(pow<2>(p*c) + pow<2>(m*pow<2>(c))) of total_energy.cpp is the total energy with the dimension of p*c, up to a counted number of roundings, for momentum, mass and speed in any units, however these are mixed.", "quantifier": "all units, dimensions of a system, sets of declared dimensions, values in range, floating-point types, exponents, accuracies of std::pow", "why_tests_cant": "the example prints one energy in two systems of units; that the result does not depend on the units chosen, within a bound on the rounding error, concerns all units and values.", "anchors": ["example/references/total_energy.cpp:38-41: total_energy", "src/core/include/units/math.h: pow, sqrt", "src/core/include/units/bits/dimension_op.h: dimension_pow"]}
{"id": "C103", "title": "The box example computes level, weight, spare capacity and time left", "statement": "The class Box of box_example.cpp computes, to the last bit, the plain expressions of doubles: units, dimensions and conversions add no factor and no rounding, for all doubles. A density is accepted if and only if it is greater than that of air, whatever sequence of densities is set. The weight is density * volume * 9.80665 up to five roundings, the level mass / (density * base) up to seven whatever the gravity, the spare capacity the volume less that of the contents with an error of at most ten roundings of the sum of the two, the time left the missing mass over the flow rate likewise; a greater mass never yields a lower level nor more spare capacity.", "quantifier": "all sizes, densities, masses and times that are doubles (in range, for the bounds), all sequences of densities", "why_tests_cant": "the example prints the results for one box; that no unit slips in a factor and that the results stay within bounds concerns all boxes.", "anchors": ["example/references/box_example.cpp:45-101: Box, main", "src/core/include/units/quantity.h: operators", "src/core/include/units/reference.h: products of references", "src/systems/si/include/units/isq/si/constants.h:60: standard_gravity"]}
{"id": "C104", "title": "Every conversion is a multiplication by the conversion factor", "statement": "conversion_factor(target, source) of conversion_factor.cpp is the number every conversion multiplies by: for a floating-point common type the converted number is, to the last bit, the number times the factor, for every number including infinities and NaN. The factor is the ratio of the sizes of the units up to the roundings of the factor of a cast; the factors of the two directions multiply to one, and the factors of two steps to that of the single step, up to their roundings. With integers the factor exists only if it is whole, it is then exact, and conversions multiply by it exactly. What the example prints about lengthA and lengthB holds of all doubles.", "quantifier": "all types of quantities of equivalent dimensions, all numbers", "why_tests_cant": "the example shows one factor for one pair of units; that all conversions between all units multiply by it concerns every pair of types and every number.", "anchors": ["example/conversion_factor.cpp:30-61: conversion_factor, main", "src/core/include/units/quantity_cast.h:114-139: quantity_cast", "src/core/include/units/quantity.h:150-156: constructors"]}
{"id": "C105", "title": "The capacitor example prints the discharge curve in fitting units", "statement": "The loop of capacitor_time_curve.cpp prints every time from 0 ms to the last, each once and in order, with the voltage V0 * exp(-t / (R * C)) computed in plain doubles: kiloohms times microfarads are milliseconds and cancel, so no unit adds a factor or a rounding. Volts are printed from one volt on; below it the number printed is the voltage times a power of a thousand, rounded once, at least 1 unless picovolts are printed and never more than 1000. The voltage follows the law up to one rounding, those of std::exp and two roundings of its argument, and never grows with the time if std::exp is monotone. If the last time is the greatest int the loop never ends properly.", "quantifier": "all doubles for the capacitance, voltage and resistance, all last times, all functions std::exp", "why_tests_cant": "the example runs one capacitor for 51 turns; that the units cancel without a rounding and that the unit printed fits concerns every voltage.", "anchors": ["example/references/capacitor_time_curve.cpp:33-66: main", "src/core/include/units/math.h:105-113: exp", "src/core/include/units/quantity.h:186-191: operator++", "src/core/include/units/quantity_cast.h:114-139: quantity_cast"]}
{"id": "C106", "title": "The average speed example: what each of its functions computes and prints", "statement": "fixed_int_si_avg_speed of whole kilometres and hours yields whole metres per second, so that the speed is too low by less than 1 m/s; if metres or seconds do not fit int the conversions wrap silently and the result is that of other numbers, undefined if the seconds wrap to none. The generic functions divide the numbers themselves, in integers and doubles, and print the quotient unchanged as km/h. fixed_double_si_avg_speed accepts both and prints the speed within five roundings. Miles and centimetres are not accepted as whole metres, nor doubles as ints, nor CGS lengths by si_avg_speed; avg_speed takes them all, and what is printed is the speed in km/h within five (miles) and three (centimetres) roundings.", "quantifier": "all ints and doubles, all estimates of inexact ratios", "why_tests_cant": "the example computes six pairs of literals; the loss by truncation, the wrap-around and the number of roundings concern all numbers.", "anchors": ["example/references/avg_speed.cpp:38-70: fixed_int_si_avg_speed, fixed_double_si_avg_speed, si_avg_speed, avg_speed, print_result", "src/core/include/units/quantity_cast.h:114-139: quantity_cast", "src/core/include/units/quantity.h:150-156: constructors"]}
{"id": "C107", "title": "The way through an unknown dimension leads back to speeds and lengths", "statement": "In unknown_dimension.cpp the product of a speed and a length has an unknown dimension; dividing it by a length gives a speed in metres per second again, and multiplying that by a time a length in metres, with no conversion on the way. With doubles the numbers are those of the plain operations, within four roundings of the exact length; with ints they are the truncated quotients and exact products in this order, and the program is undefined exactly if a divisor is zero or an intermediate result does not fit int.", "quantifier": "all ints and doubles in the place of the literals", "why_tests_cant": "the example computes one chain of literals; that no conversion or rounding is added, and where it is undefined, concerns all numbers.", "anchors": ["example/references/unknown_dimension.cpp:32-57: avg_speed, example", "src/core/include/units/bits/dimension_op.h:36-60: unknown dimensions", "src/core/include/units/quantity.h:415-429: operators * and /"]}
{"id": "C108", "title": "The foot-pound-second example shows every member of a ship in three units", "statement": "print_details of foot_pound_second.cpp shows each member of a ship in its own unit unchanged, and in the two other units of the line the exact conversion of it within twenty roundings: feet in yards and metres, pounds in long tons, tonnes and kilograms, feet per second in knots, miles and kilometres per hour, foot-poundals per second in horse power and kilowatts, inches in millimetres. The volume under water is the mass over the density of water, in cubic feet within one rounding, in cubic metres and litres within twenty.", "quantifier": "all ships whose members are doubles of usual size, all densities of water", "why_tests_cant": "the example prints three ships; that the factors between the systems of units are the defined ones, and how many roundings a column takes, concerns all numbers.", "anchors": ["example/references/foot_pound_second.cpp:44-81: Ship, fmt_line, print_details", "src/core/include/units/quantity_cast.h:114-139: quantity_cast", "src/core/include/units/quantity.h:422-429: operator /"]}
