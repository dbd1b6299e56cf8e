# Formal model of mpusz/units (Rocq / Coq 8.16.1)

## 1. What is modelled and how

The library is a C++20 header-only library; most of its decisions are taken by
template metaprograms and `constexpr` functions at compile time, and a small
amount of arithmetic happens at run time. Both are modelled as total computable
Gallina functions on ordinary data:

* a C++ *type* that the metaprograms compute with (dimension, unit, exponent
  list, quantity type, origin, kind) is a value of an inductive type or record;
  "same type" is equality of those values, a constraint (`requires`) is a
  boolean function, and a program rejected by the compiler is a distinct outcome;
* a C++ *function* is a function into an outcome type:

```
res A ::= Ok a          normal result
        | Contract      a gsl_Expects / assert fails
        | Undef         undefined behaviour (signed overflow, division by zero)
        | IllFormed     a constraint is not satisfied: the program does not compile
        | Stuck         a loop exceeded its fuel (proved impossible where used)
```

  In a constant expression `Contract` and `Undef` are compile-time errors; at
  run time they are a terminate call and undefined behaviour. No theorem treats
  them as results. Arithmetic on `intmax_t`, and on every integral
  representation, is checked explicitly (`CInt.v`); unsigned arithmetic wraps
  explicitly modulo 2^w.

Layers (each file has a header naming the C++ files it follows):

| Layer | Model files | Proof and property files | C++ |
|---|---|---|---|
| outcomes, C++ integers | `Outcome`, `CInt` | `IntProofs` | language |
| ratios | `RatioMaths`, `Pow`, `Root`, `Ratio` | `SpecRatio`, `RatioMathsProofs`, `QTen`, `RatioProofs`, `RatioProofs2`, `RatioPowProofs`, `Props_Ratio` | `ratio.h`, `bits/ratio_maths.h`, `bits/pow.h`, `bits/root.h` |
| dimensions | `TypeList`, `Dim`, `DimOp`, `Equivalent`, `Downcast` | `SpecDim`, `TypeListProofs`, `DimProofs`, `DimOpProofs`-`3`, `EquivProofs`, `Props_Dim` | `exponent.h`, `base_dimension.h`, `bits/dim_*.h`, `bits/dimension_op.h`, `bits/equivalent.h`, `bits/external/type_list.h`, `bits/external/downcasting.h` |
| units | `Unit`, `UnitDecl`, `DerivedUnit`, `Reference` | `SpecUnit`, `MagnitudeProofs`, `UnitProofs`, `Props_Unit` | `unit.h`, `prefix.h`, `bits/derived_unit.h`, `bits/base_units_ratio.h`, `reference.h` |
| numbers | `Rep` (integers; binary floating point as `SpecFloat`), `RootFloat` | `SpecReal`, `IntProofs`, `FloatProofs`, `FloatCastProofs`, `FloatRootProofs`, `Props_Float` | representation types of the language, `fpow10` in `bits/pow.h`, `iroot_runtime` in `bits/root.h` |
| compile-time mathematics | `ConstexprMath` | `ConstexprProofs`-`6`, `ConstexprRootProofs`, `Props_Constexpr` | `bits/constexpr_math.h`, `iroot_compile` in `bits/root.h` |
| quantities | `QuantityCast`, `CommonQuantity`, `Quantity` | `SpecQuantity`, `CastProofs`, `QuantityProofs`-`5`, `Props_Quantity`, `Props_Quantity2`, `Props_More`, `Props_Remainder` | `quantity.h`, `quantity_cast.h`, `bits/common_quantity.h` |
| expressions | `Expr` | `SpecExpr`, `ExprProofs`-`3`, `Props_Expr` | the operators of `quantity.h` and `quantity_cast.h`, composed |
| points and kinds | `Point`, `Kind`, `PointKind` | `SpecPoint`, `PointProofs`, `KindProofs`, `Props_Point`, `Props_Point2` | `quantity_point.h`, `kind.h`, `quantity_kind.h`, `quantity_point_kind.h` |
| math, chrono, random | `Math`, `Chrono`, `Random` | `MathProofs`, `FloatMathProofs`, `ChronoProofs`, `FloatAddProofs`, `Props_Math`, `Props_Chrono`, `Props_Random` | `math.h`, `chrono.h`, `random.h` |
| text | `FixedString`, `TextTools`, `DerivedSymbol`, `UnitText`, `QuantityIo`, `Format` | `SpecText`, `SpecUnitText`, `SpecFormat`, `StringProofs`, `TextProofs`, `SymbolProofs`, `UnitTextProofs`, `FormatProofs`, `FormatProofs2`, `FormatProofs3`, `Props_Text`, `Props_UnitText`, `Props_Format` | `symbol_text.h`, `fixed_string.h`, `text_tools.h`, `bits/derived_symbol_text.h`, `bits/unit_text.h`, `quantity_io.h`, `format.h` |
| systems | `System` (declarations as a program), `Catalogue` (the 728 declarations of the headers, the class templates of the ISQ) | `SpecCatalogue`, `SystemProofs`, `IsqProofs`, `CatalogueProofs`, `CatalogueCastProofs`, `Props_Catalogue` | `src/systems`, `core/include/units/generic` |
| names | `Names` (literals, references and aliases of units) | `SpecNames`, `NamesProofs`, `Props_Names` | the same headers |
| constants | `Constants` | `SpecConstants`, `ConstantsProofs`, `Props_Constants` | `isq/si/constants.h`, `isq/natural/constants.h` |
| concepts | `Concepts` | `SpecConcepts`, `ConceptsProofs`, `Props_Concepts` | `bits/quantity_of.h:30-77`, the concepts of `isq/dimensions/*.h`, `generic/angle.h`, `generic/dimensionless.h`, `isq/iec80000/*.h` |
| custom | `Custom` | `SpecCustom`, `CustomProofs`, `CustomProofs2`, `Props_Custom` | `quantity_cast.h:80-139`, `quantity.h:150-455` on a class of the user, the class given by a record of its operators; `example/measurement.cpp`, `example/references/linear_algebra.cpp`, `custom_rep_test_min_expl.cpp` as instances |
| order of floating-point quantities | — (`Quantity`, `CommonQuantity`) | `SpecOrder`, `FloatOrderProofs`, `Props_FloatOrder` | the comparisons and sums of `quantity.h:399-455` on floating-point representations |
| printed symbols | — (`UnitText`, `Catalogue`, `System`) | `SpecSymbols` (a reader of the printed symbols), `SymbolsProofs`, `Props_Symbols` | the symbols of the units of `isq/**` and `isq_natural`, `bits/unit_text.h`, `quantity_io.h` |
| include directives | `Includes` | — | which declarations a translation unit sees, `isq/**` |
| conformance with the repository's tests | `Conform`, `Conform_Text` (evaluators for the tests' expressions) | `Conform_Systems`, `Conform_Format` | checks of the model, see section 5 |
| include directives | `Includes` | `SpecIncludes` (the files a program includes; the clashing headers), `IncludesProofs`..`3`, `WorldSameProofs`, `Props_Includes` | the `#include` and `#pragma once` lines of the system headers, `downcasting.h` |
| plain numbers | `Plain` (the implicit conversion of a number, and the operators that use it) | `SpecPlain`, `PlainProofs`, `Props_Plain` | `quantity.h:150-153`, `:162`, `:212-224`, `:369-389` |
| construction | `Construct` (the constructors of the four class templates by the sort of argument, implicit conversions, deduced template arguments) | `SpecConstruct`, `ConstructProofs`, `Props_Construct` | `quantity.h:150-160`, `:392-396`, `quantity_point.h:77-89`, `:203-216`, `quantity_kind.h:96-106`, `quantity_point_kind.h:64-77`, `:186-188` |
| expressions with points | `Affine` (trees of the operators of quantities and points, conversions, casts, `relative()`) | `SpecAffine`, `AffineProofs`, `Props_Affine` | `quantity.h:172-184`, `:319-439`, `quantity_point.h:77-97`, `:154-186`, `quantity_cast.h:114-271` |
| types before running | `Static` (`decltype` of every expression of `Affine`: the constraints, `constexpr` ratios and result types without the numbers) | `SpecStatic`, `StaticProofs`, `Props_Static` | `quantity.h:155-156`, `:172-184`, `:319-455`, `quantity_point.h:77-97`, `:154-200`, `quantity_cast.h:114-271` |
| programs | `Program` (variables, assignments, `++ -- += -= *= /= %=`, conditions, `if`, `while` around the expressions of `Affine`; running and what the compiler checks) | `SpecProgram`, `ProgramProofs`, `SpecIdeal`, `IdealProofs`, `Props_Program` | `quantity.h:155-285`, `:378-388`, `:441-455`, `quantity_point.h:81-83`, `:111-149`, `:188-200`; the control flow is C++'s |
| truncation in expressions | `Affine`, `QuantityCast`, `Point` | `SpecError`, `ErrorProofs`, `Props_Error` | `quantity_cast.h:114-271`, `quantity.h:338-345`, `:415-428` |
| accuracy of floating-point expressions | `Expr`, `Quantity`, `QuantityCast`, `CommonQuantity`, `Rep` | `SpecRounding`, `RoundingProofs`, `Props_Rounding` | `quantity.h:300-460`, `quantity_cast.h:114-200`, `bits/common_quantity.h` |
| equivalence of types; expressions in different programs | `EquivalentTypes`, `Equivalent`, `Affine`, `DimOp`, `Downcast` | `SpecModes`, `ModeProofs`, `ModeProofs2`, `Props_Modes`, `Props_ModesSI` | `bits/equivalent.h:32-127`, `quantity.h`, `quantity_point.h`, `downcasting.h` |
| expressions of kinds and points of kinds | `KindExpr` on `Kind`, `PointKind`, `Construct` | `SpecKindExpr`, `KindExprProofs`, `Props_KindExpr` | `quantity_kind.h:78-363`, `quantity_point_kind.h:43-188`, `quantity_cast.h:246-364` |
| ranges of expressions of mixed integral types | `Affine`, `Static` | `SpecRange`, `RangeProofs`, `Props_Range` | `quantity.h:150-455`, `quantity_point.h:60-210`, `quantity_cast.h:60-260` |
| transparent wrappers as representations | `Wrapper` | `SpecWrapper`, `WrapperProofs`, `Props_Wrapper`, `Conform_Wrapper` | `quantity.h:121-455`, `quantity_cast.h:80-219`, `customization_points.h:39-75` |
| floating-point expressions with cancellation | `Expr`, `Rep` | `SpecCancel`, `CancelProofs`, `Props_Cancel` | `quantity.h:121-455`, `quantity_cast.h:80-219` |
| the Kalman filters of the examples | `Kalman` | `SpecKalman`, `KalmanProofs`, `KalmanReals`, `KalmanFilterProofs`, `KalmanMotionProofs`, `Props_Kalman` | `example/kalman_filter/kalman.h:85-149`, `kalman_filter-example_1.cpp:55-62`, `kalman_filter-example_5.cpp:61-71`, `kalman_filter-example_6.cpp:93-104` |
| programs in other worlds | — | `SpecProgramModes`, `ProgramModeProofs`, `Props_ProgramModes` | `src/core/include/units/bits/external/downcasting.h` and the operators of `quantity.h`, `quantity_point.h` |
| glide computer | `Glide` | `SpecGlide`, `GlideProofs`, `GlideProofs2`, `GlideProofs3`, `Props_Glide` | `example/glide_computer/include/glide_computer.h`, `glide_computer.cpp`, `geographic.cpp` (the distance) |
| static typing of kinds | `StaticKind` | `SpecStaticKind`, `StaticKindProofs`, `Props_StaticKind` | the constraints and result types of `src/core/include/units/quantity_kind.h`, `quantity_point_kind.h` and of the casts of `quantity_cast.h` |
| programs of kinds | `KindProgram` | `SpecKindProgram`, `KindProgramProofs`, `KindEraseProofs`, `KindStripProofs`, `Props_KindProgram` | the member operators, conversions and comparisons of `src/core/include/units/quantity_kind.h` and `quantity_point_kind.h` composed by assignments, conditions and loops |
| plain numbers | | `SpecNumbers`, `LowerProofs`, `LowerPrograms`, `Props_Numbers`, `SpecKindNumbers`, `Props_KindNumbers` | what is left of a program of quantities and points when it runs: a program of built-in arithmetic |
| measurements | `Measure` | `SpecMeasure`, `MeasureProofs`, `Props_Measure` | expressions of quantities of the class `measurement` of example/measurement.cpp, and the theory of errors for them |
| powers and roots | `Energy` | `SpecEnergy`, `EnergyProofs`, `Props_Energy` | accuracy of `pow` and `sqrt` of floating-point quantities in any units, and the function of example/references/total_energy.cpp |
| the box | `Box` | `SpecBox`, `BoxProofs`, `Props_Box` | the class `Box` and the computations of `main` of example/references/box_example.cpp |
| conversion factors | `ConversionFactor` | `Props_ConversionFactor` | `conversion_factor` and the computations of `main` of example/conversion_factor.cpp |
| capacitor | `Capacitor` | `Props_Capacitor`; spec `SpecCapacitor`, lemmas `CapacitorProofs` | the loop of `main` of example/references/capacitor_time_curve.cpp, with its literals as arguments |
| average speed | `AvgSpeed` | `Props_AvgSpeed`; spec `SpecAvgSpeed`, lemmas `AvgSpeedProofs` | the four functions and `print_result` of example/references/avg_speed.cpp |
| unknown dimensions | `UnknownDim` | `Props_UnknownDim` | `avg_speed` and `example` of example/references/unknown_dimension.cpp |
| ships | `Ship` | `Props_Ship`; spec `SpecShip` | `Ship`, `fmt_line` and `print_details` of example/references/foot_pound_second.cpp |
| systems as wholes | — | `SpecSystems`, `WorldProofs`, `SystemsProofs`, `Props_Systems` | the same headers |

Specifications live in `Spec*.v` files and mention only standard-library
mathematics (rationals `Q`, `Z.gcd`, `Z.quot`, lists, permutations, reals).
Proofs are in `*Proofs.v`. The property theorems are in `Props_*.v`; each is
closed by `exact`, followed by `Print Assumptions` and one or more `Example`s
that show a concrete non-trivial instance.

## 2. Physical value

The specification value of a ratio is the rational `num/den * 10^exp`; the
physical value of a quantity is its number times the magnitude of its unit,
where the magnitude of a unit is measured in the reference units of the base
dimensions. Statements about conversions, comparison and arithmetic are
statements about these rationals.

## 3. Properties

For each property: what is modelled, how it is proved. "Refuted part" means that
the code does not have the naive property and a witness theorem
(`..._refuted` / `..._witness`) shows it on a concrete case.

| Id | Modelled by | Proof idea |
|---|---|---|
| C01-C02 | `Ratio.mk_ratio`, `RatioMaths.normalize` | loop invariant (value preserved, digits decrease), fuel bound by 2^63 < 10^19 |
| C03 | structural equality of ratio records | coprimality: equal fractions in lowest terms are equal; witness 2/5 vs 4*10^-1 |
| C04-C07 | `Ratio.rmul`, `RatioMaths.safe_multiply` | 32-bit word split, case analysis of guards; rational field arithmetic |
| C08-C09 | `mulmod`, `modpow`, `gcdpow` | induction on the binary representation of the multiplier / exponent with modular invariants |
| C10 | `is_integral` | Gauss lemma on the normal form |
| C11-C12 | `common_ratio`, `gcd_frac` | gcd is characterised by Bezout; scaling by powers of ten |
| C13 | `rpow`, `pow_impl` | strong induction on N (square-and-multiply); for the template at any type with exact product and inverse (`Props_Pow`) |
| C14-C15 | `rroot`, `iroot_impl` with the floating estimate as a parameter; run-time square root discharged with Flocq | case analysis around the estimate; monotone rounding |
| C16 | `ipow10`, `fpow10` | induction; Flocq relative error composition |
| C17-C21 | `QuantityCast` over arbitrary integral representations | `Z.quot` facts, exactness of ratios, induction over chains |
| C22 | `Rep`, `QuantityCast` on `SpecFloat` numbers | Flocq: relative error of each rounded operation |
| C23-C27 | `CommonQuantity`, `Quantity` | C11 + C19 lifted to quantities |
| C28-C31 | `Quantity`, `Reference` | rational arithmetic on unit magnitudes; witnesses by computation |
| C32-C34 | `Quantity` operation histories; integer types | induction over the list of operations; range arithmetic |
| C35-C41 | `TypeList`, `Dim`, `DimOp` | merge sort is a sorted permutation; consolidation preserves the exponent function; normal forms with the same exponent function are equal; witnesses for the symbol clash and for exponents with a factor ten |
| C42-C43 | `Equivalent` | relation algebra; counterexample for units |
| C44-C47 | `BaseUnitsRatio`, `DerivedUnit`, `Reference`, `Unit` | homomorphism by induction on exponent lists |
| C48 | `Downcast` | registry as a list of declarations; permutation invariance |
| C49-C53 | `Point`, `Kind`, `PointKind` | reduction to quantities; type-level witnesses |
| C54 | `Math`, with the inexact `<cmath>` functions as parameters | powers of exponent lists and of magnitudes; Flocq for the square root |
| C55 | `Chrono`: the traits of durations and time points, the constructors from them | `mk_ratio` soundness gives the unit; casts from C17, implicit rule from C20; origins compared as types |
| C56-C60 | `Text`, `UnitText` | induction on digits / lists, parser as left inverse |
| C61 | `QuantityIo`, parametric in the formatting of numbers | stream state as a record; induction over sequences of outputs |
| C62 | `Format` | the documented grammar as a datatype with its spelling; induction on the items, and on arbitrary strings for termination, safety and the second pass |
| C63 | `System`, `Catalogue` | every program (selection of the catalogue, any order, any downcasting mode) declares what the whole catalogue declares (induction over the program); the catalogue is evaluated against a table of the SI Brochure and IEC 80000-13; prefixed units for all units |
| C64 | `System`, `Catalogue` | exponents: induction over any program built on the ISQ templates, the templates evaluated against a table of ISO 80000; equivalence: pairs of the catalogue evaluated |
| C65 | `System`, `Catalogue` | as C63, against a table of units and their values; the deviating units are listed and refuted one by one |
| C67 | `System`, `Catalogue`, `QuantityCast` | C65 and C17; the factors of all pairs evaluated to see which fit 64 bits |
| C66 | `Random` | parametric in the underlying distribution; induction over draw histories |
| C68 | `Expr` | exponent functions of dimensions are invariant under reordering and downcasting; induction over the expression |
| C69 | `Expr` | C17-C31 for one operator, the dimension of every subexpression written canonically; induction over the expression |
| C70 | `Expr` | with equal ratios every conversion factor is one; a bound on the exponents keeps the metaprogram defined; induction over the expression |
| C71 | `ConstexprMath` | the real series with their remainders (Taylor, atanh), error bounds carried through every rounded operation; the table of logarithms checked against exact rational bounds of ln |
| C72 | `ConstexprMath`, `Root` | the estimate of C71 as a difference of logarithms, compared with the gap between neighbouring powers |
| C73 | `Names`, with a reader of unit names in `SpecNames` | every name is read independently of the library and compared with the unit it is declared for, over the whole catalogue; selections as in C63 |
| C74 | `Constants` | every constant evaluated with all headers in every floating-point type and compared exactly with the table; carried to any selection of headers as in C63, the product's dimension by the exponents (C36), its unit by C45 |
| C75 | `System`, `Catalogue`, `DimOp` | every guide of a program leads to a declared dimension and every declared dimension is in normal form (induction over the program); base dimensions of one system are told apart by quantity and by symbol; C36, C64 |
| C76 | `Concepts`, `System`, `DimOp` | the template of a declared dimension is read off its declaration (induction over the program); what operators make is canonical (C36), so it is the declared dimension with its exponents, or an unknown dimension in normal form; without downcasting the recipe of a template that takes base dimensions in the order of their symbols is that normal form, and every other template has no specialisation for it |
| C77 | `Custom`, `QuantityCast`, `Quantity` | the class is a parameter; a relation between its values and plain numbers that its own operators respect is respected by every operation of the library (simulation); the three instances meet it; the exceptions are refuted theorems with witnesses |
| C78 | `Quantity`, `CommonQuantity`, `QuantityCast` | the common unit divides both units (C26), so a factor the format holds makes each conversion one correct rounding; rounding is monotone; the error of the sum by the relative error of a floating-point sum (Flocq), which holds even among the subnormal numbers |
| C79 | `UnitText`, `System`, `Catalogue` | every program of the catalogue has its units and dimensions among those of the full one; the texts of the declared units are read by computation there; those of unnamed units by a lemma on the factor in front of the symbol of the coherent unit (for every ratio), and on the prefixes by computation |
| C80 | `Includes`, `System`, `Catalogue`, `Downcast` | the preprocessor: induction on the nesting, with the position in the list of headers (checked to be a topological order) as measure; a declaration whose names are declared compiles to what it is in the full catalogue, so the outcome of a program is a function of three registries filled from the list of its entries, whose order does not matter (C48); that every header includes what it uses, and that units and dimensions share a downcasting key only across three pairs of headers, by computation on the catalogue |
| C81 | `Plain`, `Quantity`, `Rep` | the implicit conversion is analysed once (ill-formed, exact, modulo 2^w, nearest number); the comparisons, the compound assignments and the remainder follow from it, with the real numbers of `SpecReal` as yardstick |
| C82 | `Construct`, `Quantity`, `Point`, `Kind`, `PointKind`, `Chrono`, `Plain` | the relation `worth` says what value an argument stands for; every constructor reduces to a conversion of quantities (C20), a duration (C55) or a number, and the constructors of points and kinds to those of their quantities |
| C83 | `Affine`, `Point`, `Quantity` | induction over the expression; nodes of quantities by C68 and C69 applied to a tree of one operator, nodes with points by C49 and C50; the frame (where each origin lies) is an arbitrary function |
| C84 | `Static`, `Affine`, `Quantity`, `Point`, `QuantityCast` | every arithmetic step of the representations ends in a value of its type or is undefined; every other step reads only types; induction over the expression in both directions; `same_text` (the same expression with other numbers) is independent of `type_of` |
| C85 | `Program`, `Static` | from C84 for expressions: every change of an object keeps its type; induction over the steps; `Stuck` stands for a run that needs more steps, `C85_steps` shows that the outcome does not depend on how many are allowed; `C85_step` and `C85_relations` by cases on the types and the result of the comparison |
| C86 | `Program`, `Affine`, `Quantity`, `Point` | `SpecIdeal` runs the same program on rational numbers, without types or units; simulation by induction over the steps, comparisons by C25/C83; the ideal program is deterministic and invariant under writing its objects in other units |
| C87 | `Affine`, `QuantityCast`, `Point` | `near` propagates an exact rational value and an error bound through the expression; each node is exact on the values of its operands (C83) or truncates by less than a unit of its result; induction over the expression |
| C88 | `Expr`, `Quantity`, `QuantityCast`, `Rep` | `computes` counts the roundings of an expression next to its value in exact arithmetic; one rounding per operation (Flocq's standard model), the costs of conversion factors from C67/C78; induction over the expression |
| C89 | `EquivalentTypes` on `Equivalent` | a quotient of ratios by a power of ten only shifts the exponent, so equal quotients give equal ratios; a cast by the ratio one keeps every number; symmetry by cases, transitivity through equality of ratios |
| C90 | `Affine`, `DimOp`, `Downcast`, `CommonQuantity`, `QuantityCast` | two evaluations of one expression side by side: types stay equal up to names, unit ratios equal as triples, numbers equal; the coherent ratios of a decimal system are powers of ten, by which products, quotients and common ratios only shift; for the SI of the catalogue by a check of all its dimensions |
| C91 | `KindExpr` (trees of the operators, constructors, conversions and casts of kinds) | induction on the expression in both directions: an operator on kinds is the operator on quantities plus a check of base kinds, and the kind a registry returns has the base kind asked for |
| C92 | `Affine`, `Static`, `Rep` with every integral type | induction on the range check (`stays`): each node is defined because its operands and result fit the type it is computed in, so no number wraps; monotonicity reduces the check to the ends of the ranges |
| C93 | `Wrapper`: the operators, conversions and casts on types that are plain numbers or wrappers of them | simulation by the same expression without wrappers; the one difference (a wrapper of the same type converts through a cast, a plain number is copied) is the identity because a size divided by itself is one |
| C94 | `Expr`, `Quantity`, `QuantityCast`, `Rep` | `errs` carries the exact value, the magnitude of the terms and the number of roundings; one rounding of a number no greater than the magnitude is off by at most a unit round-off of it, also below the normal numbers (Flocq's bound by half a ulp); a condition number multiplies the count (Bernoulli); exact differences by Sterbenz' lemma |
| C95 | `Kalman`, `Quantity`, `Point`, `Math`, `QuantityCast`, `Rep` | every function equals a nest of roundings of the real formula, given that the types of its terms need no rescaling (`*_fits`, computed for SI); monotonicity of rounding keeps the gain in [0,1], the uncertainty from growing and the state from leaving the range of the measurements, however many turns there are; half-ulp bounds give the errors; induction on the measurements for the filters and the running average |
| C96 | `Program`, `Affine`, `Static`, `Downcast` | expressions alike up to the names of types evaluate alike (C90's argument, generalised to leaves of different names); conversions, assignments, changes and comparisons are compared pairwise, the undefined cases through static typing in both programs; induction on the steps |
| C97 | `Glide` | the headers and kinds are compiled by the model once; each function, run through the operators of the library on the declared types, is shown to compute one expression of doubles (`SpecGlide`); lower_bound is shown to count the legs that end before a distance (sums of lengths that are not negative never decrease, infinities and NaNs included); flat terrain: a turn gains at least half the room below the clouds, so the loop ends; the last line by the nearest-number property of rounding; witnesses for the flights that are undefined, endless or run backwards in time |
| C98 | `StaticKind`, `KindExpr`, `Kind`, `PointKind` | each operator of kinds and point kinds is an operator of quantities, typed as in C84, followed by a construction whose type is known; both directions per operator, then induction on the expression |
| C99 | `KindProgram`, `Program`, `KindExpr`, `StaticKind` | safety as C85 from the typing of C98; for the program without the kinds, each operator is shown to have the same outcome (value, undefined) as the operator of quantities under it when its constraint holds, which the typing provides; then induction on expressions, conditions and steps; that the program without the kinds compiles, with the types under the types, from the result types of the operators staying in the system of units |
| C100 | `Program`, `Static`, `Affine`, `Quantity`, `Point`, `QuantityCast` | each operator and conversion on the number of an object is shown to be computed by an expression of plain numbers (the constants of a conversion are folded, an undefined constant makes the expression undefined), with a count of its operations; composition; induction on expressions, conditions, statements and steps, using the safety of C84 and C85; with kinds (`SpecKindNumbers`, `Props_KindNumbers`) through the program without them of C99 |
| C101 | `Measure`, `Custom`, `CommonQuantity`, `QuantityCast` | the class is observed through its central value (as in C77), which makes the central value of an expression that of plain numbers; the uncertainty is followed by induction on the derivation of its textbook value, as a product of bounded rounding factors (as in C88), using that a cast scales the whole measurement by constants and so keeps the relative uncertainty |
| C102 | `Energy`, `Math`, `CommonQuantity`, `QuantityCast` | each operation multiplies the value by a bounded product of rounding factors (as in C88); a power also multiplies it by coherent^N / coherent', a root by the square root of coherent / coherent'^2, and the two cancel because the dimensions of the root and of the original quantity are the same canonical one |
| C103 | `Box`, `Constants`, `Names`, `Reference`, `CommonQuantity`, `QuantityCast` | the types of the members are those the headers declare, so each function is evaluated symbolically to an expression of doubles (as in C97); the bounds follow from the calculus of rounding factors (C88) and of magnitudes (C94), monotony from that of rounding |
| C104 | `ConversionFactor`, `QuantityCast`, `Quantity`, `Rep` | a floating-point cast multiplies by one number that depends on the types only, and 1 times it is itself, so the factor is that number; its value is that of the factor of a cast (C88); integers by C19 and C20 |
| C105 | `Capacitor`, `Quantity`, `QuantityCast`, `Math`, `Reference` | the operators are evaluated for all doubles to the plain double computation (the units cancel); the loop by induction on the turns; the accuracy by the calculus of roundings of C88, with hypotheses on `std::exp` that the correctly rounded function meets |
| C106 | `AvgSpeed`, `QuantityCast`, `Quantity`, `Reference` | the types are evaluated, the numbers stay arbitrary; integer casts multiply in 64 bits and wrap; the accuracy by the calculus of roundings of C88 |
| C107 | `UnknownDim`, `DimOp`, `Reference`, `Quantity` | the references along the way are evaluated, the numbers stay arbitrary; the accuracy by the calculus of roundings of C88 |
| C108 | `Ship`, `QuantityCast`, `Reference`, `Quantity` | the ratios of the twenty casts are evaluated and compared with the definitions of the units; each cast by the bound on the roundings of a factor (C20 and following) |

## 4. Trusted base

* Coq 8.16.1 kernel (including its `vm_compute` machine where used for closed
  computations).
* The axioms printed by `Print Assumptions` under each theorem: none for the
  integer/rational/list parts; for the theorems about floating-point numbers and real values (`Props_Float`, `Props_FloatOrder`, `Props_Plain`, `Props_Measure`, `Props_Energy`, `Props_Box`, `Props_ConversionFactor`, `Props_Capacitor`, `Props_AvgSpeed`, `Props_UnknownDim`, `Props_Ship`, `Props_Math`, `Props_Constexpr`, C70 and the bounds of floating-point types) the axioms of the
  standard library's real numbers as used by Flocq, namely
  `ClassicalDedekindReals.sig_not_dec`, `ClassicalDedekindReals.sig_forall_dec`,
  `FunctionalExtensionality.functional_extensionality_dep` and
  `Classical_Prop.classic`.
* `ConstexprProofs` uses lemmas of Coquelicot (Taylor's formula) on top of the same axioms.
* `coqchk` also lists the fields of the sealed modules of the libraries loaded
  (`Coq.Reals.Rdefinitions`, `Coq.ssr.ssrunder`); no theorem depends on them as axioms
  beyond those printed.
* The faithfulness of the model to the C++ text: each definition cites the lines
  it follows and states its simplifications.

Not modelled: the C++ template machinery itself (overload resolution, partial
ordering, friend injection beyond the registry abstraction of `Downcast`), the
fmt library, iostreams beyond the state of `QuantityIo`, floating-point formats other than those of 24, 53 and 64
digits, exceptions, volatile/atomics. Classes of the user as representations are modelled in `Custom` only (casts,
conversions, sums, products, negation, equality), as far as `common_type` of two instances is an instance of the
class; transparent wrappers that decay to their element type are modelled in `Wrapper` (quantities only, no points or kinds).

## 5. Checks of the model against the repository's own tests

The model is compared with the code through the code's own unit tests: their assertions are
translated line by line into terms (`Conform`, `Conform_Text`, `ConformKinds`) and evaluated on the model with
the headers each test includes and the default mode of downcasting. `Conform_Systems` has the
static tests of the systems of units and of `quantity` (si, si_cgs, si_fps, us, iec80000, cgs,
fps, quantity: 870 assertions on values, types, symbols, texts, ratios, constructibility and
ill-formed operations), `Conform_Format` the runtime tests of texts (fmt_units and fmt: 372
checks), `Conform_Kinds` (interpreter `ConformKinds`) the static tests of points, kinds, points of
kinds, origins and chrono (kind, point_origin, quantity_kind, quantity_point_kind, quantity_point,
chrono: 999 assertions, of which many say that an expression does not compile), `Conform_Core` the
tests of ratios, products of dimensions, lists of types, texts, units declared by a test, powers and
roots, references and concepts (ratio, dimension_op, type_list, fixed_string, symbol_text, unit,
custom_unit, math, references, dimensions_concepts, concepts: 336 assertions, and the runtime tests
math: 14 checks and 328 roots by `iroot_compile`), `Conform_Wrapper` the static test of a transparent
wrapper as representation (custom_rep_test_min_impl: 171 assertions). Every translated
assertion comes out as the test demands, but for two checks of roots of the runtime test, in which the
code overflows `std::intmax_t` (it computes the 20th power of 9): undefined behaviour in the model,
while the test passes where the overflow wraps around. Two errors of earlier versions of the model were found
this way and corrected: `pk_of_point` had demanded the exact point type, and `Chrono.si_second` had
not been the second of the catalogue. Not translated: assertions on layout and
on standard traits, lambdas, other representations declared by a test, random distributions, locales and hexadecimal floating-point output
(how numbers are printed is fmt's part and only a small printer is written for these checks).
These are examples, not proofs: they are evidence for the faithfulness of the model only.
