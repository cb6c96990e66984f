# Design: a Rocq model of fixnum and what is proved about it

Subject: the crate `fixnum` 0.9.2 in `/repo` (read as text, never built or run here).
Tool: Coq 8.16.1, development in `rocq/theories`, logical prefix `Verif`.

## 1. Shape of the model

The model is a set of small, total, computable Gallina functions, one per Rust function, each
with a comment naming the file and lines it transcribes and the simplifications it makes.

* **Outcomes.** Rust code returns an `outcome`: `Ret v`, `Panic`, `Undef` (undefined behaviour)
  or `NoFuel` (a model loop ran out of fuel; no theorem accepts it). Rust `Result`/`Option`
  values are data inside `Ret`.
* **Build configuration.** Every function that can behave differently in different builds takes
  a `build` record: overflow checks, debug assertions, feature `std`, feature `i128`. Theorems
  quantify over it.
* **Primitive integers** are mathematical `Z` values with explicit range checks: a built-in
  operator whose exact result does not fit panics with overflow checks and wraps without them;
  `/` and `%` panic on zero and on `MIN / -1`; `as` truncates two's complement; shifts check or
  mask their amount. 64-bit target (`usize` = 64 bits).
* **A fixed-point number** is its raw integer; layout `L` (16/32/64/128 bits) and precision `P`
  are parameters. "Valid precision" means `10^P <= MAX` of the layout (`P <= 4, 9, 18, 38`):
  for larger `P` the crate's coefficient constant does not hold `10^P`.
* **Promotion.** `rmul`, `rdiv`, `rsqrt` compute in the promoted type. A plain record of
  operations (`promo`) is instantiated with primitive `i32/i64/i128` or with the word-level
  model of `I256`. The generic proofs use a specification record that is *proved* for all four
  instances; there is no assumed behaviour.
* **256-bit integers** are lists of four 64-bit words. Addition/subtraction with carry,
  schoolbook multiplication, shifts, `div_mod_word`, `div_mod_small`, Knuth's algorithm D and the
  square root are transcribed loop by loop, including their own overflow/bounds checks.
* **Strings** are lists of Unicode scalar values. `str::trim`, `split_once`, integer `FromStr`,
  `itoa` formatting are re-specified from the documentation of `core`/`itoa`.
  The formatting buffer has its real length and an out-of-bounds unchecked write is `Undef`
  (or the debug assertion's `Panic`).
* **f64.** `TryFrom<f64>` works on the 64-bit pattern with integer operations only and is modelled
  bit by bit. `From<FixedPoint> for f64` and the `std` square-root guess use float operations: they
  are modelled with the executable IEEE functions of Coq's standard library (`SpecFloat`). What
  these compute is proved in integer terms in `FloatFacts`; no real numbers are used. The value of
  a bit pattern in statements (`SpecF64`) is defined from its fields, not through `SpecFloat`.
* **serde / SCALE** are modelled at the level of the data-model call the crate makes or receives
  (`serialize_str`, `visit_i64`, bytes written, ...), not the formats themselves.

### Files
* Model: `Base PowerTable ConstFn Sqrt U256 U256Ops I256 Promo Ops Fixed Str Float Codec Compact Macros Reason`
  and the small client programs of `Client`, `Programs`, `Interval`, `Series`, `Average`, `SatRun`, `Pool`, `Schedule`, `Split`, `Account` and `Calc`; `Clients` runs arbitrary client programs; `Calls` interprets calls of the interface.
* Vocabulary of the statements, independent of the model's functions: `Spec` (decimals as
  rationals, rounding as a relation, shapes of results, four-word integers), `SpecText` (decimal
  strings, bytes), `SpecMacro` (operands, literals), `SpecBuild` (comparing builds), `SpecF64`, `SpecReason` (causes of
  parse errors), `SpecTypes` (conversions between operand types), `SpecCompact` (SCALE's compact form),
  `SpecCalls` (calls of the interface and when they panic), `SpecWide` (wrapping to 256 bits), `SpecRound` (rounding to whole numbers),
  `SpecCheck` (what a result tells), `SpecUndo` (differences in the last digit),
  `SpecDoc` (documented errors).
* Proofs: all `*Facts`, `*Proofs`, and `PrimPromo DivWord MulDiv Sqrt256 Wide Refute F64Rel ToF64
  FloatProps F64Near F64Mono F64Faith F64Back F64Steps TextLaws SatWrap
  ShowMore CallFacts U256OpsFacts I256Limits RoundLaws F64Order SeriesFacts Checked Undo Powers`.
* Statements: `Props*`. Each theorem is closed by `exact lemma.` with `Print Assumptions` beneath,
  and an `Example` with the suffix `_case` beneath it shows that a concrete non-trivial case meets the hypotheses
  (proved by the tactic of `Meets`); `Cnn_example` shows further cases and results.
* `RepoTests`: the crate's own unit and integration tests replayed on the model by computation
  (478 rows of 88 test cases, dev build). These are tests of the model, not proofs. Not replayed:
  the property-based tests, `quick-xml` documents, error message texts, and the halves of
  the serde tests that go through JSON text.
* `DocTests`: the examples of the crate's documentation, likewise.

## 2. Specification vocabulary

* `dec P r : Q` = `r / 10^P`, the decimal represented by raw value `r`.
* `rounds m q z`: integer `z` is rational `q` rounded in mode `m`. Floor: `z <= q < z+1`. Ceil:
  `z-1 < q <= z`. Nearest: `|q-z| <= 1/2`, and `|q| <= |z|` if equality (ties away from zero).
  `rounds_to m P d r` is the same at precision `P`; `sqrt_rounds` states it for square roots
  without mentioning the root.
* `exact_or`: the result is the number equal to the given decimal if there is one, otherwise the
  given error; `rounded_or_overflow`: the rounded decimal if representable, otherwise `Overflow`.
  Both exclude panics. `clamps`: the decimal clamped to the range.
* `spells s neg i f`: the string is white space, sign, digits, optionally point and digits, white
  space; `spelled` is its value; `canonical` the one text of a decimal; `literal` for macro text.
* `unsigned4`/`signed4`: the value of four words. `twos`: little-endian two's complement.
* `f64_val`: value of a bit pattern as a rational.
* `strict`, `same_profile`, `unless_panic`: relations between two builds.

## 3. Properties: what is modelled and how it is proved

Status and the exact theorem names are in `MANIFEST.json`.

| id | status | modelled by | proof |
|----|--------|-------------|-------|
| C01 | proved | `fp_cmp fp_eq fp_lt fp_le fp_min fp_max`, `ONE ZERO EPSILON MIN MAX`, `pow10` | `dec P` is strictly monotone in the raw value; the power table entries are checked by computation and the loop by induction (`SimpleProofs`) |
| C02 | proved | `cadd csub` | unfold; a sum is representable iff the raw sum is in range |
| C03 | proved | `cmul int_cmul_fp` | same for the raw product |
| C04 | proved | `fp_saturating_add/sub/mul` | clamping of the raw result; range cases |
| C05 | proved | `rmul` over the promotion record | quotient/remainder identity of the truncated division by 10^P; sign cases give the directed rounding (`ArithProofs.rmul_val`, then `RoundFacts` turns the integer rounding into `rounds`) |
| C06 | partial | `rmul` Nearest | as C05, with the doubling of the remainder shown not to overflow; i128 with P = 38 is the one exception (refuted) |
| C07 | proved | `rmul` | from the value form of C05/C06: `rnd` is symmetric under negation with the flipped mode |
| C08 | partial | `saturating_rmul` | composition of C05/C06 with the sign of the exact product |
| C09 | proved | `rdiv` directed | as C05 for the quotient `x*10^P / y`; the promoted product always fits |
| C10 | partial | `rdiv` Nearest | as C09 under the guard that `2*abs rem` fits and the divisor is not MIN; witness outside it |
| C11 | proved | `rdiv rdiv_int int_rdiv int_rdiv_fp recip` | unfold: the zero test comes first |
| C12 | partial | `rdiv_int int_rdiv` | truncated division identity in the type itself; witnesses for MIN / -1 and large divisors |
| C13 | partial | `int_rdiv_fp` | conversion followed by C09/C10 |
| C14 | partial | `recip` | `rdiv ONE x` |
| C15 | proved | `cneg abs signum` | unfold |
| C16 | partial | `half_sum` | range reasoning on the difference (never overflows); the halved difference rounded; witness for ties of two negatives |
| C17 | partial | `integral` | division by 10^P with sign and half tests; MIN excluded |
| C18 | partial | `floor ceil round` | C17 followed by the multiplication back |
| C19 | proved | `round_towards_zero_by` | facts about `Z.quot`/`Z.rem` |
| C20 | proved | `next_power_of_ten`, the four tables | every table entry checked by computation against its leading-zero interval, lifted to all x by the interval (`DecProofs`) |
| C21 | proved | `rsqrt`, `sqrt_prim`, `u256_sqrt`, `i256_sqrt` | Newton iteration: lower bound by AM-GM, the gap at least halves so the fuel suffices; recursion `sqrt(n/4)` for 128 and 256 bits; the float guess is bounded in integer terms (`FloatFacts`, `SqrtFacts`, `Sqrt256`) |
| C22 | partial | `from_decimal` | power and product ranges; witness where `10^(e+P)` overflows |
| C23 | proved | `to_decimal` | loop invariant `m*10^e`, fuel bound by the number of digits |
| C24 | proved | `to_decimal` then `from_decimal` | C22 and C23 |
| C25 | proved | `try_from_int` | range reasoning |
| C26 | proved | `parse_str`, `trim`, `split_once`, `parse_int` | inversion of each step into the grammar `spells`; digit list arithmetic (`StrFacts`) |
| C27 | partial | `from_str` | same with the rounding step; P = 0 excluded (witness) |
| C28 | proved | `from_str_exact`, `from_str` | case analysis of the shared parser |
| C29 | partial | `stringify`, `to_string`, the buffer, `itoa` | digits of the quotient and remainder are canonical (`ShowFacts`); uniqueness of canonical texts |
| C30 | partial | `to_string` then parsing | C29 read back through the characterisation of C26/C27 |
| C31 | partial | the buffer writes | index of every write bounded by the text length; witnesses of out-of-bounds writes |
| C32 | proved | `try_from_f64` | each loop has an integer meaning (`F64Facts`), assembled into one relation (`F64Rel`); the relation does not look at the sign |
| C33 | proved | `try_from_f64` | relative error of the digit cutting and scaling loops below 2^-49 and the final decision within 5/9 of a unit (`F64Proofs`) |
| C34 | proved | `try_from_f64` | on integers every step of the relation is exact |
| C35 | proved | `to_f64` with `SpecFloat` operations | the two conversions, the division and the addition each round to nearest, in integer terms (`FloatFacts`, `ToF64`) |
| C36 | partial | `to_f64` then `try_from_f64` | the error bounds of C33 and C35 leave one candidate; witnesses beyond fifteen digits |
| C37 | partial | `serialize deserialize visit`, human-readable | composition with C26-C34; every token kind enumerated |
| C38 | proved | `serialize deserialize`, `repr_*` | range test of the integer; width in `FailFacts` |
| C39 | partial | `str_* float_* *_option` | composition; a string that cannot be lent is rejected (witness) |
| C40 | proved | `encode decode encode_as decode_from` | base-256 digits of the two's complement |
| C41 | partial | `parse_fixed`, `fixnum_const` | the parser loop as a function of the digit list, with its own overflow checks (`LitFacts`); witnesses for truncation |
| C42 | proved | `promote`, `op_*` | promotion keeps the integer; case analysis on the kinds (`MacroFacts`) |
| C43 | partial | every operation with a `build` | from the value forms where they hold in both builds, else from C63; witness for the rest |
| C44 | partial | `rmul rdiv rsqrt` at L128 | instance of the generic theorems with the proved 256-bit promotion |
| C45 | proved | `Client.run_steps` | induction over the list; converse in `FailFacts` |
| C46 | proved | `default_saturating_*` | generic in the checked operation, from its exactness |
| C47 | partial | operations at two layouts | both value forms mention only the raw integers |
| C48 | proved | `try_from_f64` | each step of the relation of C32 is monotone in the value |
| C49 | proved | `rmul`, `rdiv` | monotonicity of `rnd`; error of one rounding composed with the division |
| C50 | partial | `rmul rdiv rsqrt integral` in the three modes | `brackets` for `rnd` |
| C51 | proved | `rmul` Nearest, i128, P = 38 | exact case analysis of the overflow of the doubled remainder, with and without overflow checks |
| C52 | proved | `rdiv` Nearest | same for large divisors and MIN |
| C53 | proved | `int_rdiv` | same |
| C54 | proved | `int_rdiv_fp` | unfold |
| C55 | proved | `half_sum` Nearest | exact result for two negative numbers |
| C56 | proved | `integral floor ceil round` at MIN | computation of the wrapped absolute value for all precisions |
| C57 | proved | `from_decimal` beyond the power table | wrapped power, exact behaviour in both profiles |
| C58 | partial | `sqrt_prim` for every primitive type | as C21; exact cases near i128::MAX |
| C59 | proved | `u256_*`, `i256_*`, `div_mod` | value of a word list; carry identities; Knuth's algorithm D with the two-sided bound on the quotient digit (`WordFacts DivWord ShiftFacts KnuthFacts I256Facts Wide`) |
| C60 | proved | `from_str` at P = 0 | as C27 without its exclusion |
| C61 | proved | `to_string` outside `printable` | computation of the failing writes for all such values |
| C62 | proved | `fixnum_const` | `LitFacts`, both directions; that every other text gives a number or does not compile is in `FailFacts` |
| C63 | proved | every operation | an `agree` relation between two builds, closed under `bind` and every primitive (`ProfileFacts`) |
| C64 | proved | every operation | same relation with equal profiles and different features |
| C65 | proved | `to_f64` then `try_from_f64` | C36 with its exact range |
| C66 | partial | `try_from_f64` | the rounding threshold is 4/9, proved as such (the crate's unit test `rdiv_by_exp10_regular_values` expects it); witness against nearest |
| C67 | proved | `Reason.parse_str_r` | inversion of the parser into the list of causes, which exclude each other (`ReasonFacts`); dropping the reason gives `parse_str` |
| C68 | proved | `convert_as_str arith_as_str`, `from_decimal_r try_from_int_r try_from_f64_r` | case analysis; dropping the reason gives the functions of `Fixed` and `Float` |
| C69 | proved | `i256_of_u128 u128_of_i256` | value of the low words, sign bit (`U128Facts`) |
| C70 | proved | `promote`, `op_*` | case analysis on the kinds of operands (`TypeFacts`) |
| C71 | proved | `str_* float_* repr_*` deserialisers | composition with C26, C27, C34; integers go through the nearest f64 (`AcceptFacts`) |
| C72 | proved | `Programs.run_mul` | induction; one rounding costs `slack m` units and later factors of at most one do not enlarge it (`ProgramFacts`) |
| C73 | proved | `Programs.split` | division identity |
| C74 | proved | `Programs.distribute` | induction with the accumulated error |
| C75 | proved | `Programs.convert` | C22 and C23; a mantissa not divisible by ten cannot be represented with fewer places |
| C76 | proved | `Programs.convert_text` | C27 and C29 |
| C77 | partial | `COEF ONE pow10` | C01 for valid precisions; witness beyond |
| C78 | proved | `COEF NEG_COEF ONE rmul pow10` | induction over the loop of `pow10` with and without overflow checks; truncation of a product is the truncation of the truncated factors' product; 10^P is a multiple of 2^P (`PrecFacts`) |
| C79 | proved | `to_f64` | each of the five roundings is to the nearest 53-bit number, ties to even, stated in units of 2^-1074 (`F64Near`) and monotone; the sum of the parts is monotone because an integral part that was rounded up absorbs the fraction (`F64Mono`) |
| C80 | partial | `to_f64` | for integers and pure fractions only one of the roundings is inexact; witness 1.14 |
| C81 | proved | `to_f64` | the distance from the integral part to any float less than one above it is itself a float, so that the rounded fraction cannot pass it (`F64Faith`); witness at precision 16 |
| C82 | proved | client `enclose` (`Interval`) over the modelled operations | induction over the tree; a product or quotient of bounded rationals lies between the extreme corner values (`IntervalFacts`); steps and failures in `FailFacts` |
| C83 | proved | `op_saturating_mul`, `op_saturating_rmul`, `default_saturating_mul` | sign analysis of the default method, then `saturates`/`clamped` (`SatWrap`) |
| C84 | proved | `cadd` ... `rdiv_int`, `next_power_of_ten` | each side reduced to a checked integer or a rounded quotient (`LawFacts`) |
| C85 | proved | `half_sum` | a tie lies between two means that are not ties, which gives monotonicity across the branches |
| C86 | proved | `rsqrt`, `rmul` | integer square-root bounds |
| C87 | proved | `compact_encode`, `compact_decode` (`Compact`) over `encode_as`, `decode_from` | each form is the little-endian number `4n + mode`; the byte count is recovered from the leading zeros; decoding inverted case by case (`CompactFacts`), specification `SpecCompact` |
| C88 | proved | `try_from_f64`, `from_str_exact` | the error bound of C33 at numbers up to 10^15 is below four ninths of a unit (`F64Back`); witness 0.09% beyond |
| C89 | proved | `try_from_f64` | no digit is lost before the first cut, so both cuts apply to exact decimals (`F64Steps`); specification `cuts` |
| C90 | proved | `parse_str`, `to_string` | from the characterisations C26, C29 and C60 with monotonicity and existence of roundings (`TextLaws`) |
| C91 | proved | `stringify` | the wrapped sum is 2^128 off, and its digits are pushed one by one into the buffer model (`ShowMore`) |
| C92 | proved | all of the above through `run` (`Calls`) | each case from the exact companions C51-C61 and C91 (`CallFacts`); conditions in `SpecCalls` |
| C93 | proved | `u256_of_*`, `as_usize`, `u256_shl_by`, `u256_shr_by`, `u256_mul_u64`, `overflowing_add`, `overflowing_sub`, `bits` | each word count of a shift separately, every word split into high and low bits (`U256OpsFacts`) |
| C94 | proved | `i256_neg` … `i256_sqrt` | values modulo 2^256 through magnitude and sign (`I256Limits`); wrapping stated by `wraps256` (`SpecWide`) |
| C95 | proved | `floor`, `ceil`, `round`, `round_towards_zero_by` | the rounded number as a multiple of 10^P (`rnd`), range of the negated result by divisibility by 5 (`RoundLaws`) |
| C96 | proved | `to_f64` | relative error 2^-51 of C35 against the distance of neighbours; C79 for the converse (`F64Order`) |
| C97 | proved | `dot` (client program, `Series`), `rmul`, `cadd` | induction on the list, one rounding error per step (`SeriesFacts`); failures in `FailFacts` |
| C98 | proved | `horner` (client program, `Series`), `rmul`, `cadd` | induction on the coefficients with the error of the accumulator as parameter (`SeriesFacts`); failures in `FailFacts` |
| C99 | proved | the operations of C06, C08, C10, C12-C14, C17, C18, C22, C29 | case analysis on the exact panic conditions of C51-C57, C61 (`Checked`) |
| C100 | proved | the same in all builds | the wrapped results of C51-C53, C55, C56 are quotients truncated or moved by one (`near`, `Checked`) |
| C101 | proved | the same | monotonicity of rounding applied to C99 (`Checked`); counterexample by computation |
| C102 | proved | `Clients`: programs as trees of calls (`ask`), branching on answers of any type; `exec` runs one in a build | induction on the program from the results on single calls of C89-C92 (`ClientFacts`); answers in `FailFacts` |
| C103 | proved | `rmul`, `cadd` | linear arithmetic on the integer form of rounding (`Undo`) |
| C104 | proved | `rmul`, `rdiv`, `recip` | a number within half a unit (or one unit on the right side) is found again if the step is at least one (`Undo`) |
| C105 | proved | `rmul`, `rsqrt` | squares bounded from both sides (`Undo`) |
| C106 | proved | `next_power_of_ten` | its exact result is the least power of ten above (`Powers`) |
| C107 | proved | `Schema` (src/schemars.rs), the serializers of `Codec` | case analysis (`SchemaFacts`) |
| C108 | proved | `ema` (client) over `csub`, `rmul`, `cadd` | each step stays between balance and sample; errors shrink by 1 - a (`AverageFacts`) |
| C109 | proved | `mean` (client) over `csub`, `rdiv_int`, `cadd` | the errors in units add up with weights 2..N (`AverageFacts`) |
| C110 | proved | `rmul`, `rdiv`, `rdiv_int`, `recip` | from C99 (checked builds) and the directed cases of C05, C09, C12, C14 (`DocFacts`) |
| C111 | proved | `sat_run` (client) over the saturating operations | shifted cuts are closed under composition (`SatFacts`) |
| C112 | proved | `hash_into`: one write of the raw integer into an abstract hasher | a hasher that keeps a log tells numbers apart (`SatFacts`) |
| C113 | proved | `to_string`, `from_str`, `from_str_exact` | length of a canonical text from the size and the trailing zeros of the raw integer; a carry costs one digit but frees the fraction (`ShortFacts`) |
| C114 | proved | `buy`, `swap`, `trade` (client) over `cadd`, `csub`, `rdiv`, `rmul` | the floors give o (x + d) <= y d; induction over the trades (`PoolFacts`); steps in `FailFacts` |
| C115 | proved | `blend` (client) | one step of C108; rounding is monotone (`PoolFacts`) |
| C116 | proved | `norm` (client) over `rmul`, `cadd`, `rsqrt` | C110 for the squares, C21 for the root (`PoolFacts`); success in `FailFacts` |
| C117 | proved | `rmul`, `rdiv`, `rsqrt`, `integral`, `try_from_int` | both sides are z y <= x 10^P (`AdjointFacts`) |
| C118 | proved | `rdiv`, `rdiv_int`, `integral`, `rsqrt` | floors and ceilings of quotients compose (`AdjointFacts`) |
| C119 | proved | `schedule` (client) over `cmul`, `rdiv_int`, `csub` | the running totals telescope; rounding errors of two neighbours differ by less than a unit (`ScheduleFacts`) |
| C120 | proved | `split`, `untax` (clients) over `rmul`, `rdiv`, `cadd`, `csub` | floor of n/d and ceiling of x - n/d are complementary; ties are counted (`SplitFacts`) |
| C121 | proved | `bisect` (client) over `half_sum`, `rmul` | the interval halves, bits + 1 steps suffice; the predicate is z^2 <= x 10^P or z y <= x 10^P (`SplitFacts`) |
| C122 | proved | `rmul`, `rsqrt`, `half_sum` | r^2 <= x y <= ((x + y) / 2)^2 (`SplitFacts`) |
| C123 | proved | `run_mul` (client) over `rmul` | directed rounding is monotone along the chain (`AccountFacts`); failures in `FailFacts` |
| C124 | proved | `account` (client) over `rmul`, `cadd` | induction over the periods; `Series.qpoly` is the exact balance (`AccountFacts`); failures in `FailFacts` |
| C125 | proved | `calc` (client) over `from_str_exact`, `cadd`, `csub`, `rmul`, `rdiv`, `to_string` | composes C26, C05-C09 and C29; roundings and canonical texts are unique (`CalcFacts`) |
| C126 | proved | `rmul`, `rdiv`, `recip`, `rsqrt`, `half_sum`, `cadd`, `csub`, `cmul`, `fp_cmp`, `to_string` | directed rounding factors through a finer grid (`PrecisionFacts`) |

A property that turned out false of the faithful model is kept with its full statement in
`properties.jsonl`; a `_refuted` theorem exhibits the witness, a `_partial` theorem proves the
part that is true, and a further property (C51-C62, C65, C78, C81) states the exact behaviour in the
excluded cases.

## 4. Trusted base

* Coq 8.16.1's kernel (and `vm_compute`).
* Axioms: each property theorem is followed by `Print Assumptions`. Every one of them prints
  "Closed under the global context": no axiom of the standard library or of this development is
  used.
* The reading of the Rust source: the model is tied to the code by the cited lines, and checked
  against it by the replayed tests of `RepoTests`.
* The semantics of the language and library pieces in `Base.v`, `Str.v`, `Float.v` (documented there):
  primitive integer operators, `checked_*`, `saturating_*`, `leading_zeros`, slices, `str::trim`,
  `split_once`, integer parsing, `itoa`, IEEE binary64 arithmetic (`SpecFloat`) and `as` casts.

### Modelled code
`src/lib.rs` (all of `impl_fixed_point!`), `src/ops/mod.rs`, `src/ops/sqrt.rs`, `src/i256/mod.rs`,
`src/i256/u256.rs` (by-reference and assigning operators are the same functions), `src/string.rs`, `src/float.rs`,
`src/power_table.rs`, `src/const_fn.rs`, `src/errors.rs`, `src/macros.rs`, `src/schemars.rs`, the calls made by `src/serde.rs` and `src/parity.rs`.

### Not modelled
`derive_more` error plumbing,
trait resolution and macro hygiene, `#[cfg]` selection beyond the
`build` record, the serde data formats and `parity-scale-codec` internals beyond fixed-width and compact
integers,
formatter flags (width/precision are ignored by the crate's `fmt`), performance.

## 5. What was found in the code

Each is a `_refuted` theorem or an exact companion property.

* `rmul`, `integral`, `round` with Nearest overflow on i128 at precision 38; `rdiv`, `rdiv` by an
  integer, `recip` with Nearest overflow for large divisors (panic with overflow checks, wrong
  result without): C06, C10, C12, C14, C17, C51-C53.
* `MIN / -1` of an integer `rdiv` panics instead of reporting `Overflow`; `integral`, `floor`,
  `ceil`, `round` fail at MIN: C12, C18, C53, C56.
* An integer dividend that is not representable is reported as `Overflow` even if the quotient
  is representable: C13, C54.
* `half_sum` with Nearest rounds ties of two negative numbers up, all others away from zero: C16, C55.
* `from_decimal` overflows for large exponents, giving a wrong number in release builds: C22, C57.
* At precision 0 parsing rejects any point, so that no printed text can be read back: C27, C30, C60.
* Formatting panics or writes outside its buffer at precision 0 for MIN and long negative numbers,
  and overflows on i128 at precision 38 (in release builds a wrong fraction, and for most
  negative numbers a write past the buffer): C29, C31, C61, C91.
* `fixnum_const!` silently truncates literals too large for the layout, and rejects MIN of the
  widest layout: C41, C62.
* `Sqrt for i128` overflows near `i128::MAX` (not reachable through `rsqrt`): C58.
* The `serde` `str` modules reject owned strings: C39.
* A precision too large for the layout is not rejected: the coefficient is truncated, `ONE` is then
  not one, and from a precision of 16 (i16) or 32 (i32) on every `rmul` divides by zero: C77, C78.
* Conversion to f64 adds two rounded parts and may miss the nearest float (1.14 becomes
  1.1400000000000001): C80, C81.
* Conversion from f64 rounds up from 4/9, not 1/2 (deliberate: the unit test
  `rdiv_by_exp10_regular_values` expects it), and rejects MIN: C36, C66.

## 6. Testing the theorems with wrong programs

`seeded/LOG.jsonl` has 522 edits of the model, 127 of them drawn at random and the rest chosen by hand. Each was made in a scratch copy of one of several snapshots of the theories, so theorems added after a snapshot were not tried against it.

Two passes were made. The first checks the proofs again; for 178 edits it stopped at the first lemma that failed, and `theorems_failed` then lists the theorems that depend on that lemma. For 114 edits it was not made, and `theorems_failed` lists only the theorem that the second pass contradicts. The second admits every proof in the scratch copy and derives `False` from a property theorem at a concrete input (`contradiction`), which shows that the theorem is false of the mutant and not merely that its proof broke.

- 480 caught: a theorem is false of the mutant. For Y02, Y12 this was not shown, because the mutated model is already rejected at a definition that contains a proof.
- 0 caught by failing proofs only, without such a contradiction (none).
- 39 judged equivalent, for the reason in `note`. Most of these are judgements by reading. They are not proved, except where the note says that every proof still goes through.
- 3 survived: D06, S102, Y30. D06 led to C89. S102 edited a definition that nothing used, and it was removed. Y30 cuts the expansion of a float at another place, within what the theorems leave open; no float is known for which the result differs.
- Four edits of the calculator (V05, V06, V07, V10) got past the theorems that C125 had at first; C125_unread and C125_failed were added and catch them. They are counted as caught.
- Twelve edits of other client programs (X01 to X12) satisfied the theorems there were, since these allowed a failure, a wider bound or a trade without effect. C82_product, C82_quotient, C82_linear, C97_fails, C98_fails, C114_step, C116_fits, C123_fails and C124_fails were added and catch them. They are counted as caught.
- Edits of definitions not edited before (Y01 to Y50) led to C38_width, C45_sum_exact and C102_answers: by reading, Y31 and Y37 satisfied the theorems there were, and Y36 was excluded only indirectly.
- By reading, Z01 to Z03, which exchange error texts, and S209, in which a bad literal is undefined behaviour, satisfied the theorems there were. C67_words, C68_decimal_text, C68_arith_words and C62_total were added and catch them.

In some runs a lemma ran into the time limit, in part because the run was paused: D05, D10, R11, N05, N06, N10, N56, N61, Q16, S060, S117. Such lemmas are listed in `timed_out` and are not counted as failures; for the equivalents among them the judgement rests on reading alone.
