# fast-printf in Rocq: design

Source: `/repo` (YuyuZha0/fast-printf, Java), read as text only. File names below are relative to
`src/main/java/io/fastprintf`; line numbers are in the comments of the model files.

`properties.jsonl` holds the properties, `MANIFEST.json` says which theorems settle each of them,
`seeded/LOG.jsonl` records the mutation tests.

## Layout of the development (`rocq/theories`)

| kind | files | content |
|---|---|---|
| base | `Base.v`, `Digits.v` | UTF-16 units as `Z`, Java `int`/`long` wrap-around, result type, positional numerals |
| model | `*M.v`, `GTable.v` | the Java code, function by function, with file and lines |
| specification | `*Spec.v`, `SeqExpr.v` | meaning of formats, directives, values and texts; shares only data types with the model |
| proofs | `*P.v`, `*P2.v`, `ReadFP3.v`, `FloatQ.v`, `GCheck.v`, `CertTable.v`, `CertCheck.v`, `IrrCheck.v` | lemmas; the last four are finite computations about the power-of-ten table |
| tests | `TestVectors.v` | the repository's test expectations, evaluated in the model |
| properties | `Props*.v` | the property theorems, `Print Assumptions` after each, an `Example` showing that the hypotheses can be met |

## How values are represented

* `char` = `Z` in 0..65535; `String`, `StringBuilder`, `char[]` = their content, `list Z`.
* `int`, `long`, `short`, `byte` = `Z`, with `wrap32`, `wrap64` (and shift operators that mask the distance) wherever the Java
  expression can overflow.
* `double`, `float` = their bit patterns. `RoundM.v` gives IEEE 754 rounding of an exact rational; the value of a double is the
  rational `sval` (`FloatSpec.v`). Patterns, values, order, casts, `+`, `/` and the widening of floats agree with the IEEE 754 numbers of Coq's standard
  library, `Floats.SpecFloat` (C100), so none of them has to be trusted.
* `BigInteger` = `Z`; `BigDecimal` = unscaled value and scale.
* exceptions = the `Err` side of a result, one constructor per exception class the code distinguishes, with the reason for
  `PrintfException` and the index for `PrintfSyntaxException`. The texts of these two classes are modelled apart from them (`MsgM.v`, `DescM.v`, `MiscM.v`), those of
  other exceptions are not.
* loops = structural recursion, or fuel with an `OutOfFuel` error that is proved never to occur.
* an object behind an interface (`IntForm`, `FloatForm`, `FormatTraits`) = the record of its method results.
* an argument = its class and value (`value` in `TraitsM.v`). Objects of foreign classes are given by what they answer
  (`obj`: the text or exception of `toString`, `longValue` of a `Number`, ...).
* threads (`ConcM.v`) = small-step machines over a shared heap, every interleaving.

## What is modelled

| Java file | model | specification and theorems |
|---|---|---|
| `Compiler.java`, `Flag.java`, `Specifier.java`, `FormatContext.java` | `CompilerM.v`, `ContextM.v`; with stack frames `DepthM.v`; counting its steps `CostM.v`; contexts as objects sharing flag sets `CtxM.v`; their serialized form `SerM.v` | `GrammarSpec.v`, `ErrSpec.v`, `CtxSpec.v`, `FlagSpec.v`; C01, C02, C15, C37, C59, C60, C68, C69, C81, C84, C101 |
| `FastPrintfImpl.java`, `FastPrintf.java`, `appender/DefaultAppender.java`, `appender/FixedStringAppender.java` | `ImplM.v`, `MiscM.v`; cache and threads `ConcM.v`; a target that throws `SinkM.v`; a target that is also an argument `AliasM.v`; arguments with side effects `EffM.v`; lazy actions that throw `PartM.v`; iterators of other classes `IterM.v`; null parameters `NullM.v` | `DirSpec.v`, `LoopSpec.v`, `SinkSpec.v`, `AliasSpec.v`, `EffSpec.v`, `IterSpec.v`; C03-C06, C14, C16, C17, C38, C52, C58, C61, C62, C72-C77, C86, C89, C110 |
| `appender/SeqFormatter.java` | `FormatterM.v`, `%t` in `TraitsM.v` | `FmtSpec.v` (a C11 printf reference for integers and strings), `FloatSpec.v`, `BigSpec.v`, `ReadSpec.v`, `ReadFSpec.v` (a strtod-like reader), `SigSpec.v`; C07-C12, C28-C36, C42, C45-C51, C55-C57, C81, C82, C97 |
| `number/*.java` | `IntFormM.v`, `DoubleM.v`, `BigDecM.v`, `toString` in `ShowM.v`, questions about the sign in `FormM.v` | as above; C71, C95 |
| `util/internal/DoubleToDecimal.java`, `MathUtils.java`, `MultiplyHigh.java`, `FormattedFPDecimal.java`, `DoubleConsts.java` | `DecimalM.v`, `MathM.v`, `GTable.v` (the 1234 table entries), `FPDecimalM.v`, `appendTo` in `TextM.v`; on the three kinds of JDK `PlatM.v` | `DecSpec.v`, `TextSpec.v`; C23-C27, C53, C79, then C28-C33 |
| `seq/*.java` | `SeqM.v`, the lazy cache in `ConcM.v`, the size of the iterator's deque in `DequeM.v`, sequences of user classes in `UserM.v` and `CompM.v`, views of arrays that are written to in `ViewM.v` | `SeqSpec.v`, `SeqExpr.v`, `UserSpec.v`, `CompSpec.v`, `ViewSpec.v`; C13, C18-C20, C22, C77-C79, C83, C85, C88 |
| `traits/*.java` | `TraitsM.v`, casts in `RoundM.v`, arrays with their elements in `ArrM.v`, `CharSequence`s of user classes in `CsM.v` | `DirSpec.v`, `ValueSpec.v`, `ArrSpec.v`, `CsSpec.v`; C46-C52, C94, C96 |
| `Args.java`, `ArgsImpl.java` | `ArgsM.v` | C40 |
| `util/Utils.java`, `util/Preconditions.java` | `UtilsM.v`, `join` in `TextM.v` | `MiscSpec.v`; C13, C21, C39, C43, C54 |
| `PrintfSyntaxException.java`, `CharArray.equals/hashCode` | `MiscM.v`; the compiler with descriptions and causes `DescM.v` | `DescSpec.v`; C41, C44, C80 |
| `PrintfException.java` and all places that throw one | messages in `MsgM.v` | `MsgSpec.v`; C70 |
| `Concat.java`, `SeqArray.java`, `AtomicSeqIterable.java`, `FastPrintfImpl.java` once more | counting steps in `SeqCostM.v`; JDK work (digits, dates, StringBuilder growth) not counted | C103 |
| `Preconditions.java` and all places that call it, `LazySeq.java` and `EmptySeq.java` | messages in `SeqErrM.v` (null parameters: `NullM.v`) | `PropsSeqErr.v`; C77, C102 |

### Parameters (record `jdk` in `TraitsM.v`, and `dtf_valid` of `compile`)

`Double.toString`, `Float.toString`, `BigDecimal.toString`, `TemporalAccessor.toString`, `Double.parseDouble`, `Character.digit(c, 10)`,
`DateTimeFormatter.format`, `DateTimeFormatter.ofPattern` (which patterns are accepted), `Instant.from`, `Instant.atZone` of the
system zone. Every theorem holds for all values of these. C51 and C52 assume of them what Java guarantees (`jdk_ok` in
`ValueSpec.v`): texts fit an `int` length, parsed doubles are 64-bit patterns, instants have nanoseconds below 10^9. C92 assumes
that `Double.parseDouble` reads decimal numerals to the nearest double (`reads_numerals` in `AgainSpec.v`).

### JDK methods modelled by their documentation

`Integer/Long.toString`, `toHexString`, `toOctalString`, `toUnsignedString`, `parseInt`, `parseLong`; `BigInteger` arithmetic and
`toString(radix)`; `BigDecimal` `abs`, `precision`, `setScale`, `round` (HALF_UP), `stripTrailingZeros`, `compareTo`, `toBigInteger`, `intValue`;
casts between numeric types (JLS 5.1), `Math.round`, double `+` and `/`; `Double.toHexString`; `String.indexOf`, `substring`; `Arrays.toString`, `Base64.getEncoder`;
`ArrayDeque` as a stack; `EnumSet`; `StringBuilder` with its capacity where the cache depends on it; `ThreadLocal` as one cell per thread.

### Simplifications

* `StringBuilder.ensureCapacity`, the interned one-character `Repeated` objects and other caches of immutable objects have no
  observable effect and are left out.
* Except in `PartM.v` (C86), a `LazySeq` action that throws has written nothing.
* Except in `CountM.v` (C90; and `UserM.v`, `CompM.v` for their own sequences), the capacities a composite passes to `new ArrayList` and `new StringBuilder`
  are not negative. C90 proves this for calls and expressions whose sequences have fewer than 2^31 - 1 leaves and no negative length.
* Except in `ViewM.v` (C85), nobody writes to the array behind a `CharArray`.
* `SerM.v` has the fields of an object as written and read by default serialization, not the bytes of the stream.
* Except in `EffM.v` (C73) the methods of an argument have no side effects. There, `ArrayList.modCount` does not wrap around.
* Except in `SinkM.v` (C58), an `Appendable` target accepts what it is given.
* `BigDecimal.intValue` always gives the low 32 bits (JDK 8 throws where `toBigInteger` does).
* A `BigInteger` has a magnitude below 2^2147483647, and 10^n exists up to n = 646456992 (`TenP.v` proves that these agree). Some JDKs give up on
  10^n earlier, from 536870920 on.
* A method of an argument that the library calls (`toString`, `longValue`, `getTime`, `toInstant`, ...) may throw or, for `toString`, return null; it has
  no other effects, and gives the same answer each time. A `toInstant` that returns null
  counts as one that throws `NullPointerException`: `SeqFormatter.t` is its only reader and throws that in both branches (`ta.getClass()`, SeqFormatter.java:384;
  `DateTimeFormatter.format(null)`, 400).
* Except in `ArrM.v` (C94), arrays passed as arguments are given by the texts of their elements.
* Strings are safely published between threads (final fields), `int` reads and writes are atomic; the memory model has no other weak behaviour (C22).
* Sequences of classes outside the library occur only in `UserM.v` (C83: `Seq` and `AtomicSeq`) and `CompM.v` (C88: `AtomicSeqIterable`), one class per
  call, and none that overrides `prepend` or `append`; the composites override no default method and their leaves are atomic sequences of the library.
* User implementations of `FormatTraits` occur in `EffM.v` (C73), user implementations of `Args` in `IterM.v` (C89); elsewhere the arguments are a list.
* Except in `CsM.v` (C96), `length()`, `charAt()` and `toString()` of a `CharSequence` argument agree on one text and do not throw.
* Null parameters of the API occur only in `NullM.v` (C77).

### Not modelled

Memory limits; stack depth, except of the parser (`DepthM.v`; the only recursion of the library, the sequences use loops); the method-handle lookup that chooses between `Math.multiplyHigh`
or `StringBuilder.repeat` and their fallbacks (C79 proves that the choice makes no difference); private constructors that throw.

## Trusted base

* The Coq 8.16.1 kernel, including `vm_compute` (used for finite checks over the table and in examples).
* `Print Assumptions` is run after every theorem of `Props*.v`; each prints `Closed under the global context`: no axioms, of the
  library or our own, are used.
* The correspondence between the model and the Java text, which is by reading. `TestVectors.v` checks it against the expectations of the
  repository's own test classes (1900 calls, and 350 checks of the compiler, `Double.toString`, `multiplyHigh` and helpers): all hold in the model. The parameters and simplifications above.
* The specifications: `GrammarSpec.v`, `SeqSpec.v`, `SeqExpr.v`, `FmtSpec.v`, `DirSpec.v`, `LoopSpec.v`, `ReadSpec.v`, `MiscSpec.v`, `DecSpec.v`,
  `FloatSpec.v`, `BigSpec.v`, `ValueSpec.v`, `TextSpec.v`, `ReadFSpec.v`, `SinkSpec.v`, `ErrSpec.v`, `SingleSpec.v`, `ExactSpec.v`,
  `OrderSpec.v`, `CtxSpec.v`, `MsgSpec.v`, `AliasSpec.v`, `EffSpec.v`, `ScaleSpec.v`, `WholeSpec.v`, `CharSpec.v`, `DescSpec.v`, `FlagSpec.v`, `SigSpec.v`, `UserSpec.v`, `CompSpec.v`, `IterSpec.v`, `CountSpec.v`, `ViewSpec.v`, `AgainSpec.v`, `ArrSpec.v`, `CsSpec.v`, `ScanSpec.v`, `PortSpec.v`, `JavaSpec.v`, `IeeeSpec.v`, `InterSpec.v`, `OwnSpec.v`; for
  the changed versions of C105-C109, C112 and C113 `RepairSpec.v`, `GlibcSpec.v`, `ParseFixSpec.v`, `UtfFixSpec.v`, `MsgFixSpec.v`, `PctSpec.v`; those of C111 (`EdgeM.v`) are stated with `SeqSpec.v` and the definitions in `PropsText.v` and `PropsNull.v`, those of C114 (`AliasFixM.v`) with `AliasSpec.v`, those of C115 (`LazyFixM.v`) with `LazyFixSpec.v`, those of C116 (`DeepM.v`) with `DeepSpec.v`, those of C117 (`SerFixM.v`) with `CtxSpec.v` and the definitions in `PropsSerFix.v`, those of C118 (`AdaptM.v`) with `UserSpec.v`, those of C119 (`WrapM.v`) with `WholeSpec.v`.

## How the main results are proved

* Grammar (C01, C02, C37, C59): the index-based parser is proved equivalent to an inductive grammar over texts, both directions; so are its errors.
* Sequences (C13, C18-C20): `den s t` says that sequence `s` has text `t` and correct recorded lengths; `wden` only that it can be written
  and has text `t`. Every operation is a refinement of a list operation. `wden` is what survives the wrong lengths of composite slices.
* Integer and string conversions (C07-C12, C45): each formatter function denotes the text of a reference printf.
* Shortest decimals (C23-C25): the Schubfach argument over `Z`. The table is checked entry by entry (`GCheck.v`); that no double comes too close to
  a rounding boundary is certified by continued fractions (`CertTable.v`, `CertCheck.v`, `IrrCheck.v`).
* Floating conversions (C28-C36, C42): digit manipulations refine half-up rounding of rationals.
* Text of a double (C53): digit extraction keeps the invariant that the 28-bit fraction `y` stands for the digits still to come; the text is then
  `decimal_text` of the 17-digit significand without its trailing zeros, which meets the layout rules and determines the number.
* Reading back (C55-C57): the reader inverts the padded texts; rounding to 17 digits changes no decimal of a double; two decimals of 15 digits in the
  rounding interval of one normal double are equal; both roundings are monotone. C63 does the same for floats, where the text is a rounding of a
  decimal near the float, and C64 for decimal numbers, from the exact texts behind C34-C36.
* Finding fields again (C97): every number text is a word among blanks; the scanner skips blanks and takes the longest word; a word and its field read
  alike; a request with any flags, width and precision can be written as a directive, so C55 applies to each field.
* Agreement, order and length (C65-C67): consequences of the exact texts of the conversions.
* Concurrency (C16, C17, C22, C62): invariants over all interleavings. Sharing (C68): no set a client holds is held by a context.
* Arguments (C46-C52): for each kind of view (integer, int, char, floating-point, time) a specification of when a Java value has it and what it is,
  and one of when it does not; the two are exclusive and cover all values.
* Whole calls (C74): `WholeSpec.v` puts the specifications of all conversions, of '*' and of the errors together into one reference `says`; it is
  sound and complete for the format loop, so it is what C02-C52 amount to together.

## Findings

Deviations from the documented behaviour or from C, each with a theorem.

1. `AtomicSeqIterable.subSequence` records a wrong length for a slice over several leaves (`C19_length_refuted`). Seen by users:
   `%5.3s` of a composite `Seq` pads too much (`C12_composite_sequence_in_field_refuted`), `%10g` of `BigDecimal("100.50")` prints 14
   characters (`C07_decimal_general_notation_refuted`, also part of `C36_general_notation_refuted`). The recorded length and the excess padding are
   given exactly in `C19_recorded_length`, `C12_composite_sequence_exact`, `C07_decimal_general_notation_exact` (and C08, C45).
2. A formatter with thread-local cache is not re-entrant: when an argument's `toString()` uses the same formatter, "A%s" prints
   "AxAx" instead of "AAx" (`C16_reentrant_refuted`; what the outer call prints is given exactly in `C16_reentrant_exact`).
3. `%e` of `BigDecimal`/`BigInteger` with ten digits kept and exponent 9 prints a one-digit exponent, "1.234567890e+9" (`C35_exponent_nine`, `C35_scientific_notation_refuted`).
4. `%f` of `BigDecimal("0E+2")` prints "000.000000" (`C34_zero_with_negative_scale`, `C34_leading_zeros_refuted`).
5. `%e` and `%g` of `BigDecimal("0.00")` print an exponent, "0.000000e-02", "0e-02" (`C35_zero`, `C36_zero`).
6. `%g` of a `BigDecimal` picks the notation before rounding: 999999.5 gives "1000000", 0.000099999996 gives "1e-04" (`C36_general_notation_refuted`).
7. `%#g` in exponent notation does not pad to the precision: `Double.MIN_VALUE` gives "4.9e-324" (`C32_alternate_form_refuted`), 1E+10 gives "1e+10" (`C36_general_notation_refuted`).
   Normal doubles are affected only beyond 16 digits (`C32_alternate_form_normal_partial`, `C32_seventeen_digits_refuted`); with one digit the point is missing.
   What is printed for every double is given exactly by `C32_general_exact`, from the digits singled out by `ScaleSpec.its_digits`.
8. `%e` and `%g` of a `BigDecimal` whose scale is near `Integer.MIN_VALUE` may throw `ArithmeticException` (`C35_scientific_notation_refuted`):
   exactly when the last digit kept has an exponent above 2^31 (`C35_overflow`, `C36_overflow`).
9. Zero with `#`: `%#08x` gives "  000000", `%#.5o` four digits, `%#.0o` nothing (`C11_zero_with_alternate_form_refuted`, `C45_zero_with_alternate_form_refuted`).
10. `% .0d` of 0 prints nothing instead of a blank (`C09_space_with_zero_precision_refuted`).
11. A `*` width of `Integer.MIN_VALUE` counts as "no width" (`C14_min_value_refuted`, `C15_min_value_refuted`; `C14_min_value_exact`: it stands for the flag '-' alone).
12. Integer timestamps are not monotone: 4294967295 is in 2106, 4294967296 in 1970 (`C43_monotone_refuted`; the exact pairs: `C43_monotone_exact`).
13. The space flag is ignored for an infinity (`C42_space_flag_with_infinity_refuted`).
14. `EmptySeq.subSequence` out of range throws `IllegalArgumentException`, not `IndexOutOfBoundsException` (`C19_empty_exception_refuted`).
15. `%f` rounds the shortest decimal, not the value: `%.1f` of 0.15 is "0.2" (`C29_rounds_the_decimal_refuted`); the error stays within the
    bound of `C29_error_bound_partial`, and integers below 2^53 and values of at most 15 digits are rounded correctly (`C29_exact_values_partial`).
    It goes wrong exactly when a midpoint lies between the value and the decimal (`C29_wrong_exactly_across_a_midpoint_partial`).
16. A syntax error reported at the end of the source has no caret line (`C44_caret_at_end_refuted`; every other one has: `C44_message_exact`).
17. A lazy `Seq` with a wrong announced length is accepted by a `StringBuilder` target and rejected by any other (`C06_wrong_announced_length_refuted`).
18. `%a` of `BigDecimal`/`BigInteger` is rejected (`C36_hexadecimal_rejected`); `%.0a` counts as `%.1a` (`C33_hexadecimal_with_precision`).
19. `%d` of an `Instant` beyond the range of milliseconds, and of a `BigDecimal` too large for a `BigInteger`, throws `ArithmeticException` rather
    than `PrintfException` (`ni_far`, `ni_huge` in `C46_rejected`); `%t` of a negative number throws `IllegalArgumentException` (`C49_rejected`).
20. `Utils.join` of an `Iterable` guards every element but the first against a throwing `toString` (`C54_join_iterable_refuted`, `C54_join_iterable_exact`).
21. The parser keeps up to two stack frames per directive, so a long format overflows the stack of any size: "%%" repeated
    10000 times needs 20001 frames (`C60_bounded_stack_refuted`, `C60_exact_depth`).
22. `compile` of a source longer than 1431655765 characters throws `ArithmeticException`: the initial capacity, 1.5 times the length,
    exceeds an `int` (`C02_very_long_source_refuted`).
23. A `%` conversion with a flag, width or precision, like "%5%", is not the dead code its comment says: it takes an argument and prints the
    sign without the width (`C61_percent_needs_no_argument_refuted`, `C61_percent_with_a_width`).
24. The limit of 65536 on the cached builder is applied when the next call starts: an idle thread keeps a larger one
    (`C62_idle_builder_refuted`).
25. A `float` is printed from the shortest decimal of the double it widens to, not from its own: `%.9g` of 0.1f prints 0.100000001
    (`C63_shortest_decimal_refuted`), although README line 23-25 promises the shortest decimal for both types.
26. Since a double is printed from its shortest decimal, `%.20f` prints the double 0.1 below the BigDecimal 0.1 + 10^-20, which is smaller
    (`C64_mixed_monotone_refuted`).
27. `%f` of a `long` beyond 2^53 goes through `double`: 9007199254740993 prints "9007199254740992.000000" as a `Long` and "...993.000000" as a
    `BigInteger` (`C65_large_integers_refuted`).
28. Zero-padded numbers sort as texts only when none is negative (`C66_negative_numbers_refuted`).
29. `%f` of a `BigDecimal` has no bound on its length: `1E+2000000000` asks for two thousand million digits (`C67_decimals_are_unbounded`).
30. `%t` of a `double`, `byte`, `boolean`, `BigDecimal` or string throws an exception that names the internal `RefSlot` object instead of the
    argument (`C70_slot_instead_of_argument_refuted`).
31. `%a` of a negative `BigDecimal` throws an exception that names its absolute value (`C70_sign_is_lost_refuted`).
32. The `DateTimeException` behind a date that is no instant becomes part of the message, in brackets, instead of the cause
    (`C70_temporal_messages`, `C70_cause_refuted`).
33. `FormatContext.create` of a string with a character that is no flag throws `NullPointerException` (`C69_rejected_text`).
34. `%f` of a `BigDecimal` other than 0 whose scale exceeds the precision by more than 646456992 throws `ArithmeticException`, although the text is simply
    "0.000000" (`C34_tiny_numbers`, `C34_tiny_refuted`); so does `%d` when the scale exceeds 646456992.
35. `%4s` of the builder the call writes to pads first and reads the builder afterwards: a `StringBuilder` "ab" becomes "ab  ab  " instead of
    "ab  ab", any other `Appendable` such as a `StringBuffer` ends with `IllegalStateException` after the spaces
    (`C72_string_of_the_target`, `C72_padding_in_front_refuted`).
36. A precision counts UTF-16 units: `%.1s` of U+1F600 prints an unpaired surrogate, and so does `%c` (`C76_precision_refuted`,
    `C76_character_refuted`; exactly when: `C76_precision_exact`, `C76_character_exact`).
37. `Seq.join` of a list whose only element is null, and `append(null)`, `prepend(null)` on the empty sequence, return null; `Seq.wrap(null, start)`
    throws the exception of the virtual machine instead of the library's (`C77_join_refuted`, `C77_append_refuted`, `C77_wrap_tail_refuted`).
38. `Concat` chains built by `append` lean to the left, contrary to the comment of `Concat`: iterating over n appended parts takes n-2 places in
    the deque, more than its initial capacity from 8 parts on (`C78_right_leaning_refuted`, `C78_appends_exact`, `C78_initial_capacity`).
39. The description of a repeated flag quotes the name of the enum constant: "%--d" gives "Duplicate flag 'LEFT_JUSTIFY'" (`C80_flag_quote_refuted`,
    `C80_flag_is_never_quoted`); an unknown conversion outside the basic plane is quoted by half (`C80_utf16_refuted`).
40. `%e` and `%g` round the shortest decimal too: "%.0e" of 0.15, which is below 15/100, prints 2e-01 (`C82_nearest_refuted`), and beyond 17 digits
    zeros follow the decimal (`C82_many_digits_refuted`; exactly when: `C82_wrong_exactly_across_a_midpoint_partial`).
41. An argument of a class that implements `Seq`, but not `AtomicSeq`, cannot be padded: "%5s" writes the blanks and throws `ClassCastException`, since
    `ConcatIterator.next` casts every leaf (`C83_plain_sequences_refuted`; exactly when: `C83_plain_sequences_partial`).
42. `%s` of an object whose `toString` returns null throws `NullPointerException` (`String.format` prints null), after the text before it has been
    written (`C52_null_pointer`, `C52_null_example`); `%t` of a `java.sql.Date` passes on its `UnsupportedOperationException`
    (`C48_exceptions_of_the_object`).
43. `FormatContext` is `Serializable`, but holds a `DateTimeFormatter`, which is not: writing the context of a directive with a date pattern throws
    `NotSerializableException` (`C84_date_pattern_refuted`; exactly when: `C84_compiled_contexts_partial`). Reading checks nothing, so that a context
    may have a width above 65536 or no set of flags (`C84_read_checks_nothing_refuted`, `C84_what_can_be_read`).
44. Views of an array follow it, except slices of one character, which are copies (`C85_single_character_refuted`); their hash code is cached, so that
    equal sequences can have different hash codes once the array has been written to (`C85_hash_refuted`).
45. The action of a lazy sequence is handed the target itself if that is a `StringBuilder`: it can change the text written before
    (`C86_action_sees_the_target_refuted`), and what it wrote before it threw stays there (`C86_part_is_kept_refuted`).
46. Three examples in README.md can never be printed, whatever the format string and the arguments: `3.9265e+2`, `3.9265E+2` (an exponent has two
    digits, `C87_exponent_example_refuted`) and `-0xc.90fep-2` (the first digit is 0 or 1, `C87_hexadecimal_example_refuted`); `%g` is not the shortest
    of `%e` and `%f` (`C87_shortest_refuted`). The other rows of the table and the example call are right (`C87_example`, `C87_usage_example`).
47. `AtomicSeqIterable` has two ways to its leaves, `iterator()` and `unfold()`. Only a sequence with padding is traversed by `unfold()`, so a class whose
    two methods disagree prints one text under `%s` and another under `%5s` (`C88_unfold_in_other_order_refuted`), and one that unfolds to itself is
    printed by `%s`, while `%5s` writes the blanks and does not return (`C88_unfold_to_itself_refuted`).
48. The number of leaves of a `Concat` is an `int` that wraps around, and `upperCase()` passes it to `new ArrayList`. `Seq.concat(s, s)` 31 times on the
    empty sequence gives an object of 31 nodes and length 0 that `%s` prints but for which `%S` throws `IllegalArgumentException`. In the same way
    `toString()` of a concatenation longer than 2^31 - 1 characters, and so `%d` of it, throws `NegativeArraySizeException`. (`C90_upper_case_refuted`,
    `C90_to_string_refuted`; `C90_user_counts_example` for an `elementCount()` of a user class)
49. Text printed by `%f`, `%e` or `%g` and given to the same directive again as a string is printed unchanged (C92), with exactly these
    exceptions. (a) Six doubles next to a power of two, with 16 significant digits (`%.15e`, `%.16g`; two of them also with `%.273f` and `%.183f`):
    the decimal with 16 digits is nearest to the neighbouring double, whose own shortest decimal differs. (b) `21 * 2^-1074` with two digits:
    `%.1e` prints `1.0e-322`, then `9.9e-323`, because the shortest decimal always has two digits. (c) Numbers rounded up beyond the largest double:
    `%.0e` prints `2e+308` for `Double.MAX_VALUE`, then `Infinity`; `%f` never does this. The list of (a) comes from a check over all
    binary exponents (`AgainCheck.v`). The theorem assumes of `Double.parseDouble` what its documentation says (`reads_numerals` in `AgainSpec.v`,
    a hypothesis of the theorems; `J1` in `AgainP4.v` satisfies it).
50. The ranges the comments of `MathUtils.flog10pow2`, `flog10threeQuartersPow2` and `flog2pow10` give (`|e| <= 6432162` and so on, far beyond
    what the library needs) are right, and each is the largest possible: one further, and the result is wrong (C93, `C93_limits`).
    The proof compares `5^T` and `2^n` for exponents near `2^64` by interval arithmetic (`LogP.v`) and then has no cases left to check.
51. An array inside an `Object[]` prints with its identity (`[[I@1b6d3586]`), although the same array as an argument prints its elements:
    `ObjectTraits.asString` handles arrays at the top only (C94, `C94_nested_arrays_refuted`). `%S` of a `byte[]` converts the Base64 text to upper
    case, after which different arrays have the same text (`C94_upper_case_base64_refuted`).
52. `NumberForm.signum` is documented to be 0 for zero, but `DoubleWrapper` answers -1 for -0.0 (so `isZero` is false and `isNegative` true), and 1 for NaN
    (C95, `C95_signum_refuted`). The formatter relies on the former to print "-0.000000". `decimalLayout(p)` and `scientificLayout(p)` are documented to
    have `p` digits after the point; they have at most `p`, and `scientificLayout` may end in the point (`1.`). `hexLayout(0)` has all digits
    instead of none; the formatter never asks for it.
53. `%s` of a `CharSequence` prints the characters `charAt` answers and never calls `toString`; the number conversions and `*` call `toString` (C96,
    `C96_which_method_counts`, `C96_s_prints_toString_refuted`). A `toString` that answers null is rejected with a `PrintfException` by `%d`, but with a
    `NullPointerException` by `%f`, `%e`, `%g` and `%a` (`C96_null_text_refuted`), because `Double.parseDouble(null)` throws that. A negative
    `length()` gives an `IllegalArgumentException`.
54. The README calls the library glibc compliant (README.md:8, 21, 241). For the directives and arguments both languages have, the exact list of calls that
    print something else than C (C11 7.21.6.1 and Annex F, rounding to nearest) is `departs` of `PortSpec.v` (C98, `C98_one_directive`, an equivalence): finite doubles
    whose shortest decimal rounded half up and whose exact value rounded to even end in different digits (`%.1f` of 0.15, `%.0f` of 0.5; for `%f` these are the
    doubles with a midpoint between value and decimal, `C98_rounding_by_midpoints`); `%#g` in exponent style with one digit or more digits than the decimal has; `%a` with precision
    0; infinities and NaN in lower-case conversions (`Infinity`, `NaN`), NaN with `+`, and either with a blank for the sign; and zero for `% .0d`, `%#0Nx` and most `%#o`.
    Characters, strings and `%u` never differ. A call without such a directive prints a line of C (`C98_portable_calls`). Not compared: `%S`, `%p`,
    `%n`, `%t`, length modifiers, arguments C does not have (null, `Seq`, `BigInteger` beyond a type's range counts as an integer of any size, `BigDecimal`). Flags C leaves
    undefined for a conversion are taken as ignored, and Java's NaN as positive.
55. The README lists what differs from `String.format` in general terms (README.md:236-249). Moving a call from `String.format` to fast-printf changes its text only in the cases of `value_differs` of `JavaSpec.v` (C99, `C99_one_directive`, an equivalence), for the
    directives both accept and arguments of the JDK's own classes: `%#x` and `%#o` of 0 (`0` for `0x0` and `00`); negative `BigInteger`s in octal and hexadecimal (an exception for `-ff`) and
    others with a sign flag that shows; code points above 65535 under `%c` (one UTF-16 unit, truncated, for the pair); letters outside ASCII under `%S`; zeros at the end of `%g` (`2.5` for
    `2.50000`); the `+` in the exponent of `%a`; `% f` of an infinity with no room for the blank; and `%f` of a `BigDecimal` zero of negative scale (`0000.000000`). `null` prints under `%s` and
    `%S` only, where Java prints it under every conversion (`C99_null`). `%d`, `%s` and finite doubles under `%f` and `%e` never differ (`C99_never_differ`). The documentation of
    `java.util.Formatter` (Java SE 19 and later, whose `Double.toString` is the shortest decimal) was written down from memory, as the sandbox has no JDK; it is in `value_text` and `legal`.
    For `BigDecimal`s under `%e` and `%g` (`C99_decimals_like_java_refuted`): a zero with a scale, exponent 9 with ten digits kept, a scale that overflows, a
    notation chosen before rounding, zeros at the end, and `%5.1g` of 0.096, which is printed in a field two characters too wide. (The JDK's own code departs from
    its documentation in some of these; the documentation is what is compared.)
    Not compared: `Formattable` and other classes of the user, `%g` of `BigDecimal` zeros with a scale, `%a` with a precision, widths above 65536, `%n`, `%t`, argument indices, `,` and `(`.

56. Compiling is linear in the length of the format for every text, also for those it rejects (C101): at most four characters are looked at, copied or
    parsed per character of the source, and `%t%t...%t` shows that the factor cannot be lowered. What `DateTimeFormatter.ofPattern` does with its pattern is
    not counted.
57. Misleading messages of the sequence API (C102): the empty sequence answers a bad `subSequence` with an IllegalArgumentException without message and a
    bad `charAt` with the index only; `forArray(ch, 2, Integer.MAX_VALUE)` complains about `end: -2147483647`; a slice of a composite sequence reports the
    wrong length of finding C19 (`index: 1, size: 1` for the second of two characters). All other messages name what was asked for and the length of the text.
58. The cost claims of the javadoc hold (C103): appending creates one node, or two when the left part is a concatenation; rendering is one pass with two steps per
    piece; a directive makes at most ten pieces, so a call is linear in its output and the number of directives. Not said there: `charAt` on a concatenation starts
    from the first piece each time, so reading a `Seq` through the `CharSequence` interface (`chars()`, a loop over `charAt`) is quadratic in the number of pieces;
    and a text of 16 characters or more in upper case, or a padding of that size before JDK 21, is copied through an array ("without intermediate array copying").
59. Which directives say the same (C104). For %d %u %o %x %X %c %s %S %f %F %e %E %a %A %p %n %% every directive has a plainest form, and two directives are interchangeable exactly
    if these are equal; no interchangeable directive lacks one of its flags or has a smaller width: `%+05d` is `%+.4d`, `%05x` is `%.5x`, `%#o` is `%#.2o`, `%-1s` is `%1s`; but `%05d` is not `%.5d` (negative numbers), and `%#06o` is
    `%#6.6o` and not `%#.6o`, because the zeros in front of the number 0 are counted as if it had a prefix. `% 21e` is `%21e`, because the blank of the
    sign cannot be told from the padding when the field is wider than every number (the longest has a ten-digit exponent), and `% 20e` is not `%20e`; in the same way `% 24a` is `%24a`. `%#.0a` is `%.1a`, and `%.13a` is not `%a`. `%-3p` is `%p`, since the shortest text is like `a@0`. Not covered: %g, and %t, where it depends on which texts the JDK can produce.
60. Repairs for findings 1, 3, 4, 5, 6, 7, 9, 10, 11, 13 and 34 (C105). `RepairM.v` restates the eleven Java functions with a change of a line or
    two each, described beside the definition, and builds the whole call on them. `RepairSpec.v` is the reference of C74 with C's texts in place of the
    departures. Proved: every repaired call does exactly what that reference says; a call in which none of the listed cases occurs prints the same text or
    throws the same exception as before; a slice of a sequence has the right length; the width is a minimum without exception; a `double`, a `BigDecimal` and a
    `BigInteger` that stand for the same decimal print the same under %f %e %g. The list of cases (`touched`) is exact: a conversion makes something else of an
    argument after the repairs than before if and only if the argument is on the list; for %g of a BigDecimal this is a decision procedure (`g_differs`),
    which also says exactly when the unrepaired %g of C36 prints C's text. Left as they are: the `ArithmeticException` of finding 8 and the exception class of
    finding 14 (see 65); the rounding of the shortest decimal (15, 26, 40) is a design decision and not changed. This file models no code of the repository: no other
    property depends on it.
61. What it takes to print what C prints (C106). On top of the repairs of 60 three changes are enough: `DoubleWrapper` takes its digits from
    `new BigDecimal(double)` rounded half to even, `%.0a` rounds its one digit, and infinities and NaN are spelled inf and nan with the sign of any other number
    (`GlibcM.v`). Proved: every call whose arguments C has prints a line of C, and where C has one line only (everything but %a, infinities and NaN) that line; the text of
    a directive changes exactly where finding 54 says that it departs from C; arguments that are not doubles are shown as in 60. So findings 7, 13, 15, 18 (%.0a),
    40 and 54 have one repair together, at the price of `BigDecimal` arithmetic for doubles. As with 60, no other property depends on these files.
62. A repair for the builder cache, findings 2 and 24 (C107). The factory takes the builder out of the `ThreadLocal` instead of sharing it, and `format(Args)` puts it back in a
    `finally` block unless it has outgrown the limit (`CacheM.v`). Proved for all histories, with calls made from `toString()` of arguments, exceptions and any interleaving of threads: every
    call returns what it returns without a cache; no builder is used by two calls; the cached builder is never larger than 65536 unless configured so; the next call reuses the builder
    of the last. For histories without re-entry the same calls are finished at every moment with the same results as before.
63. Repairs for the parser, findings 16, 21, 22 and 39 (C108). `compile()` as a loop, the repeated flag character and the whole code point in the descriptions, a caret also at the end of
    the source, and a capacity of at most `Integer.MAX_VALUE - 8` (`ParseFixM.v`). Proved for every format string: one frame is enough, and the pieces, kinds, indices and causes are those of
    the parser of the repository; every description is the one of C80 except for the two kinds concerned, which quote the text at the index; a well-formed UTF-16 source has a well-formed
    description; every syntax error has its caret; no source is too long. No other property depends on these files.
64. A repair for finding 36 (C109). A precision that would separate a surrogate pair cuts one character earlier, and %c of a surrogate shows the pair the text of the argument starts
    with, or U+FFFD (`UtfFixM.v`). Proved for every format and all arguments: every call does what the reference of `UtfFixSpec.v` says; well-formed formats, texts, dates and class names give
    well-formed output, without the conditions of C76; every call ends with the same exception or without one, as before; a conversion of a well-formed argument shows something else
    exactly where it showed something ill-formed. What the repair costs: "%c%c" of the two halves of a pair no longer prints the pair (`C109_well_formed_calls_are_kept_refuted`). No other property
    depends on these files.
65. Repairs for findings 14, 20, 33 and 37 (C111, `EdgeM.v`): the empty sequence checks the positions of `subSequence` as the others do; `Utils.join` shows its first element and a single
    object by `lenientToString`; `FormatContext.create` refuses a character that is no flag with an IllegalArgumentException; `Seq.wrap(s, start)`, `append`, `prepend` and `join` refuse null by
    name. With the repair of finding 1, `subSequence` gives the slice or an IndexOutOfBoundsException for every sequence and all positions. Nothing changes where nothing was wrong.
66. Repairs for findings 30, 31 and 32 (C112, `MsgFixM.v`): the messages of the failed conversions and directives are built from `lenientToString(asObject())` instead of the `RefSlot`, the
    absolute value, the class alone or nothing, and the `DateTimeException` is passed as the cause. Every message then contains the text of the argument, and the same calls fail as before.
67. A repair for finding 23 (C113, `PctM.v`): `DefaultAppender.append` fetches no argument for the conversion `%` and justifies the sign. "%5%" then prints four blanks and the sign whatever the
    arguments are; in any format it does what the padded sign written out would do, and formats without it are not affected.
68. A repair for finding 35 (C114, `AliasFixM.v`): `CharSequenceTraits.asSeq` copies the text at once. Every directive then prints the target of the call as it is when the directive starts, for all
    kinds of targets, and all other arguments print as before. (The price, one copy of the text of each `CharSequence` other than `String`, is not modelled.)
69. A repair for findings 17 and 45 (C115, `LazyFixM.v`): `LazySeq.appendTo(StringBuilder)` appends the cached, measured string as `appendTo(Appendable)` does. Whatever the lazy parts of the arguments do,
    all targets then receive the same text and outcome, and what a target held before stays; arguments that keep to their text print as before. (The price is the copy that handing over the builder saves, not modelled.)
70. A repair for the first half of finding 51 (C116, `DeepM.v`): elements that are arrays print as arrays do, and an array inside itself as `[...]`. Every array then has a text, also in a heap with cycles;
    without cycles an array prints as the format `[%s, ..., %s]` prints its elements (`C116_prints_like_its_elements`), and arrays without arrays inside print as before. `deepArg` presents the array to
    `TraitsM.v` as an object with that text.
71. A repair for finding 43 (C117, `SerFixM.v`): `FormatContext` writes the pattern instead of the `DateTimeFormatter`, and reading goes through `create`. The context of every directive then comes back
    when written and read, nothing can be read that `create` would refuse, and streams of the present code without a fault are still read. Contexts with a formatter that was not made from a pattern are not modelled.
72. A repair for finding 41 (C118, `AdaptM.v`): `CharSequenceTraits.asSeq` hands over a `Seq` that is no `AtomicSeq` in an adapter that is one and delegates every method. Objects that keep the contracts of `Seq` then
    print like Strings in every call (`C118_sequences_print_like_strings`), and classes that implement `AtomicSeq` print as before, whatever their methods do. As in `UserM.v`, the class does not implement `AtomicSeqIterable`.
73. A repair for findings 8 and 19 (C119, `WrapM.v`): `DefaultAppender.append` wraps a RuntimeException of the conversion that is not a `PrintfException` in one. Every call with arguments of the library then fails with a
    `PrintfException` only (`C119_no_other_exception`), after the same text as before, and calls that succeed are not changed. `WrapM.v` also wraps the marker `OutOfFuel`; no call of the code gives it for the arguments of C52.

Noted while reading, following directly from the model: a literal width above 65536 throws `PrintfException`, not `PrintfSyntaxException`;
`put(Integer)` and `putInt` differ under `%p` only (`C40_boxing_is_irrelevant_without_p`);
`lenientFormat` overwrites its argument array;
`DateTimeFormatter.ofPattern` takes the default locale of the JVM when the format is compiled, so `%t` with a pattern that names months or days is the one
conversion that depends on a locale (the javadoc of `FastPrintf` calls formatting locale-agnostic);
`FormattedFPDecimal.valueOf` of a negative number throws `NullPointerException` (`DoubleWrapper` only passes absolute values).

## Mutation tests

`seeded/LOG.jsonl`: one line per wrong program. Each is an edit of one definition of the model in a copy of the development outside `/verif`;
the copy is built with `make -k` and the theorems of `Props*.v` that no longer hold are listed. `tightened` names theorems that were
strengthened after a mutant survived.
