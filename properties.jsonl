{"id": "C01", "title": "compile accepts exactly the documented directive grammar", "statement": "FastPrintf.compile(s) succeeds exactly when s is a concatenation of literal runs, '%%' pairs and directives %[flags][width][.precision]specifier[{date pattern}] with no flag repeated, an in-range width and precision and a valid date pattern, and the compiled directives are the ones this grammar assigns to s (the grammar is unambiguous).", "quantifier": "every string s, of any length and over all UTF-16 code units, and every date pattern validator", "why_tests_cant": "The set of format strings is infinite; tests exercise a few dozen patterns and cannot show that no malformed string is accepted or that no well-formed one is rejected.", "anchors": ["src/main/java/io/fastprintf/Compiler.java: parseNext, forPattern, flags, width, precision, dateTimeFormatter, specifier, forFixedString", "src/main/java/io/fastprintf/FastPrintfImpl.java: compile"]}
{"id": "C02", "title": "compile is total and its errors point inside the source", "statement": "For every string, compile terminates and either yields a formatter or throws a PrintfSyntaxException or PrintfException; no index-out-of-range or other runtime exception escapes, and the index carried by a PrintfSyntaxException is between 0 and the length of the source.", "quantifier": "every string s", "why_tests_cant": "A fuzz test samples finitely many malformed inputs; the claim is the absence of a stray StringIndexOutOfBounds for all of them.", "anchors": ["src/main/java/io/fastprintf/Compiler.java: compile, parseNext, checkSource", "src/main/java/io/fastprintf/PrintfSyntaxException.java: getIndex, getMessage"]}
{"id": "C03", "title": "literal text is reproduced verbatim", "statement": "A format string without '%' formats to itself for any arguments, and a format string obtained by doubling every '%' of a text formats to that text.", "quantifier": "every text and every argument list", "why_tests_cant": "Quantifies over all texts.", "anchors": ["src/main/java/io/fastprintf/Compiler.java: forFixedString, forPattern", "src/main/java/io/fastprintf/appender/FixedStringAppender.java: append"]}
{"id": "C04", "title": "arguments are consumed left to right, once each", "statement": "Each directive consumes one argument, preceded by one for a '*' width and one for a '*' precision, in that order; formatting a concatenation of formats over concatenated argument lists is the concatenation of the results; surplus arguments are ignored.", "quantifier": "every compiled format and every argument list", "why_tests_cant": "Universal over formats and argument lists, including arbitrarily many directives.", "anchors": ["src/main/java/io/fastprintf/appender/DefaultAppender.java: append, nextInt", "src/main/java/io/fastprintf/FastPrintfImpl.java: format", "src/main/java/io/fastprintf/ArgsImpl.java: iterator"]}
{"id": "C05", "title": "a missing argument is always reported", "statement": "If fewer arguments are supplied than the directives consume, format throws PrintfException; if at least that many are supplied, it never fails for lack of arguments.", "quantifier": "every compiled format and every argument list", "why_tests_cant": "Needs a count over arbitrary formats.", "anchors": ["src/main/java/io/fastprintf/appender/DefaultAppender.java: append, nextInt"]}
{"id": "C06", "title": "both output targets receive the same text", "statement": "format(args) returns exactly the text that format(appendable, args) appends to any Appendable, and that it appends to a StringBuilder, after whatever the target already holds; on failure the target holds a prefix made of the complete output of the directives before the failing one.", "quantifier": "every formatter, argument list and initial target content", "why_tests_cant": "The two sink code paths differ per sequence type; agreement is over all sequences.", "anchors": ["src/main/java/io/fastprintf/FastPrintfImpl.java: format(Appendable,Args), format(Args)", "src/main/java/io/fastprintf/seq/Seq.java: appendTo", "src/main/java/io/fastprintf/seq/AtomicSeqIterable.java: appendTo"]}
{"id": "C07", "title": "width is a minimum field width", "statement": "For every numeric, character and string conversion the output of a directive has length max(width, natural length): it is never truncated and is padded to exactly the width.", "quantifier": "every argument value, flag set, width 0..65536 and precision", "why_tests_cant": "Universal over values and flags; the known tests do not combine %g, BigDecimal and width.", "anchors": ["src/main/java/io/fastprintf/appender/SeqFormatter.java: width, spaceJustify, signAndJustify", "src/main/java/io/fastprintf/seq/AtomicSeqIterable.java: subSequence"]}
{"id": "C08", "title": "left/right justification only adds spaces on the stated side", "statement": "Without the 0 flag in effect the output is the unpadded conversion with spaces on the left, or on the right under '-'.", "quantifier": "every value, flag set, width and precision", "why_tests_cant": "Universal over values and flags.", "anchors": ["src/main/java/io/fastprintf/appender/SeqFormatter.java: spaceJustify"]}
{"id": "C09", "title": "%d prints the value and the value can be read back", "statement": "The output of %d for an integer, stripped of padding, is the decimal numeral of exactly that integer, with at least 'precision' digits and a '-' for negatives, '+'/' ' as flags request, zero padding placed after the sign, as C printf prescribes.", "quantifier": "every byte, short, int, long and BigInteger, including MIN_VALUE, and every flag set, width, precision", "why_tests_cant": "2^64 longs and unbounded BigIntegers.", "anchors": ["src/main/java/io/fastprintf/appender/SeqFormatter.java: d", "src/main/java/io/fastprintf/number/IntWrapper.java", "src/main/java/io/fastprintf/number/LongWrapper.java", "src/main/java/io/fastprintf/number/BigIntegerWrapper.java"]}
{"id": "C10", "title": "%u, %x, %o print the two's complement value of the argument's own width", "statement": "For a byte, short, int or long the digits printed denote the argument modulo 2^8, 2^16, 2^32 or 2^64 in base 10, 16 or 8; for a non-negative BigInteger they denote the value itself; a negative BigInteger is rejected with PrintfException.", "quantifier": "every value of every integer type", "why_tests_cant": "Value ranges too large to enumerate.", "anchors": ["src/main/java/io/fastprintf/appender/SeqFormatter.java: formatUnsignedInteger, x, o, u", "src/main/java/io/fastprintf/number/ByteWrapper.java", "src/main/java/io/fastprintf/number/ShortWrapper.java"]}
{"id": "C11", "title": "%x and %o with '#', precision and '0' follow C printf", "statement": "The result of %x/%o/%u equals the C11 printf result for the corresponding unsigned value for every combination of '-', '#', '0', width and precision.", "quantifier": "every unsigned value, flag set, width, precision", "why_tests_cant": "The combination space times the value space is infinite.", "anchors": ["src/main/java/io/fastprintf/appender/SeqFormatter.java: formatUnsignedInteger"]}
{"id": "C12", "title": "%s prints the whole text or exactly its first 'precision' characters", "statement": "%s outputs min(precision, length) leading characters of the argument's text, then pads to width; %S outputs the same with ASCII letters upper-cased.", "quantifier": "every text, flag set, width, precision", "why_tests_cant": "Universal over strings.", "anchors": ["src/main/java/io/fastprintf/appender/SeqFormatter.java: s", "src/main/java/io/fastprintf/seq/StrView.java", "src/main/java/io/fastprintf/seq/LazySeq.java"]}
{"id": "C13", "title": "upper-case conversions change ASCII lower-case letters only", "statement": "Upper-casing a sequence preserves its length and maps each a..z to A..Z and leaves every other UTF-16 unit unchanged, for every sequence representation, idempotently.", "quantifier": "every sequence", "why_tests_cant": "All 65536 units and all compositions.", "anchors": ["src/main/java/io/fastprintf/util/Utils.java: toUpperCase, isLowerCase", "src/main/java/io/fastprintf/seq/StrView.java: upperCase", "src/main/java/io/fastprintf/seq/CharArray.java: upperCase", "src/main/java/io/fastprintf/seq/Repeated.java: upperCase"]}
{"id": "C14", "title": "'*' width and precision follow C printf", "statement": "A directive with '*' behaves as the directive with the integer argument written in place: a negative width means '-' flag with the absolute value, a negative precision means no precision; out-of-range values throw PrintfException.", "quantifier": "every int argument and every directive", "why_tests_cant": "All 2^32 ints; the interesting one is a single corner value.", "anchors": ["src/main/java/io/fastprintf/appender/DefaultAppender.java: append", "src/main/java/io/fastprintf/FormatContext.java: setWidth, setPrecision, checkValue"]}
{"id": "C15", "title": "width and precision never exceed the documented maximum", "statement": "In every formatter obtained from compile, and in every context handed to a conversion at run time, width and precision are unset or in 0..65536.", "quantifier": "every format string and argument list", "why_tests_cant": "Invariant over all reachable contexts.", "anchors": ["src/main/java/io/fastprintf/FormatContext.java: checkValue, create, setWidth, setPrecision"]}
{"id": "C16", "title": "enabling the thread-local cache does not change any output", "statement": "For any history of format calls, on any number of threads in any interleaving, successful or failing, every call on a cached formatter returns what the uncached formatter returns.", "quantifier": "every formatter, every call history and every interleaving, including calls made from an argument's toString()", "why_tests_cant": "Histories and schedules are unbounded.", "anchors": ["src/main/java/io/fastprintf/FastPrintfImpl.java: constructor, format(Args), enableThreadLocalCache"]}
{"id": "C17", "title": "derived formatters do not affect the original", "statement": "enableThreadLocalCache and setStringBuilderInitialCapacity return formatters with the same output as the original, and capacity has no effect on output.", "quantifier": "every formatter, capacity and argument list", "why_tests_cant": "Universal.", "anchors": ["src/main/java/io/fastprintf/FastPrintfImpl.java: enableThreadLocalCache, setStringBuilderInitialCapacity"]}
{"id": "C18", "title": "the sequence API behaves as an immutable list of characters", "statement": "For every Seq built by the public factories and combinators, length, charAt, indexOf, isEmpty, startsWith, toString, appendTo, upperCase, append, prepend, concat and join agree with the same operations on the list of characters it denotes.", "quantifier": "every Seq expression tree", "why_tests_cant": "Unbounded tree shapes.", "anchors": ["src/main/java/io/fastprintf/seq/Seq.java", "src/main/java/io/fastprintf/seq/AtomicSeqIterable.java", "src/main/java/io/fastprintf/seq/Concat.java", "src/main/java/io/fastprintf/seq/SeqArray.java"]}
{"id": "C19", "title": "subSequence returns the requested slice", "statement": "s.subSequence(i,j) has length j-i and denotes characters i..j-1 of s, for all 0<=i<=j<=length, and throws IndexOutOfBoundsException otherwise.", "quantifier": "every Seq expression tree and all i, j", "why_tests_cant": "Unbounded tree shapes and indices; the tests compare toString() only.", "anchors": ["src/main/java/io/fastprintf/seq/AtomicSeqIterable.java: subSequence", "src/main/java/io/fastprintf/seq/StrView.java: subSequence", "src/main/java/io/fastprintf/seq/CharArray.java: subSequence", "src/main/java/io/fastprintf/seq/Repeated.java: subSequence"]}
{"id": "C20", "title": "iteration over a composite sequence yields its leaves in order and ends", "statement": "The iterator of any Concat or SeqArray terminates after exactly elementCount leaves, in left-to-right order.", "quantifier": "every Seq expression tree", "why_tests_cant": "Unbounded trees; needs a termination argument.", "anchors": ["src/main/java/io/fastprintf/seq/Concat.java: iterator", "src/main/java/io/fastprintf/seq/SeqArray.java: iterator, unfold"]}
{"id": "C21", "title": "lazily rendered numbers report their exact length before rendering", "statement": "For every int and long, the length the library announces for its text equals the length of that text, so no lazily rendered value is rejected for a length mismatch.", "quantifier": "every int and long", "why_tests_cant": "2^64 values.", "anchors": ["src/main/java/io/fastprintf/util/Utils.java: stringSize", "src/main/java/io/fastprintf/seq/LazySeq.java: buildEagerly", "src/main/java/io/fastprintf/traits/IntTraits.java", "src/main/java/io/fastprintf/traits/LongTraits.java"]}
{"id": "C22", "title": "lazy sequences are safe to read from several threads", "statement": "When any number of threads read the same lazy sequence concurrently, every read returns the text its action produces, whichever thread fills the cache.", "quantifier": "every number of threads and every interleaving of the cache reads and writes", "why_tests_cant": "Interleavings are unbounded and races are not reproducible.", "anchors": ["src/main/java/io/fastprintf/seq/LazySeq.java: getCachedString"]}
{"id": "C23", "title": "double to decimal conversion round-trips", "statement": "For every finite non-zero double v the decimal d computed for it is one that, read back with round-to-nearest-even, gives v.", "quantifier": "every finite double (2^64 bit patterns)", "why_tests_cant": "2^64 inputs; rounding-interval boundary failures hit isolated inputs.", "anchors": ["src/main/java/io/fastprintf/util/internal/DoubleToDecimal.java: toDecimal", "src/main/java/io/fastprintf/util/internal/MathUtils.java: g0, g1, flog10pow2, flog2pow10"]}
{"id": "C24", "title": "double to decimal conversion is shortest", "statement": "No decimal with fewer significant digits (but at least two) than d rounds back to v.", "quantifier": "every finite double and every shorter decimal", "why_tests_cant": "2^64 inputs times all decimals.", "anchors": ["src/main/java/io/fastprintf/util/internal/DoubleToDecimal.java: toDecimal"]}
{"id": "C25", "title": "double to decimal conversion is closest", "statement": "Among the decimals of the chosen length that round to v, d is closest to v, and on ties the one with even last digit.", "quantifier": "every finite double and every decimal of the chosen length", "why_tests_cant": "2^64 inputs times all decimals.", "anchors": ["src/main/java/io/fastprintf/util/internal/DoubleToDecimal.java: toDecimal"]}
{"id": "C26", "title": "the scaled-power table and logarithm shortcuts are exact where they are used", "statement": "Every g table entry is floor(10^-k * 2^-r)+1 for its k, and flog10pow2, flog10threeQuartersPow2 and flog2pow10 equal the exact floors for every argument the conversion passes.", "quantifier": "all 617 table entries and all arguments in range", "why_tests_cant": "A transcription error in one of 1234 constants only affects some inputs.", "anchors": ["src/main/java/io/fastprintf/util/internal/MathUtils.java: g, flog10pow2, flog10threeQuartersPow2, flog2pow10, pow10"]}
{"id": "C27", "title": "multiplyHigh fallback is the high word of the 128-bit product", "statement": "The pure-Java multiplyHigh(x,y) equals floor(x*y/2^64) for all signed longs.", "quantifier": "all pairs of longs", "why_tests_cant": "2^128 pairs.", "anchors": ["src/main/java/io/fastprintf/util/internal/MultiplyHigh.java: slowMultiplyHigh"]}
{"id": "C28", "title": "%f of a double prints exactly 'precision' fraction digits of the half-up rounded decimal", "statement": "For every finite double the output of %f is sign, integer part and exactly 'precision' digits, equal to the shortest decimal d of the value rounded half-up to 'precision' digits, with flags and width as for integers.", "quantifier": "every finite double, flag set, width, precision 0..65536", "why_tests_cant": "2^64 values times precisions.", "anchors": ["src/main/java/io/fastprintf/util/internal/FormattedFPDecimal.java: plain, round", "src/main/java/io/fastprintf/number/DoubleWrapper.java: decimalLayout", "src/main/java/io/fastprintf/appender/SeqFormatter.java: f, formatFractionalPart"]}
{"id": "C29", "title": "%f rounds the exact binary value correctly", "statement": "The decimal printed by %f is the multiple of 10^-precision nearest to the exact value of the double, as in glibc printf.", "quantifier": "every finite double and precision", "why_tests_cant": "2^64 values; the failing inputs are decimal near-ties.", "anchors": ["src/main/java/io/fastprintf/util/internal/FormattedFPDecimal.java: round"]}
{"id": "C30", "title": "%e of a double is normalised scientific notation", "statement": "For every finite double %e prints one non-zero leading digit (or 0), exactly 'precision' fraction digits, and a signed exponent of at least two digits, and denotes the half-up rounding of d to precision+1 significant digits.", "quantifier": "every finite double and precision", "why_tests_cant": "2^64 values times precisions.", "anchors": ["src/main/java/io/fastprintf/util/internal/FormattedFPDecimal.java: scientific, expChars", "src/main/java/io/fastprintf/appender/SeqFormatter.java: e"]}
{"id": "C31", "title": "%g picks the C notation and strips trailing zeros", "statement": "For every finite double %g uses scientific notation exactly when the decimal exponent X of the value rounded to P significant digits satisfies X < -4 or X >= P, prints no trailing fraction zeros without '#', and denotes the rounded value.", "quantifier": "every finite double, precision and flag set", "why_tests_cant": "The boundary cases around rounding up to a power of ten are sparse.", "anchors": ["src/main/java/io/fastprintf/util/internal/FormattedFPDecimal.java: general", "src/main/java/io/fastprintf/appender/SeqFormatter.java: g, stripTrailingZeros, padToPrecision"]}
{"id": "C32", "title": "%#g prints exactly 'precision' significant digits", "statement": "With '#', %g keeps trailing zeros so that exactly P significant digits appear, in both notations.", "quantifier": "every finite double and precision", "why_tests_cant": "Universal over values.", "anchors": ["src/main/java/io/fastprintf/appender/SeqFormatter.java: formatGDecimal, formatGScientific, padToPrecision"]}
{"id": "C33", "title": "%a prints a hexadecimal value equal to the argument, or its nearest-even rounding", "statement": "For every finite double the digits and exponent printed by %a denote exactly the value when precision is unset or at least 13, and otherwise the value rounded to 'precision' hex digits, ties to even.", "quantifier": "every finite double and precision", "why_tests_cant": "2^64 values.", "anchors": ["src/main/java/io/fastprintf/number/DoubleWrapper.java: hexLayout, simpleHexLayout", "src/main/java/io/fastprintf/appender/SeqFormatter.java: a"]}
{"id": "C34", "title": "%f of a BigDecimal is its exact half-up rounding", "statement": "For every BigDecimal the output of %f denotes the value rounded half-up to exactly 'precision' fraction digits, with no superfluous leading zeros.", "quantifier": "every unscaled value and scale, every precision", "why_tests_cant": "Unbounded values.", "anchors": ["src/main/java/io/fastprintf/number/BigDecimalWrapper.java: decimalLayout, decimalLayout0"]}
{"id": "C35", "title": "%e of a BigDecimal or BigInteger is normalised scientific notation", "statement": "For every BigDecimal the output of %e has one leading digit, exactly 'precision' fraction digits and a signed exponent of at least two digits, and denotes the half-up rounding of the value.", "quantifier": "every unscaled value and scale, every precision", "why_tests_cant": "Unbounded values; the failing digit counts are isolated.", "anchors": ["src/main/java/io/fastprintf/number/BigDecimalWrapper.java: scientificLayout, scientificLayout0"]}
{"id": "C36", "title": "%g of a BigDecimal follows the same rule as %g of a double", "statement": "For every BigDecimal %g prints at most 'precision' significant digits and chooses notation by the exponent of the rounded value.", "quantifier": "every unscaled value and scale, every precision", "why_tests_cant": "Unbounded values.", "anchors": ["src/main/java/io/fastprintf/number/BigDecimalWrapper.java: generalLayout"]}
{"id": "C37", "title": "a directive's pattern string compiles back to the same directive", "statement": "For every directive in a compiled format, its toString() is a format string that compiles to a single directive with the same flags, width, precision and specifier; the text lists the flags in the order of their constants, then width, precision and specifier.", "quantifier": "every compiled format", "why_tests_cant": "Universal over directives.", "anchors": ["src/main/java/io/fastprintf/FormatContext.java: toPatternString", "src/main/java/io/fastprintf/appender/DefaultAppender.java: toString"]}
{"id": "C38", "title": "the escaped rendering of literal text is reversible", "statement": "Two literal pieces have the same toString() only if they are the same text, and the rendering contains no line breaks or tabs.", "quantifier": "every pair of texts", "why_tests_cant": "Universal over texts.", "anchors": ["src/main/java/io/fastprintf/appender/FixedStringAppender.java: toString"]}
{"id": "C39", "title": "the error message template engine loses no argument", "statement": "lenientFormat substitutes the i-th '%s' by the i-th argument, leaves surplus '%s' in place and appends surplus arguments in brackets, for every template and argument array.", "quantifier": "every template and argument list", "why_tests_cant": "Universal.", "anchors": ["src/main/java/io/fastprintf/util/Utils.java: lenientFormat"]}
{"id": "C40", "title": "Args records values in order and put(Object) picks the declared kind", "statement": "values() returns the put values in insertion order, put(Object) is equivalent to the specific put method for the dynamic type, and Args.of(a,b,..) equals the chain of puts.", "quantifier": "every sequence of put calls", "why_tests_cant": "Universal over sequences.", "anchors": ["src/main/java/io/fastprintf/ArgsImpl.java: put, values, iterator", "src/main/java/io/fastprintf/Args.java: of"]}
{"id": "C41", "title": "equal char-array sequences have equal hash codes and match String.hashCode", "statement": "equals on CharArray is an equivalence relation, equal instances have equal hash codes, and the hash is that of the text.", "quantifier": "every pair of arrays, offsets, lengths and upper-case flags", "why_tests_cant": "Universal over contents.", "anchors": ["src/main/java/io/fastprintf/seq/CharArray.java: hashCode, equals"]}
{"id": "C42", "title": "the sign of a number is printed once and correctly, including negative zero and NaN", "statement": "For every double, '-' is printed exactly when the sign bit is set and the value is not NaN; '+' or ' ' exactly as flags request for the others.", "quantifier": "every double including zeros, infinities and NaNs", "why_tests_cant": "2^64 patterns.", "anchors": ["src/main/java/io/fastprintf/appender/SeqFormatter.java: sign, nanOrInfinity", "src/main/java/io/fastprintf/number/DoubleWrapper.java: signum, isNegative"]}
{"id": "C43", "title": "integer timestamps map to instants monotonically", "statement": "For %t a larger epoch argument never denotes an earlier instant.", "quantifier": "every pair of longs", "why_tests_cant": "The discontinuity is at one boundary value.", "anchors": ["src/main/java/io/fastprintf/util/Utils.java: longToInstant"]}
{"id": "C44", "title": "the caret of a syntax error points at the reported index", "statement": "The message of a PrintfSyntaxException is the description, the source and a line whose caret is at column index, for every source.", "quantifier": "every source and index", "why_tests_cant": "Universal over sources.", "anchors": ["src/main/java/io/fastprintf/PrintfSyntaxException.java: getMessage"]}
{"id": "C45", "title": "'0' pads numbers with zeros up to the width", "statement": "For %d, %u, %x, %o, %f, %e, %g, %a with '0' set, no '-' and (for integers) no precision, the output of a finite value contains no padding spaces and has at least 'width' characters.", "quantifier": "every value, width and remaining flags", "why_tests_cant": "Universal; the failing values are zero under '#'.", "anchors": ["src/main/java/io/fastprintf/appender/SeqFormatter.java: signAndJustify, formatUnsignedInteger, d"]}
{"id": "C46", "title": "every argument is one integer for the integer conversions or is rejected with a documented error", "statement": "For %d %i %u %x %X %o, every Java value either stands for exactly one integer (which is what is printed) or the call throws PrintfException for a wrong type, or the ArithmeticException of the JDK conversion, without output; null is rejected.", "quantifier": "every Java value of every argument class, every directive", "why_tests_cant": "Fifteen argument classes times six conversions times all values.", "anchors": ["src/main/java/io/fastprintf/traits/ asIntForm", "src/main/java/io/fastprintf/appender/SeqFormatter.java: d, u, x, o"]}
{"id": "C47", "title": "every argument used for a '*' is one int or is rejected", "statement": "A '*' width or precision given by any argument works exactly as the int the argument stands for (narrowed, rounded or parsed by its class); an argument that is no number, or null, is rejected without output; an exception of a method of the argument passes through.", "quantifier": "every Java value, every directive with '*'", "why_tests_cant": "All classes and values.", "anchors": ["src/main/java/io/fastprintf/traits/ asInt", "src/main/java/io/fastprintf/appender/DefaultAppender.java: append"]}
{"id": "C48", "title": "%c prints one UTF-16 unit in its field", "statement": "For every argument %c prints the first unit of a text, or the low 16 bits of the int the argument stands for, padded to the width; the empty text, dates and other objects are rejected; exceptions thrown by the methods a conversion calls on an object pass through unchanged.", "quantifier": "every Java value, every %c directive", "why_tests_cant": "All classes and values.", "anchors": ["src/main/java/io/fastprintf/traits/ asChar", "src/main/java/io/fastprintf/appender/SeqFormatter.java: c"]}
{"id": "C49", "title": "%t prints the JDK text of the point in time the argument stands for", "statement": "%t/%T print DateTimeFormatter's text for the pattern given, or for the ISO format of the class, padded to the width; ints and longs are epoch seconds up to 32 bits and milliseconds above; everything else is rejected with the documented error.", "quantifier": "every Java value, every %t directive with or without pattern", "why_tests_cant": "All classes and values; the pattern grammar has quotes and braces.", "anchors": ["src/main/java/io/fastprintf/appender/SeqFormatter.java: t", "src/main/java/io/fastprintf/traits/ asTemporalAccessor", "src/main/java/io/fastprintf/util/Utils.java: longToInstant"]}
{"id": "C50", "title": "%p prints class name, '@' and the identity hash in unsigned hexadecimal", "statement": "%p prints the class name, '@' and the identity hash code as unsigned hexadecimal, 'null' for null, in its field; primitives are rejected.", "quantifier": "every argument and every %p directive", "why_tests_cant": "All hash codes, including negative ones.", "anchors": ["src/main/java/io/fastprintf/appender/SeqFormatter.java: p", "src/main/java/io/fastprintf/traits/RefSlot.java"]}
{"id": "C51", "title": "every argument is one number for the floating-point conversions or is rejected", "statement": "For %f %e %g %a every Java value is a double, a NaN, a BigDecimal or BigInteger, or is rejected with PrintfException without output; null is rejected.", "quantifier": "every Java value, every directive", "why_tests_cant": "All classes and values.", "anchors": ["src/main/java/io/fastprintf/traits/ asFloatForm"]}
{"id": "C52", "title": "a call ends with its text or with a documented error, never with an internal one", "statement": "For every format string that compiles and every list of Java values, format returns a String or throws PrintfException (missing argument, '*' out of range or no number, wrong type, negative BigInteger, %a of a decimal, %p of a primitive), IllegalArgumentException (negative epoch) or an exception of the JDK or of a method of the argument; NullPointerException only where an argument's toString returned null; never IndexOutOfBoundsException, NoSuchElementException or IllegalStateException.", "quantifier": "every compilable format string and every list of arguments of the modelled classes", "why_tests_cant": "All formats and argument lists.", "anchors": ["src/main/java/io/fastprintf/FastPrintfImpl.java: format", "src/main/java/io/fastprintf/appender/DefaultAppender.java: append", "src/main/java/io/fastprintf/appender/SeqFormatter.java"]}
{"id": "C53", "title": "DoubleToDecimal.toString writes exactly the text Double.toString is documented to write", "statement": "For every double the text is the one the rules of java.lang.Double.toString lay down (plain from 10^-3 to below 10^7, else mantissa and exponent, at least one fraction digit, no superfluous zeros) for the shortest decimal nearest to the double; different doubles have different texts; appendTo appends the same text; the 24-byte buffer never overflows.", "quantifier": "every bit pattern of a double", "why_tests_cant": "2^64 doubles; digits are extracted by multiplication with magic numbers.", "anchors": ["src/main/java/io/fastprintf/util/internal/DoubleToDecimal.java: toString, appendTo", "src/main/java/io/fastprintf/number/DoubleWrapper.java: toString"]}
{"id": "C54", "title": "joining never fails because of an element", "statement": "Utils.join appends the texts of the elements with the separator between them; an element whose toString throws is replaced by a description.", "quantifier": "every list of elements, every separator", "why_tests_cant": "All lengths and positions of a failing element.", "anchors": ["src/main/java/io/fastprintf/util/Utils.java: join, lenientToString"]}
{"id": "C55", "title": "what the floating-point conversions print reads back as the number printed", "statement": "Read by a strtod-like reader, the text of %f %e %g is, with its sign, exactly the rounded decimal of the double, whatever flags, width and case. With 17 significant digits (%.16e, %.17g) or 325 fraction digits (%.325f) the nearest double to the number read is the double printed, so that different doubles have different texts. %a without precision or with at least 13 digits reads as the exact value.", "quantifier": "every directive, every argument with a finite double value", "why_tests_cant": "2^64 doubles times all flags, widths and precisions.", "anchors": ["src/main/java/io/fastprintf/appender/SeqFormatter.java: f, e, g, a", "src/main/java/io/fastprintf/util/internal/FormattedFPDecimal.java", "src/main/java/io/fastprintf/number/DoubleWrapper.java"]}
{"id": "C56", "title": "a decimal of at most 15 digits keeps its digits on the way through a double", "statement": "If a decimal of at most 15 significant digits is read as a normal double, %f %e %g of the double print that decimal, rounded half up to the precision as if it had never been a double; for subnormal doubles the same holds for n digits when 10^n is less than the significand.", "quantifier": "every decimal of at most 15 digits, every directive", "why_tests_cant": "10^15 decimals per power of ten; depends on the uniqueness of short decimals within a rounding interval.", "anchors": ["src/main/java/io/fastprintf/util/internal/DoubleToDecimal.java: toDecimal", "src/main/java/io/fastprintf/util/internal/FormattedFPDecimal.java"]}
{"id": "C57", "title": "the floating-point conversions are monotone", "statement": "If one double is less than or equal to another, the number printed for it by %f, %e or %g with the same directive is less than or equal to the number printed for the other.", "quantifier": "every directive, every pair of arguments with finite double values", "why_tests_cant": "All pairs of doubles; rounding happens twice, to the shortest decimal and to the precision.", "anchors": ["src/main/java/io/fastprintf/appender/SeqFormatter.java: f, e, g", "src/main/java/io/fastprintf/util/internal/DoubleToDecimal.java: toDecimal"]}
{"id": "C58", "title": "formatting into an Appendable that throws", "statement": "The calls made on an Appendable target are a fixed sequence that spells exactly the text of the call, each within the bounds of the string it names; the first call that throws is the last one made, an IOException comes out as UncheckedIOException with that cause and any other exception as it is.", "quantifier": "every compiled format, every list of arguments whose lengths are right, every target, every point of failure", "why_tests_cant": "All targets and all failure points; a test fixes one target that throws at one point.", "anchors": ["src/main/java/io/fastprintf/FastPrintfImpl.java: format(Appendable, Args)", "src/main/java/io/fastprintf/seq/Seq.java: appendTo", "src/main/java/io/fastprintf/seq/AtomicSeq.java"]}
{"id": "C59", "title": "every syntax error is explained by the text", "statement": "A format string is refused with a given exception exactly when it is well-formed up to a '%' after which the text is wrong in the corresponding way: repeated flag, number beyond int, end of the source inside a directive, character that neither continues the directive nor is a conversion, unclosed, empty or invalid date pattern, width or precision beyond 65536; the index of the exception is that of the wrong part. After a repeated flag, an unknown conversion or an empty date pattern the rest of the source is irrelevant, and what comes before can be completed.", "quantifier": "every source text, every set of accepted date patterns", "why_tests_cant": "All malformed texts; tests check a few messages.", "anchors": ["src/main/java/io/fastprintf/Compiler.java: flags, width, precision, specifier, dateTimeFormatter", "src/main/java/io/fastprintf/FormatContext.java: create"]}
{"id": "C60", "title": "compilation needs a bounded stack", "statement": "There is a stack depth with which every well-formed format string compiles; the result never depends on the stack otherwise.", "quantifier": "every source text, every number of free stack frames", "why_tests_cant": "The depth of the recursion grows with the number of directives; tests use short formats.", "anchors": ["src/main/java/io/fastprintf/Compiler.java: parseNext, forPattern, forFixedString"]}
{"id": "C61", "title": "conversions without output", "statement": "%n prints nothing and takes exactly one argument of any kind, whatever its flags, width and precision; a % conversion prints a percent sign and takes no argument.", "quantifier": "every directive text with conversion n or %, every argument, every following format text", "why_tests_cant": "All flags, widths and arguments; the interaction with the arguments of the directives that follow.", "anchors": ["src/main/java/io/fastprintf/appender/DefaultAppender.java: createFormatter, append", "README.md: conversion table"]}
{"id": "C62", "title": "the cached builder is not kept too large", "statement": "Whatever calls were made before, on whatever threads, finished, failed or still running, a new call starts with an empty builder of at least the configured capacity and, if the configured capacity is at most 65536, of at most 65536; no thread keeps a larger one while idle.", "quantifier": "every formatter, every schedule of calls, every growth policy that at most doubles (plus two) or grows to what is needed", "why_tests_cant": "All histories of builder growth under all schedules.", "anchors": ["src/main/java/io/fastprintf/FastPrintfImpl.java: constructor (stringBuilderFactory), setStringBuilderInitialCapacity"]}
{"id": "C63", "title": "float arguments", "statement": "The text of a finite float with 9 significant digits (46 after the point for %f) reads back as that float, so different floats have different texts; a decimal of at most 6 digits read as a normal float and printed is unchanged; a precision that keeps the shortest decimal of the float prints that decimal.", "quantifier": "every directive %f %e %g with its flags, every finite float bit pattern, every decimal", "why_tests_cant": "All 2^32 floats, all directives; reading is real-number rounding.", "anchors": ["src/main/java/io/fastprintf/traits/FloatTraits.java: asFloatForm", "src/main/java/io/fastprintf/util/internal/DoubleToDecimal.java: toDecimal", "README.md: 23-25"]}
{"id": "C64", "title": "BigDecimal and BigInteger texts read back", "statement": "The text of %f, %e or %g for a BigDecimal or BigInteger is a numeral of the argument correctly rounded as the directive asks, despite the deviations of layout; with a precision that keeps all digits it is a numeral of the argument, so equal texts mean equal numbers; the order of the arguments is kept by the texts, also between doubles and BigDecimals.", "quantifier": "every directive, every decimal number within the stated sizes", "why_tests_cant": "All unscaled values and scales; needs an independent reader of numerals.", "anchors": ["src/main/java/io/fastprintf/appender/SeqFormatter.java: f, e, g", "src/main/java/io/fastprintf/number/BigDecimalWrapper.java"]}
{"id": "C65", "title": "the text depends on the number, not on its class", "statement": "Arguments of different classes that are the same integer get the same text from %d, %u, %x, %X and %o, %s and %d agree on integers, classes that convert to the same double get the same text from every floating-point conversion, a BigDecimal and the double whose decimal it equals get the same text from %f and %e, and an integer gets the same text from %f whether it is primitive or a BigInteger.", "quantifier": "every directive, every pair of arguments standing for the same number", "why_tests_cant": "All values of all classes; equality of texts across code paths that share nothing.", "anchors": ["src/main/java/io/fastprintf/ArgsImpl.java", "src/main/java/io/fastprintf/number/", "src/main/java/io/fastprintf/appender/SeqFormatter.java"]}
{"id": "C66", "title": "right-justified numbers sort as texts", "statement": "Non-negative integers printed with the same right-justified directive (without '#') to texts of the same length compare as texts (String.compareTo) exactly as they compare as numbers, whether padded with zeros, spaces or by precision; numbers that fit the field have texts of that length; the same, up to rounding, for %f of non-negative doubles. (Negative numbers do not.)", "quantifier": "every such directive, all pairs of arguments", "why_tests_cant": "All pairs of numbers and all widths.", "anchors": ["src/main/java/io/fastprintf/appender/SeqFormatter.java: d, u, x, o, f, signAndJustify"]}
{"id": "C67", "title": "length of the output", "statement": "The text of an integer conversion is no longer than the width or two more than the larger of the precision and the number of digits; of a floating-point conversion of any double, no longer than the width or the precision plus a constant (311 for %f, 9 for %e, 8 for %g, 24 for %a), so never more than 65847 characters. BigDecimals have no such bound.", "quantifier": "every directive, every integer, every double", "why_tests_cant": "All 2^64 doubles with all precisions.", "anchors": ["src/main/java/io/fastprintf/appender/SeqFormatter.java", "src/main/java/io/fastprintf/util/internal/FormattedFPDecimal.java"]}
{"id": "C68", "title": "contexts are immutable", "statement": "A FormatContext never changes: whatever a client does with the flag set it passed to create, with the sets getFlags returns and with the contexts it derives by setWidth, setPrecision and addFlag, every existing context keeps its flags, width and precision; all operations behave like operations on plain values.", "quantifier": "every sequence of operations, all flags, widths and precisions", "why_tests_cant": "Aliasing between mutable sets only shows for particular orders of operations.", "anchors": ["src/main/java/io/fastprintf/FormatContext.java:51-57", "src/main/java/io/fastprintf/FormatContext.java:79-131"]}
{"id": "C69", "title": "contexts from flag strings", "statement": "FormatContext.create(String, int, int) succeeds exactly when every character is a flag and both numbers are in range, gives the context with exactly the flags whose characters occur, and agrees with what the compiler makes of the same directive; toString determines flags, width and precision.", "quantifier": "every string, all widths and precisions", "why_tests_cant": "All strings; injectivity is about pairs of contexts.", "anchors": ["src/main/java/io/fastprintf/FormatContext.java:59-73", "src/main/java/io/fastprintf/FormatContext.java:134-136", "src/main/java/io/fastprintf/Flag.java:30-45"]}
{"id": "C70", "title": "messages name the rejected argument", "statement": "When an argument cannot be converted, the message of the PrintfException contains the text of the argument, verbatim even if it contains \"%s\", and the exception of the JDK behind it, if any, is its cause; a width or precision out of range is named with its value.", "quantifier": "every directive, every argument it rejects", "why_tests_cant": "All arguments; texts with placeholders inside.", "anchors": ["src/main/java/io/fastprintf/PrintfException.java", "src/main/java/io/fastprintf/traits/", "src/main/java/io/fastprintf/FormatContext.java:31-41", "src/main/java/io/fastprintf/number/BigIntegerWrapper.java:53-57", "src/main/java/io/fastprintf/number/BigDecimalWrapper.java:174-176"]}
{"id": "C71", "title": "debugging texts of numbers", "statement": "toString of a number wrapper is the decimal text of the number, that is the sign and the digits the formatter uses, also for the smallest number of each type; toString of a layout is the mantissa, and 'e' with the exponent if there is one.", "quantifier": "every integer of every type, every BigDecimal, every layout", "why_tests_cant": "All values including the extreme ones.", "anchors": ["src/main/java/io/fastprintf/number/"]}
{"id": "C72", "title": "the target of a call is also an argument", "statement": "When the Appendable a call writes to is also one of the arguments, every directive prints it as a String of the content it has when the directive starts.", "quantifier": "every format, every mixture of arguments, every content of the target", "why_tests_cant": "Depends on the order of reading and writing inside each Seq; all contents.", "anchors": ["src/main/java/io/fastprintf/FastPrintfImpl.java:94-119", "src/main/java/io/fastprintf/traits/CharSequenceTraits.java", "src/main/java/io/fastprintf/seq/LazySeq.java:98-151"]}
{"id": "C73", "title": "arguments with side effects", "statement": "Arguments are asked in order, each at most once and only by the one method its place in the format demands. Objects whose methods leave the Args alone print as if they had no effects; once a method has modified the Args nothing more is asked, and the call ends at the next directive that needs an argument with ConcurrentModificationException, or as for a missing argument if the Args now has as many elements as were asked.", "quantifier": "every format, every argument list, every effect of the methods on the Args and on the caller's state", "why_tests_cant": "Arbitrary effects at any point of the call.", "anchors": ["src/main/java/io/fastprintf/appender/DefaultAppender.java:91-122", "src/main/java/io/fastprintf/ArgsImpl.java:175-177", "src/main/java/io/fastprintf/FastPrintfImpl.java:80-119", "src/main/java/io/fastprintf/traits/FormatTraits.java"]}
{"id": "C74", "title": "one reference for whole calls", "statement": "A reference independent of the code says for every format string of the grammar and all arguments which text is written and which exception, if any, ends the call. It says exactly one thing, and every call writes exactly that text to its target and ends in exactly that way.", "quantifier": "every format string, every argument list of Java values, every kind of target and content already in it", "why_tests_cant": "Unbounded combinations of directives, '*' arguments, values and errors.", "anchors": ["src/main/java/io/fastprintf/FastPrintfImpl.java:80-119", "src/main/java/io/fastprintf/appender/DefaultAppender.java", "src/main/java/io/fastprintf/appender/SeqFormatter.java", "src/main/java/io/fastprintf/traits"]}
{"id": "C75", "title": "where the characters of the output come from", "statement": "Every character written by a call is a character of the format, a character of the text of an argument (also in upper case), or one of 43 printable ASCII characters the library adds itself: digits, letters of hexadecimal numbers, inf, nan and pointers, blank, sign, point and @.", "quantifier": "every format string, every argument list, whether or not the call ends with an exception", "why_tests_cant": "All formats and arguments; says that something never happens.", "anchors": ["src/main/java/io/fastprintf/appender/SeqFormatter.java", "src/main/java/io/fastprintf/appender/DefaultAppender.java", "src/main/java/io/fastprintf/FastPrintfImpl.java:80-119", "src/main/java/io/fastprintf/number/"]}
{"id": "C76", "title": "output is well-formed UTF-16", "statement": "If the format and the texts of the arguments contain no unpaired surrogates, neither does the output.", "quantifier": "every format string, every argument list", "why_tests_cant": "Depends on where each precision cuts each text; all texts.", "anchors": ["src/main/java/io/fastprintf/appender/SeqFormatter.java", "src/main/java/io/fastprintf/traits/CharSequenceTraits.java"]}
{"id": "C77", "title": "null parameters", "statement": "Every public entry point that does not allow null throws the NullPointerException of Preconditions.checkNotNull, which names the parameter, before it has any effect.", "quantifier": "every entry point, all other parameters, every list of sequences", "why_tests_cant": "All combinations of null with other parameters.", "anchors": ["src/main/java/io/fastprintf/util/Preconditions.java", "src/main/java/io/fastprintf/FastPrintf.java", "src/main/java/io/fastprintf/FastPrintfImpl.java:80-119", "src/main/java/io/fastprintf/Args.java", "src/main/java/io/fastprintf/seq/Seq.java", "src/main/java/io/fastprintf/seq/Concat.java:44-75"]}
{"id": "C78", "title": "memory of an iteration over a sequence", "statement": "Concatenations lean to the right, as the comment of Concat says, so that the iterator's deque never outgrows its initial capacity.", "quantifier": "every sequence built by concatenation, appending and prepending", "why_tests_cant": "Unbounded trees; the size of the deque is not visible from outside.", "anchors": ["src/main/java/io/fastprintf/seq/Concat.java:104-190"]}
{"id": "C79", "title": "independence of the Java version", "statement": "The choices made at class loading, Math.multiplyHigh (Java 9) or the fallback and StringBuilder.repeat (Java 21) or the fallback, have no effect on any output.", "quantifier": "every double, every sequence of repeated characters", "why_tests_cant": "A test runs on one Java version; 2^64 doubles.", "anchors": ["src/main/java/io/fastprintf/util/internal/MultiplyHigh.java", "src/main/java/io/fastprintf/util/internal/DoubleToDecimal.java", "src/main/java/io/fastprintf/seq/Repeated.java:30-77"]}
{"id": "C80", "title": "Syntax errors say what is wrong", "statement": "The exception for a malformed format string has the description of its kind of error and quotes the text of the format string that starts at the reported index; it has a cause exactly if DateTimeFormatter.ofPattern rejected the pattern. A width or precision out of range is named with its value.", "quantifier": "every malformed format string, every set of patterns that ofPattern accepts", "why_tests_cant": "The tests look at six descriptions; there are infinitely many malformed format strings and 14 places that describe them.", "anchors": ["src/main/java/io/fastprintf/Compiler.java:42-201", "src/main/java/io/fastprintf/PrintfSyntaxException.java:28-86", "src/main/java/io/fastprintf/Flag.java:4-46", "src/main/java/io/fastprintf/FormatContext.java:31-57"]}
{"id": "C81", "title": "Ignored parts of a directive change nothing", "statement": "A flag that is documented to be ignored may be left out without changing the outcome of any call: ' ' next to '+', '0' next to '-', '0' with a precision on integer conversions, '0', '#', '+' and ' ' on text conversions, '+' and ' ' on unsigned conversions, '#' on d, u and a, '#' on f and e when digits follow the point, '-' and '0' without a width. The order of the flags is irrelevant; a precision has no effect on c, p, t, n and %, a width none on n and %.", "quantifier": "every format string, every directive in it, all arguments", "why_tests_cant": "Combinations of 5 flags, widths, precisions, 21 conversions and all argument types; the tests cover a few dozen.", "anchors": ["src/main/java/io/fastprintf/Flag.java:6-28", "src/main/java/io/fastprintf/appender/SeqFormatter.java:30-420", "src/main/java/io/fastprintf/Compiler.java:80-130"]}
{"id": "C82", "title": "%e and %g round the exact binary value correctly", "statement": "The number printed by %e or %g is nearest to the exact value of the double among the decimals with as many significant digits, as in glibc printf.", "quantifier": "every finite double and precision", "why_tests_cant": "2^64 values; the failing inputs are decimal near-ties, and nearly all values when more than 17 digits are asked for.", "anchors": ["src/main/java/io/fastprintf/util/internal/FormattedFPDecimal.java", "src/main/java/io/fastprintf/number/DoubleWrapper.java:40-140", "src/main/java/io/fastprintf/appender/SeqFormatter.java"]}
{"id": "C83", "title": "Sequences of other classes print like their text", "statement": "Seq is a public interface, and an argument that implements it is used as it is. An object whose methods answer as those of a text must do is printed exactly like a String of that text, in every format string and for every target; the methods Seq implements by default are right for every such object.", "quantifier": "every class that keeps the contracts, every format string, all arguments", "why_tests_cant": "Quantifies over user classes; the tests have two.", "anchors": ["src/main/java/io/fastprintf/seq/Seq.java:275-387", "src/main/java/io/fastprintf/seq/Concat.java:65-172", "src/main/java/io/fastprintf/traits/CharSequenceTraits.java:66-75", "src/main/java/io/fastprintf/appender/SeqFormatter.java:32-44", "src/main/java/io/fastprintf/appender/SeqFormatter.java:344-351"]}
{"id": "C84", "title": "A format context survives serialization", "statement": "FormatContext implements Serializable. Writing a context to an object stream and reading it back gives a context with the same flags, width, precision and date formatter, and what can be read is what could have been created. (Found false: a context with a date pattern cannot be written, and reading skips every check. Exactly the contexts without a date pattern come back.)", "quantifier": "every context, those of every format string, every stream", "why_tests_cant": "The tests never serialize a context; a default constructor check would be needed for streams no writer produces.", "anchors": ["src/main/java/io/fastprintf/FormatContext.java:8", "src/main/java/io/fastprintf/FormatContext.java:16-20", "src/main/java/io/fastprintf/FormatContext.java:22-45"]}
{"id": "C85", "title": "Views of an array", "statement": "Seq.wrap(char[]) makes a view: the sequence, its slices and its upper-case version show what the array holds when they are asked, through any history of writes, slices and reads, and equal sequences have equal hash codes. (Found false: a slice of one character is a copy, and the hash code is cached. Everything else a client can see is given exactly.)", "quantifier": "every history of creating, wrapping, slicing, writing and reading, all arguments of these", "why_tests_cant": "Histories are unbounded; the tests never write to an array after wrapping it.", "anchors": ["src/main/java/io/fastprintf/seq/CharArray.java:24-38", "src/main/java/io/fastprintf/seq/CharArray.java:56-75", "src/main/java/io/fastprintf/seq/CharArray.java:84-95", "src/main/java/io/fastprintf/seq/CharArray.java:167-174", "src/main/java/io/fastprintf/seq/Seq.java:164-181"]}
{"id": "C86", "title": "Lazy sequences whose action fails", "statement": "An action of a lazy sequence that throws leaves no text behind, and one that succeeds only adds its text to the target. (Found false for StringBuilder targets, which are handed to the action. Exact: success and its text never depend on it, only the end of the text left by a failing call does, and only for StringBuilder targets; Java values of all other classes are not concerned.)", "quantifier": "every action, every way of leaving the builder, every format string, all arguments, every target", "why_tests_cant": "Quantifies over all actions and what they leave behind.", "anchors": ["src/main/java/io/fastprintf/seq/LazySeq.java:74-82", "src/main/java/io/fastprintf/seq/LazySeq.java:154-159", "src/main/java/io/fastprintf/seq/LazySeq.java:167-174", "src/main/java/io/fastprintf/FastPrintfImpl.java:94-119"]}
{"id": "C87", "title": "The examples of README.md", "statement": "README.md shows a call with its output, one example output per conversion, says that %g gives the shortest of %e and %f and that %2$s is rejected. Each of these is what the library does, for every argument the statement is about. (Found false for the examples of %e, %E and %a, which no directive prints for any argument, and for the length of %g; the others hold.)", "quantifier": "every directive with one of these conversions, all arguments, every time and its text, every argument index", "why_tests_cant": "That an output is impossible quantifies over all directives and arguments; the example call depends on the clock.", "anchors": ["README.md:100-120", "README.md:195-213", "README.md:246", "src/main/java/io/fastprintf/appender/SeqFormatter.java:32-44"]}
{"id": "C88", "title": "Composite sequences of other classes", "statement": "AtomicSeqIterable is public. An object of any class that implements it with iterator(), unfold(), elementCount() and toString() in agreement behaves in every call like the library's own array of the same leaves and length: same output, same exception, same output before the exception. (False without that agreement: the text then depends on whether the field is padded, and padding need not terminate.)", "quantifier": "all classes with such methods, including nested composites of any depth, all calls, both kinds of target", "why_tests_cant": "The classes are written by users; tests can only use a few of them.", "anchors": ["src/main/java/io/fastprintf/seq/AtomicSeqIterable.java:32-136", "src/main/java/io/fastprintf/seq/Concat.java:65-78", "src/main/java/io/fastprintf/seq/Concat.java:157-172", "src/main/java/io/fastprintf/appender/SeqFormatter.java:32-44", "src/main/java/io/fastprintf/appender/SeqFormatter.java:344-351"]}
{"id": "C89", "title": "Arguments from any iterator", "statement": "Args is a public interface. A call reads the iterator of any implementation like the list of what it supplies; it asks for exactly as many arguments as there are directives and '*', so an endless iterator is fine; next() is called only after hasNext() answered true, and nothing is called after a refusal or an exception; an exception of the iterator (or a null element) surfaces exactly where a missing argument would be reported, with the same output before it.", "quantifier": "all iterators (any state, answers, exceptions), all compiled formats, both kinds of target", "why_tests_cant": "The iterators are written by users and may be infinite or throw at any point.", "anchors": ["src/main/java/io/fastprintf/appender/DefaultAppender.java:91-122", "src/main/java/io/fastprintf/FastPrintfImpl.java:80-119", "src/main/java/io/fastprintf/Args.java:53"]}
{"id": "C90", "title": "Counts and lengths as capacities", "statement": "The number of leaves and the length that a composite sequence records are used as capacities of new collections (ArrayList, StringBuilder), whose constructors throw for negative values. Operations on sequences and format calls never fail for that reason.", "quantifier": "all sequences built by the API, all sequence expressions, all formats and arguments", "why_tests_cant": "The int counters wrap around only beyond 2^31 leaves or characters; shared nodes reach this with 31 objects.", "anchors": ["src/main/java/io/fastprintf/seq/AtomicSeqIterable.java:130-136", "src/main/java/io/fastprintf/seq/Concat.java:65-90", "src/main/java/io/fastprintf/seq/SeqArray.java:70-75"]}
{"id": "C91", "title": "The notations agree on the number", "statement": "%f, %e and %g print numerals of one and the same number whenever they keep the digits down to the same decimal position, also if one argument is a double and the other a BigDecimal or BigInteger with the same decimal; %e with precision p and %g with precision p + 1 always do.", "quantifier": "all doubles and decimals, all flags, widths and precisions of the two directives", "why_tests_cant": "Three formatters with separate rounding code over two number classes; a disagreement would need one number, two precisions and two notations at once.", "anchors": ["src/main/java/io/fastprintf/appender/SeqFormatter.java: f, e, g", "src/main/java/io/fastprintf/number/DoubleWrapper.java", "src/main/java/io/fastprintf/number/BigDecimalWrapper.java"]}
{"id": "C92", "title": "Printing what was printed", "statement": "A text printed by %f, %e or %g (any flags, width, precision) for a finite double, given to the same directive as a string, is printed unchanged, if and only if the number is not rounded up to 2^1024 - 2^970 or more and the double and precision are not among the pairs listed in AgainSpec.v (six doubles with 16 significant digits, one with two; for %f two pairs). %f never overflows.", "quantifier": "all finite doubles, all directives %f %F %e %E %g %G, given that Double.parseDouble reads numerals as documented", "why_tests_cant": "Rounding twice (to P digits, to the nearest double, to its shortest decimal, to P digits) is the identity for all but nine of 2^64 doubles times all precisions; no sampling finds the exceptions or shows there are no more.", "anchors": ["src/main/java/io/fastprintf/appender/SeqFormatter.java: f, e, g", "src/main/java/io/fastprintf/number/DoubleWrapper.java", "src/main/java/io/fastprintf/util/internal/DoubleToDecimal.java: toDecimal"]}
{"id": "C93", "title": "The integer logarithms over their documented ranges", "statement": "flog10pow2(e), flog10threeQuartersPow2(e) and flog2pow10(e) are the unique k with 10^k <= 2^e < 10^(k+1), 10^k <= 3/4 2^e < 10^(k+1) and 2^k <= 10^e < 2^(k+1), for all e in the ranges their comments give; the ranges are the largest possible; the constants C_10, A_10, C_2 are the floors the comments say.", "quantifier": "all exponents in the documented ranges: |e| <= 6432162, -3606689 <= e <= 3150619, |e| <= 1838394", "why_tests_cant": "The comparison is between integers of millions of digits for millions of exponents; the library itself only calls the functions for about 2000 of them.", "anchors": ["src/main/java/io/fastprintf/util/internal/MathUtils.java: C_10, A_10, C_2, flog10pow2, flog10threeQuartersPow2, flog2pow10"]}
{"id": "C94", "title": "Arrays as arguments", "statement": "%s of an array prints, in every field and with every precision, the text of the array: Base64 (RFC 4648, with padding) of a byte[], the characters of a char[], and otherwise what the format [%s, %s, ..., %s] prints for the elements. The Base64 text determines the bytes.", "quantifier": "all arrays, elements, fields and precisions; all byte arrays", "why_tests_cant": "Base64 is stated as an equality of numbers and proved for all lengths modulo 3; the elements are all Java values.", "anchors": ["src/main/java/io/fastprintf/traits/ObjectTraits.java: arrayToString, asString", "src/main/java/io/fastprintf/util/Utils.java: join, lenientToString", "src/main/java/io/fastprintf/appender/SeqFormatter.java: s"]}
{"id": "C95", "title": "What the number wrappers answer", "statement": "signum() is -1, 0 or 1 as the number is negative, zero or positive, and exactly the right one of isNegative, isZero, isPositive is true; the decimal, hexadecimal and octal strings of an integer wrapper are the digits of the absolute value and of the number modulo 2^bits; the decimal, scientific and hexadecimal layouts of a double with precision p show it rounded to p digits after the point, at most p of them written, with an exponent exactly in the latter two.", "quantifier": "every integer of every width, every BigDecimal, every double, all precisions", "why_tests_cant": "All values; the interface documentation is checked at -0.0, NaN and every rounding boundary at once.", "anchors": ["src/main/java/io/fastprintf/number/NumberForm.java", "src/main/java/io/fastprintf/number/IntForm.java", "src/main/java/io/fastprintf/number/FloatForm.java", "src/main/java/io/fastprintf/number/DoubleWrapper.java: signum, decimalLayout, scientificLayout, hexLayout"]}
{"id": "C96", "title": "CharSequences of user classes", "statement": "An argument whose class implements CharSequence and keeps its contract behaves in every call exactly like the String of the same text. Without the contract, %s, %S and %c print the characters length() and charAt() answer, every other conversion and '*' use toString(); an exception of one of these methods is the exception of the call, after exactly the output that had been written by then; null and negative answers are rejected.", "quantifier": "all CharSequence objects (arbitrary answers and exceptions of length, charAt, toString), all format strings, all other arguments, both kinds of target", "why_tests_cant": "Every implementation of an interface; tests use Strings and StringBuilders.", "anchors": ["src/main/java/io/fastprintf/traits/CharSequenceTraits.java", "src/main/java/io/fastprintf/seq/Seq.java: lazy", "src/main/java/io/fastprintf/seq/LazySeq.java", "src/main/java/io/fastprintf/appender/SeqFormatter.java: s, c"]}
{"id": "C97", "title": "The fields of a printed line can be found again", "statement": "If in a format string every directive is followed by the end or by text that does not start like a number, a scanner that knows the format string but not the arguments (so neither '*' widths nor precisions) finds the field of every number conversion in the printed line: the field is one nonempty word, possibly among blanks. Reading the words gives the numbers printed: every integer (precision other than 0) and every finite double printed with enough digits. So equal lines mean equal numbers. Without a separator, or with precision 0, this is false.", "quantifier": "all format strings of the grammar, all flags, widths, precisions, '*' arguments, all arguments of the number conversions", "why_tests_cant": "A statement on all tuples of arguments of all formats with arbitrary padding; it fails only for particular neighbours of particular directives.", "anchors": ["src/main/java/io/fastprintf/FastPrintfImpl.java: format", "src/main/java/io/fastprintf/Compiler.java", "src/main/java/io/fastprintf/appender/SeqFormatter.java"]}
{"id": "C98", "title": "Portable calls print what C prints", "statement": "README: the formatter is glibc compliant. For a format string of %d %u %x %X %o %c %s %f %F %e %E %g %G %a %A directives and arguments that C has, the printed line is one that C (C11 7.21.6.1 with Annex F, round to nearest even on the exact value) may print.", "quantifier": "all flags, widths, precisions, '*' arguments, all integers, characters, strings, and all doubles including zeros, subnormals, infinities and NaN", "why_tests_cant": "The disagreeing doubles are a thin set (a midpoint between the double and its shortest decimal), different for each precision; agreement on all others cannot be sampled.", "anchors": ["README.md: 8, 21, 241", "src/main/java/io/fastprintf/FastPrintf.java: 6-20", "src/main/java/io/fastprintf/appender/SeqFormatter.java", "src/main/java/io/fastprintf/number/FloatForm.java"]}
{"id": "C99", "title": "Calls moved from String.format print the same text", "statement": "README 236-249 lists the differences from String.format: glibc conventions (the example is %S), %p, no argument indices, no locale. Where none of those applies - a format string and arguments that java.util.Formatter (Locale.ROOT) accepts as well - both print the same text.", "quantifier": "all flags, widths and precisions both accept, of %d %o %x %X %c %s %S %f %e %E %g %G %a %A; null and all arguments of the JDK's own number, character and text classes", "why_tests_cant": "Two implementations agree on almost all of an infinite set of calls; only a proof finds every exception (e.g. '% #05o' of BigInteger.ZERO agrees while '% #02o' does not).", "anchors": ["README.md: 236-249", "src/main/java/io/fastprintf/FastPrintf.java: 6-60", "src/main/java/io/fastprintf/appender/SeqFormatter.java", "src/main/java/io/fastprintf/number/FloatForm.java"]}
{"id": "C100", "title": "Arguments become doubles by IEEE 754 arithmetic", "statement": "%f, %e, %g and %a of an argument that is not itself a double print the double that Java's operators give: (double) z for integers, characters and booleans, the same value for a float, getTime() / 1000D for a Date or Calendar and epochSecond + nano / 1000000000D for a point in time, each operation rounded to nearest, ties to even, in binary64 as IEEE 754 (Coq's standard library, SpecFloat) defines it. Every bit pattern is such a number and only NaN has several patterns.", "quantifier": "all 64-bit and 32-bit patterns, all long values, all instants with nanoseconds below 10^9; every argument whose double is not read from a text", "why_tests_cant": "Correct rounding of a quotient or sum can fail for isolated operands among 2^64 (double rounding, ties, subnormals); tests compare with the same hardware arithmetic.", "anchors": ["src/main/java/io/fastprintf/traits/ObjectTraits.java: 80-90", "src/main/java/io/fastprintf/traits/TemporalAccessorTraits.java: 24-34", "src/main/java/io/fastprintf/traits/FloatTraits.java: 26", "src/main/java/io/fastprintf/traits/LongTraits.java: 30", "src/main/java/io/fastprintf/number/FloatForm.java"]}
{"id": "C101", "title": "Compiling is linear", "statement": "FastPrintf.compile does work linear in the length of the format, whether it succeeds or throws: counting one step for each character that charAt or indexOf looks at, that substring copies and that Integer.parseInt is given, at most four steps per character of the source; at least one per character when it succeeds; four is the best factor.", "quantifier": "all format texts, valid or not, and all sets of accepted date patterns", "why_tests_cant": "A time measurement on some inputs does not bound the work on adversarial texts, e.g. on unclosed quotes, long digit runs or many tiny directives.", "anchors": ["src/main/java/io/fastprintf/Compiler.java: 23-214"]}
{"id": "C102", "title": "Index errors say what was asked for", "statement": "An index or a range that does not lie in a sequence is answered by an IndexOutOfBoundsException whose message names the index or range asked for and the length of the text; a wrong count, capacity, length or negative timestamp by an IllegalArgumentException naming the condition; a lazy sequence whose action writes another number of characters by an IllegalStateException naming both numbers.", "quantifier": "all sequences built with the public methods, all int indices, ranges, counts and capacities, all long timestamps", "why_tests_cant": "Which class of sequence performs the check, and with which size, depends on how the sequence was built; tests look at the exception type of a few cases.", "anchors": ["src/main/java/io/fastprintf/util/Preconditions.java: 9-56", "src/main/java/io/fastprintf/seq/AtomicSeqIterable.java: 32-75", "src/main/java/io/fastprintf/seq/EmptySeq.java: 27-40", "src/main/java/io/fastprintf/seq/LazySeq.java: 74-123", "src/main/java/io/fastprintf/seq/Seq.java: 102-217", "src/main/java/io/fastprintf/FastPrintfImpl.java: 131-138", "src/main/java/io/fastprintf/Args.java: 134-137", "src/main/java/io/fastprintf/util/Utils.java: 126-131"]}
{"id": "C103", "title": "Work of sequences and of a call", "statement": "Appending is O(1): at most two nodes are created, no character is copied. Rendering passes over the tree once: two deque operations per piece and at most three passes over each character. Each directive makes a bounded number of pieces, so a call does work linear in the length of its output, the number of directives and the number of pieces of Seq arguments.", "quantifier": "all sequences of any shape, all directives, flags, widths, precisions and arguments, all format strings and argument lists", "why_tests_cant": "A test measures time on a few inputs; a bound for all trees and all calls needs a count of the steps.", "anchors": ["src/main/java/io/fastprintf/seq/Concat.java: 18-30, 65-190", "src/main/java/io/fastprintf/seq/Seq.java: 18-24, 392-400", "src/main/java/io/fastprintf/seq/SeqArray.java: 60-120", "src/main/java/io/fastprintf/seq/AtomicSeqIterable.java: 66-102", "src/main/java/io/fastprintf/seq/Repeated.java: 61-77", "src/main/java/io/fastprintf/appender/SeqFormatter.java: 32-402", "src/main/java/io/fastprintf/number/BigDecimalWrapper.java: 25-171", "src/main/java/io/fastprintf/FastPrintfImpl.java: 80-119"]}
{"id": "C104", "title": "Interchangeable directives", "statement": "For %d %u %o %x %X %c %s %S %f %F %e %E %a %A %p %n %%: each directive has a computable plainest form that can be written and prints the same, with no flag that any directive printing the same lacks and no larger width than it; two directives of a conversion can stand for each other in every format string, with all arguments, exactly if their plainest forms are equal; otherwise a single argument, refused by neither, tells them apart.", "quantifier": "all pairs of directives without '*', all places in all format strings, all arguments and argument lists", "why_tests_cant": "That two directives always agree is a statement about all arguments; that no other pair agrees is a statement about all pairs of directives.", "anchors": ["src/main/java/io/fastprintf/appender/SeqFormatter.java: 32-402", "src/main/java/io/fastprintf/appender/DefaultAppender.java: 20-136", "src/main/java/io/fastprintf/FormatContext.java: 20-160", "src/main/java/io/fastprintf/Flag.java: 6-28"]}
{"id": "C105", "title": "Repairs for the wrong texts", "statement": "With the changes described in RepairM.v to eleven functions (findings 1, 3-7, 9-11, 13, 34) every call prints C's text of the shortest decimal or of the exact BigDecimal, with C's padding, or throws the documented exception; the text is at least as long as the width; equal numbers of different classes print the same under %f %e %g; subSequence returns the slice with its length. A conversion changes exactly for the listed arguments; a call in which none of them occurs prints the same text or throws the same exception as before the change.", "quantifier": "all format strings, all argument lists, both kinds of target, all Seqs and slices", "why_tests_cant": "That a fix removes a defect for all inputs and changes nothing else cannot be concluded from the inputs of a regression test.", "anchors": ["src/main/java/io/fastprintf/seq/AtomicSeqIterable.java: 32-57", "src/main/java/io/fastprintf/appender/SeqFormatter.java: 73-301", "src/main/java/io/fastprintf/appender/SeqFormatter.java: 344-351", "src/main/java/io/fastprintf/number/BigDecimalWrapper.java: 10-171", "src/main/java/io/fastprintf/appender/DefaultAppender.java: 98-122"]}
{"id": "C106", "title": "A version that prints what C prints", "statement": "With the digits of doubles taken from new BigDecimal(double) rounded half to even, the digit of %.0a rounded, and infinities and NaN spelled and signed as in C, on top of the changes of C105: every call whose arguments C has (integers, characters, texts, doubles) prints a line that C's fprintf may print, and the line where C leaves no choice. The text of a directive changes exactly where fast-printf departs from C (C98); arguments that are not doubles are shown as in C105.", "quantifier": "all format strings with '*' widths and precisions, all argument lists, both kinds of target", "why_tests_cant": "Whether a set of changes suffices for C's output concerns every double at every precision.", "anchors": ["src/main/java/io/fastprintf/number/DoubleWrapper.java: 8-153", "src/main/java/io/fastprintf/appender/SeqFormatter.java: 142-157", "src/main/java/io/fastprintf/appender/SeqFormatter.java: 303-338", "README.md: 8"]}
{"id": "C107", "title": "A builder cache that may be re-entered", "statement": "If a call takes the cached StringBuilder out of the ThreadLocal and puts it back when it ends (unless its capacity exceeds 65536 and the configured one does not), then for every history of calls, re-entrant ones and failing ones included, each call returns the text of the uncached formatter, no two calls in progress share a builder, the cached builder never exceeds the limit, and a call reuses the builder of the call that ended last. Where no call is re-entrant, nothing observable changes.", "quantifier": "all interleavings of calls on all threads, all growth policies of StringBuilder, all arguments", "why_tests_cant": "Re-entrancy needs an argument whose toString() formats with the same formatter at the right moment; interleavings cannot be enumerated.", "anchors": ["src/main/java/io/fastprintf/FastPrintfImpl.java: 24-66", "src/main/java/io/fastprintf/FastPrintfImpl.java: 80-91"]}
{"id": "C108", "title": "Repairs of the parser and of its messages", "statement": "The parser written as a loop, with the repeated character and the whole code point quoted, a caret also at the end of the source and a bounded capacity, gives for every format string the pieces, the kind of exception, the index and the cause of the parser of the repository. One frame of the stack is enough for any source. The description differs for a repeated flag and an unknown conversion only, and there it quotes the text at the index. A well-formed UTF-16 source has a well-formed description. Every syntax error has its caret. The call returns or throws one of the library's exceptions for sources of any length.", "quantifier": "all date patterns accepted by the JDK, all format strings, all numbers of free frames", "why_tests_cant": "Tests compare some format strings, and none of them is longer than the stack or the largest array.", "anchors": ["src/main/java/io/fastprintf/Compiler.java:23-79", "src/main/java/io/fastprintf/Compiler.java:191-214", "src/main/java/io/fastprintf/PrintfSyntaxException.java:71-86", "src/main/java/io/fastprintf/FastPrintfImpl.java:68-77"]}
{"id": "C109", "title": "A repair that never breaks a surrogate pair", "statement": "If %s and %S cut one character earlier where the precision would separate a surrogate pair, and %c shows for a surrogate the pair the text of the argument starts with or U+FFFD, then well-formed formats, texts, dates and class names give well-formed UTF-16 at every point of every call. Every call ends as before: it returns, or throws the same exception. Where the output was well-formed by C76 it is the same. A conversion of a well-formed argument shows something else exactly where it showed something ill-formed. For whole calls this last claim is false: two %c that print the two halves of a pair no longer do so.", "quantifier": "all format strings, all lists of arguments, both kinds of target, all JDKs as in C74", "why_tests_cant": "Tests look at a few texts; that no precision, width, argument class or shape of a sequence lets half a pair through is a claim about all of them.", "anchors": ["src/main/java/io/fastprintf/appender/SeqFormatter.java:340-351", "src/main/java/io/fastprintf/traits/CharSequenceTraits.java"]}
{"id": "C110", "title": "Every argument belongs to one directive", "statement": "A call does what one call per directive does, each with the next arguments, up to the first that throws. Which directive takes which argument depends on the format only. Another argument in one place changes the text or the exception of the directive that takes it and nothing else: the text before it is the same, and so is all that follows if neither call throws there. Arguments beyond those needed change nothing, and after an exception the arguments of later directives change nothing.", "quantifier": "all format strings, all lists of arguments whose sequences have correct lengths, both kinds of target, all JDKs; surplus arguments: any arguments at all", "why_tests_cant": "Tests try a few arguments; that no argument reaches into the field of another, in failing calls as well, is a claim about all pairs of calls.", "anchors": ["src/main/java/io/fastprintf/appender/DefaultAppender.java:91-122", "src/main/java/io/fastprintf/FastPrintfImpl.java:80-119"]}
{"id": "C111", "title": "Repairs at the edges of the API", "statement": "With the changes of EdgeM.v: subSequence of every sequence, the empty one included, returns the slice if the positions are in range and throws IndexOutOfBoundsException otherwise; join never fails, whatever the toString of the elements does, and an Iterable is joined as an array is; FormatContext.create throws IllegalArgumentException exactly if a character is no flag and the ranges are those of before otherwise; wrap, append, prepend and join refuse null by the name of the parameter and never return null. Where the functions did none of this wrong, they return what they returned.", "quantifier": "all sequences, all positions, all separators and elements, all flag strings, all null and other parameters", "why_tests_cant": "That no sequence, position or element is treated differently, and that nothing else changes, is a claim about all of them.", "anchors": ["src/main/java/io/fastprintf/seq/EmptySeq.java:37-40", "src/main/java/io/fastprintf/seq/AtomicSeqIterable.java:32-57", "src/main/java/io/fastprintf/util/Utils.java:89-120", "src/main/java/io/fastprintf/FormatContext.java:64-73", "src/main/java/io/fastprintf/seq/Seq.java:133-135", "src/main/java/io/fastprintf/seq/Seq.java:252-289"]}
{"id": "C112", "title": "Messages that always name the argument", "statement": "With the changes of MsgFixM.v, the message of every failed conversion and of every directive that rejects its argument contains the text of the argument, and the exception behind a date that is no instant is its cause. The same calls fail as before, and the messages that named the argument are kept, but for those of dates.", "quantifier": "all directives without pattern, all conversions, all arguments", "why_tests_cant": "That no argument and no directive is forgotten is a claim about all of them; texts with placeholders inside are among them.", "anchors": ["src/main/java/io/fastprintf/traits/FormatTraits.java:92-105", "src/main/java/io/fastprintf/traits/TemporalAccessorTraits.java:23-84", "src/main/java/io/fastprintf/traits/CharSequenceTraits.java:22-55", "src/main/java/io/fastprintf/number/BigDecimalWrapper.java:174-176", "src/main/java/io/fastprintf/appender/SeqFormatter.java:350-385"]}
{"id": "C113", "title": "A percent sign in a field takes no argument", "statement": "With the change of PctM.v, a % conversion with flags, a width or a precision prints the sign in its field and takes no argument. In every format, calling it does what the library does if the padded signs are written into the format instead; a '*' of such a conversion takes its own argument only. A format without such a conversion behaves as before.", "quantifier": "all format strings, all arguments, all entry points", "why_tests_cant": "All formats, with the sign at any place among other directives, and all argument lists.", "anchors": ["src/main/java/io/fastprintf/appender/DefaultAppender.java:98-122", "src/main/java/io/fastprintf/appender/DefaultAppender.java:82-85", "src/main/java/io/fastprintf/FastPrintfImpl.java:80-119"]}
{"id": "C114", "title": "The target as an argument, read at once", "statement": "With the change of AliasFixM.v, a call whose target is also one of its arguments prints, for every directive, the text the target has when the directive starts, whether the target is a StringBuilder or not; %s of it in any field is the target followed by that field. All other arguments, also other character sequences, print as before.", "quantifier": "all format strings, all mixtures of the target and other arguments, all contents of the target", "why_tests_cant": "All formats and contents; the fault needs a width, a text of two characters and the target as an argument at once.", "anchors": ["src/main/java/io/fastprintf/traits/CharSequenceTraits.java:63-76", "src/main/java/io/fastprintf/FastPrintfImpl.java:94-119", "src/main/java/io/fastprintf/seq/LazySeq.java:142-159"]}
{"id": "C115", "title": "Lazy sequences that never see the target", "statement": "With the change of LazyFixM.v, a call gives a StringBuilder the same text and the same outcome as any other target, whatever the actions of lazy sequences do and whatever length they announce; what the target held before stays in front. Arguments that keep to their text, all values of the library among them, print as before, and targets other than a StringBuilder see no change.", "quantifier": "all format strings, all arguments including lazy sequences with arbitrary actions, all contents of the target", "why_tests_cant": "The actions are arbitrary functions of the builder they are given.", "anchors": ["src/main/java/io/fastprintf/seq/LazySeq.java:142-159", "src/main/java/io/fastprintf/FastPrintfImpl.java:80-119"]}
{"id": "C116", "title": "Arrays of arrays", "statement": "With the change of DeepM.v, every array in every heap, with cycles or without, has exactly one text: elements that are arrays print as arrays, an array within itself as [...]. Unless some array contains itself, an array of objects prints as the format [%s, ..., %s] prints its elements. Arrays without arrays among their elements print as before.", "quantifier": "all heaps of arrays, all elements, all fields and precisions of %s and %S", "why_tests_cant": "Heaps of any shape and depth, cyclic ones included.", "anchors": ["src/main/java/io/fastprintf/traits/ObjectTraits.java:22-54", "src/main/java/io/fastprintf/util/Utils.java:88-145"]}
{"id": "C117", "title": "Contexts that can be written and read", "statement": "With the change of SerFixM.v, the FormatContext of every directive of every format string comes back when it is serialized and read, date patterns included. Whatever stream is read, the context is one that create accepts. Streams of the present code are read as before if their numbers are allowed and the set of flags is present, and rejected otherwise. Different contexts have different streams.", "quantifier": "all format strings, all contexts, all streams of fields, all sets of accepted date patterns", "why_tests_cant": "All streams, also those no context was written to.", "anchors": ["src/main/java/io/fastprintf/FormatContext.java:8-57"]}
{"id": "C118", "title": "Sequences of other classes, in an adapter", "statement": "With the change of AdaptM.v, an argument of any class that implements Seq and keeps its contracts behaves in every call exactly like a String with the same text, also when a width asks for padding and its class does not implement AtomicSeq. Arguments of classes that implement AtomicSeq print as before, whatever their methods do.", "quantifier": "all classes, all format strings, all mixtures of such objects and other arguments, all targets", "why_tests_cant": "Classes are arbitrary functions for the methods.", "anchors": ["src/main/java/io/fastprintf/traits/CharSequenceTraits.java:66-75", "src/main/java/io/fastprintf/seq/Concat.java:157-172"]}
{"id": "C119", "title": "Calls that fail with a PrintfException only", "statement": "With the change of WrapM.v, a call with arguments of the library succeeds with the same text as before or fails with a PrintfException, after writing the same text as before; a PrintfException of the code is passed on as it is.", "quantifier": "all format strings that compile, all lists of arguments, all targets, all JDKs within the stated limits", "why_tests_cant": "Which conversions throw depends on the values of the arguments.", "anchors": ["src/main/java/io/fastprintf/appender/DefaultAppender.java:98-122"]}
