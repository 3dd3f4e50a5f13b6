{"id": "C01", "title": "Single-bit write then read (2-state, zero-based ranges)", "statement": "For a bit vector declared [n-1:0] or [0:n-1], set(i,v) with an in-range i makes operator[](i) return v and leaves operator[](j) unchanged for every other in-range j.", "quantifier": "every width n>=1 (native and multi-word), every stored value, every pair of indices, both index directions", "why_tests_cant": "the width, the 64-bit word boundary and the value are unbounded; a test samples a few indices", "anchors": ["include/logic/bit.hh: bit::set, bit::operator[], bit::get_", "include/logic/big_num.hh: big_num::set, big_num::operator[]"]}
{"id": "C02", "title": "Single-bit write then read for any declared range", "statement": "The same read-after-write law for a range [msb:lsb] whose lower bound is not 0.", "quantifier": "every msb, lsb, value, index", "why_tests_cant": "ranges are arbitrary integers; the existing tests only use lower bound 0", "anchors": ["include/logic/bit.hh: bit::set, bit::get_"]}
{"id": "C03", "title": "Single-bit write then read (4-state)", "statement": "For logic [n-1:0], writing 0, 1, x or z to an in-range index makes operator[] return exactly that symbol, leaves every other index unchanged, and reading outside the declared range returns x.", "quantifier": "every width, every 4-state content, every index, every written symbol", "why_tests_cant": "4^n contents and all widths", "anchors": ["include/logic/logic.hh: logic::set, set_x, set_z, operator[], x_set, z_set"]}
{"id": "C04", "title": "Default construction", "statement": "A default-constructed bit reads 0 in every position; a default-constructed logic reads x in every position; neither has content above its width.", "quantifier": "every width", "why_tests_cant": "all widths, including each holder size and word boundary", "anchors": ["include/logic/bit.hh: bit::bit()", "include/logic/logic.hh: logic::logic()", "include/logic/bit.hh: bit::mask", "include/logic/big_num.hh: big_num::big_num(), mask"]}
{"id": "C05", "title": "Constant part-select of an unsigned vector", "statement": "slice<a,b>() of an unsigned vector [n-1:0] has width |a-b|+1, its bit k is the source bit min(a,b)+k, and it carries nothing above its width.", "quantifier": "every width, every stored value, every in-range a,b", "why_tests_cant": "all pairs (a,b) for all widths and values", "anchors": ["include/logic/bit.hh: bit::slice, slice_", "include/logic/big_num.hh: big_num::slice", "include/logic/logic.hh: logic::slice_"]}
{"id": "C06", "title": "Constant part-select of a signed vector", "statement": "slice<a,b>() of a signed vector obeys the same law as for an unsigned one and is always defined.", "quantifier": "every width, value, in-range a,b", "why_tests_cant": "the defect depends on the neighbouring bit of the selected range", "anchors": ["include/logic/bit.hh: bit::slice_ (shmnt)"]}
{"id": "C07", "title": "Run-time part-select", "statement": "slice<k>(a,b) and the indexed forms slice<k,true/false>(base) return the k selected bits of the vector whenever the range is inside the vector.", "quantifier": "every width, value, start and end", "why_tests_cant": "all start/end pairs", "anchors": ["include/logic/bit.hh: bit::slice_(int,int), slice(T base)", "include/logic/big_num.hh: big_num::slice(uint64_t,uint64_t)", "include/logic/logic.hh: logic::slice(int,int)"]}
{"id": "C08", "title": "Zero extension preserves value", "statement": "extend<m>() of an unsigned vector yields the same unsigned number in m bits (and the same x/z positions for logic, upper bits 0).", "quantifier": "every pair of widths n<=m, every value", "why_tests_cant": "all width pairs, native->native, native->multi-word and multi-word->multi-word", "anchors": ["include/logic/bit.hh: bit::extend", "include/logic/big_num.hh: big_num::extend", "include/logic/logic.hh: logic::extend"]}
{"id": "C09", "title": "Sign extension preserves value", "statement": "extend<m>() of a signed vector yields the same two's-complement number in m bits.", "quantifier": "every pair of widths n<=m, every value, both signs", "why_tests_cant": "needs both signs at every width pair", "anchors": ["include/logic/bit.hh: bit::extend", "include/logic/big_num.hh: big_num::extend"]}
{"id": "C10", "title": "Concatenation", "statement": "a.concat(b) has width |a|+|b|, low bits those of b and high bits those of a, for every instantiation the library offers.", "quantifier": "every pair of widths and values", "why_tests_cant": "integer promotion loses bits only at particular width combinations", "anchors": ["include/logic/bit.hh: bit::concat", "include/logic/logic.hh: logic::concat", "include/logic/big_num.hh: big_num::concat"]}
{"id": "C11", "title": "Concatenating a 4-state with a 2-state vector keeps x/z positions", "statement": "logic.concat(bit) shifts the x/z positions of the left operand together with its value bits; the bits coming from the 2-state operand are known.", "quantifier": "every width pair, every 4-state content", "why_tests_cant": "needs x in the left operand at arbitrary positions", "anchors": ["include/logic/logic.hh: logic::concat(const bit&)"]}
{"id": "C12", "title": "Unpack inverts concatenation", "statement": "unpacking {a,b,...} of total width n into variables of the same widths yields each variable's 4-state slice, most significant first, and concatenating these back gives the original.", "quantifier": "every list of widths, every 4-state content", "why_tests_cant": "arbitrary number and widths of targets", "anchors": ["include/logic/logic.hh: logic::unpack, unpack_", "include/logic/util.hh: reverse_tuple"]}
{"id": "C13", "title": "2-state bitwise operators", "statement": "&, |, ^ and ~ on bit vectors act position-wise on the declared positions; operands of different width are first extended to the larger width.", "quantifier": "every pair of widths, every pair of values", "why_tests_cant": "2^(n+m) values per width pair", "anchors": ["include/logic/bit.hh: operator&,|,^,~, and_, or_, xor_", "include/logic/big_num.hh: operator&,|,^,~"]}
{"id": "C14", "title": "Bits above the declared width stay clear", "statement": "An operation applied to vectors whose storage above the declared width is clear produces a vector whose storage above the declared width is clear (the code's own stated assumption for any_set, == and to_uint64).", "quantifier": "every operation, every width, every value", "why_tests_cant": "only shows for widths that do not fill their storage and for carrying values", "anchors": ["include/logic/bit.hh: any_set comment 'unused bit are always set to 0'", "include/logic/big_num.hh: any_set comment", "include/logic/bit.hh: operator+,-,*,<<,~,negate"]}
{"id": "C15", "title": "4-state AND truth table", "statement": "logic & logic of equal width gives in each position the IEEE 1800 table: 0 dominates, 1&1=1, otherwise x.", "quantifier": "every width, every pair of 4-state vectors", "why_tests_cant": "16^n operand pairs; the existing tests cover 5 of 16 single-bit pairs", "anchors": ["include/logic/logic.hh: logic::operator&"]}
{"id": "C16", "title": "4-state OR truth table", "statement": "logic | logic of equal width gives in each position the IEEE 1800 table: 1 dominates, 0|0=0, otherwise x.", "quantifier": "every width, every pair of 4-state vectors", "why_tests_cant": "16^n operand pairs", "anchors": ["include/logic/logic.hh: logic::operator|"]}
{"id": "C17", "title": "4-state XOR truth table", "statement": "logic ^ logic of equal width gives x where either operand is x or z and the exclusive or elsewhere.", "quantifier": "every width, every pair of 4-state vectors", "why_tests_cant": "16^n operand pairs", "anchors": ["include/logic/logic.hh: logic::operator^"]}
{"id": "C18", "title": "4-state XOR of different widths", "statement": "logic ^ logic of different widths equals the XOR of the operands extended to the larger width.", "quantifier": "every pair of different widths, every content", "why_tests_cant": "all width pairs", "anchors": ["include/logic/logic.hh: logic::xor_"]}
{"id": "C19", "title": "4-state NOT", "statement": "~ on logic maps 0->1, 1->0, x->x, z->x in each position and nothing else.", "quantifier": "every width, every 4-state vector", "why_tests_cant": "4^n contents", "anchors": ["include/logic/logic.hh: logic::operator~"]}
{"id": "C20", "title": "AND/OR on known operands are Boolean and agree with the 2-state operators", "statement": "If neither operand holds x or z, logic &,| produce no x or z and equal the position-wise Boolean operation; they are then commutative.", "quantifier": "every width, every pair of fully known vectors", "why_tests_cant": "4^n pairs per width", "anchors": ["include/logic/logic.hh: logic::operator&, operator|, and_, or_"]}
{"id": "C21", "title": "4-state reduction AND", "statement": "r_and is 0 if any bit is 0, else x if any bit is x/z, else 1.", "quantifier": "every width, every content", "why_tests_cant": "position of x relative to 0 matters; tests fix one order", "anchors": ["include/logic/logic.hh: logic::r_and, r_nand"]}
{"id": "C22", "title": "4-state reduction OR", "statement": "r_or is 1 if any bit is 1, else x if any bit is x/z, else 0.", "quantifier": "every width, every content", "why_tests_cant": "position of x relative to 1 matters", "anchors": ["include/logic/logic.hh: logic::r_or, r_nor"]}
{"id": "C23", "title": "4-state reduction XOR", "statement": "r_xor is x if any bit is x/z, else the parity of the ones; r_xnor is its 4-state complement.", "quantifier": "every native width, every content", "why_tests_cant": "depends on the parity of the width; tests use width 4 only", "anchors": ["include/logic/logic.hh: logic::r_xor, r_xnor", "include/logic/bit.hh: popcount"]}
{"id": "C24", "title": "2-state reductions", "statement": "bit::r_and is true iff all bits are 1, bit::r_or iff some bit is 1, bit::r_xor iff the number of ones is odd.", "quantifier": "every width, every value", "why_tests_cant": "all widths incl. 1 and multi-word", "anchors": ["include/logic/bit.hh: r_and, r_or, r_xor", "include/logic/big_num.hh: r_xor"]}
{"id": "C25", "title": "Truth value", "statement": "Converting to bool (and !) is true iff the vector has no x/z and some bit is 1; any_set is true iff some bit is set.", "quantifier": "every width, every content", "why_tests_cant": "the multi-word accumulator drops half of each word", "anchors": ["include/logic/bit.hh: any_set, operator bool", "include/logic/big_num.hh: any_set", "include/logic/logic.hh: operator bool, operator!"]}
{"id": "C26", "title": "Logical right shift", "statement": "a >> k gives floor(a / 2^k) on the unsigned reading of a, for every k including k >= width, at a's width.", "quantifier": "every width, value and amount, native and multi-word amounts", "why_tests_cant": "all amounts, including those at and above the width", "anchors": ["include/logic/bit.hh: operator>>", "include/logic/big_num.hh: operator>>", "include/logic/logic.hh: operator>>"]}
{"id": "C27", "title": "Left shift", "statement": "a << k gives a*2^k mod 2^n for every k including k >= width.", "quantifier": "every width, value and amount", "why_tests_cant": "all amounts", "anchors": ["include/logic/bit.hh: operator<<", "include/logic/big_num.hh: operator<<", "include/logic/logic.hh: operator<<"]}
{"id": "C28", "title": "Arithmetic right shift", "statement": "For a signed vector a.ashr(k) is floor(a/2^k) of the two's-complement value for every k; for an unsigned one it equals >>.", "quantifier": "every width, value and amount", "why_tests_cant": "one result bit depends on amount and sign; the existing test encodes a wrong expectation", "anchors": ["include/logic/bit.hh: ashr", "include/logic/big_num.hh: ashr"]}
{"id": "C29", "title": "Shifts with unknown operands", "statement": "If the value or the amount holds any x/z, every shift yields all x; otherwise the result is fully known.", "quantifier": "every width and content", "why_tests_cant": "every x position in either operand", "anchors": ["include/logic/logic.hh: operator>>, operator<<, ashr, ashl"]}
{"id": "C30", "title": "Equality", "statement": "For operands of the same signedness, a == b holds exactly when the two vectors denote the same number.", "quantifier": "every pair of widths, every pair of values", "why_tests_cant": "the truncating cast only shows on width mismatch with high bits set", "anchors": ["include/logic/bit.hh: operator==", "include/logic/big_num.hh: operator==", "include/logic/logic.hh: operator=="]}
{"id": "C31", "title": "Inequality is the negation of equality", "statement": "a != b is the (4-state) negation of a == b.", "quantifier": "every pair of widths and contents", "why_tests_cant": "all contents", "anchors": ["include/logic/bit.hh: operator!=", "include/logic/logic.hh: operator!="]}
{"id": "C32", "title": "Unsigned ordering", "statement": "For unsigned vectors >,<,>=,<= are the order of the denoted numbers; exactly one of <,==,> holds.", "quantifier": "every pair of widths and values that instantiate", "why_tests_cant": "all value pairs", "anchors": ["include/logic/bit.hh: operator>,<,>=,<=", "include/logic/big_num.hh: operator>,<,>=,<="]}
{"id": "C33", "title": "Signed ordering", "statement": "If both operands are signed the comparison is the order of the two's-complement values, and it terminates.", "quantifier": "every width, every pair of values", "why_tests_cant": "only the most negative value misbehaves", "anchors": ["include/logic/bit.hh: operator>", "include/logic/big_num.hh: operator> (signed branch)"]}
{"id": "C34", "title": "Mixed-sign comparison", "statement": "If one operand is unsigned the comparison is that of the unsigned readings at the common width (IEEE 1800 11.8.1).", "quantifier": "every width and value pair", "why_tests_cant": "needs negative operands in narrow holders", "anchors": ["include/logic/bit.hh: operator>,<,>=,<="]}
{"id": "C35", "title": "Comparisons with unknown operands", "statement": "==,!=,<,>,<=,>= on logic give x iff an operand holds x/z, and otherwise 0 or 1 as the 2-state comparison; comparing a bit with a logic gives false when the logic is unknown.", "quantifier": "every width and content", "why_tests_cant": "every x position", "anchors": ["include/logic/logic.hh: comparators", "include/logic/bit.hh: comparators with logic"]}
{"id": "C36", "title": "Case equality", "statement": "match is reflexive, symmetric and true exactly when all positions carry the same symbol; nmatch is its negation.", "quantifier": "every width and content (same declared type)", "why_tests_cant": "4^n contents", "anchors": ["include/logic/logic.hh: match, nmatch", "include/logic/bit.hh: match, nmatch"]}
{"id": "C37", "title": "Addition", "statement": "a + b at width max(|a|,|b|) has in its declared positions the binary digits of a+b modulo 2^width.", "quantifier": "every width pair, every value pair", "why_tests_cant": "carry chains of arbitrary length across words", "anchors": ["include/logic/bit.hh: operator+, add", "include/logic/big_num.hh: operator+, add", "include/logic/logic.hh: operator+"]}
{"id": "C38", "title": "Subtraction and negation", "statement": "a - b and -a are the corresponding differences modulo 2^width in the declared positions.", "quantifier": "every width pair, every value pair", "why_tests_cant": "borrow chains across words", "anchors": ["include/logic/bit.hh: operator-, negate", "include/logic/big_num.hh: operator-, negate, minus"]}
{"id": "C39", "title": "Multiplication", "statement": "a * b is the product modulo 2^width and is defined for every operand pair.", "quantifier": "every width pair, every value pair", "why_tests_cant": "out-of-bounds word writes and promoted-int overflow depend on operand magnitude", "anchors": ["include/logic/bit.hh: operator*", "include/logic/big_num.hh: operator*"]}
{"id": "C40", "title": "Division and remainder", "statement": "For b != 0, a/b and a%b satisfy a = q*b + r with 0 <= r < b on unsigned vectors.", "quantifier": "every width pair, every value pair", "why_tests_cant": "long division over arbitrarily many words", "anchors": ["include/logic/big_num.hh: div_mod, div_mod_unsigned, highest_bit", "include/logic/bit.hh: operator/, operator%"]}
{"id": "C41", "title": "Division by zero", "statement": "logic / and % by a zero divisor give all x (never a trap), and by a non-zero known divisor never x.", "quantifier": "every width and value", "why_tests_cant": "which divisors count as zero is a property of all values", "anchors": ["include/logic/logic.hh: operator/, operator%"]}
{"id": "C42", "title": "Unknown operands in arithmetic", "statement": "+,-,*,/,% and unary +,- on logic give all x iff an operand holds x/z (or the divisor is zero); otherwise the result is known and equals the 2-state result.", "quantifier": "every width and content", "why_tests_cant": "every x position", "anchors": ["include/logic/logic.hh: operator+,-,*,/,%, unary"]}
{"id": "C43", "title": "Arithmetic is defined behaviour", "statement": "No arithmetic operator on well-formed vectors executes undefined behaviour.", "quantifier": "every width, signedness and value pair", "why_tests_cant": "overflow in promoted types only at specific widths and extreme values", "anchors": ["include/logic/bit.hh: operator+,-,*,/,%", "include/logic/big_num.hh: operator*"]}
{"id": "C44", "title": "Increment and decrement", "statement": "++ and -- add and subtract 1 modulo 2^width; the post forms return the old value.", "quantifier": "every width and value", "why_tests_cant": "wrap-around value only", "anchors": ["include/logic/bit.hh: operator++/--", "include/logic/logic.hh: operator++/--"]}
{"id": "C45", "title": "Re-interpretation of sign", "statement": "to_signed and to_unsigned keep the bit pattern of the declared positions; to_unsigned(to_signed(v)) = v.", "quantifier": "every width and value", "why_tests_cant": "all widths", "anchors": ["include/logic/bit.hh: to_signed, to_unsigned", "include/logic/logic.hh: to_signed, to_unsigned"]}
{"id": "C46", "title": "Signed re-interpretation has the two's-complement value", "statement": "to_signed(v).to_num() is the two's-complement reading of the n bits of v.", "quantifier": "every width up to 64, every value", "why_tests_cant": "only for widths that do not fill their holder and the top bit set", "anchors": ["include/logic/bit.hh: to_signed, to_num, negative"]}
{"id": "C47", "title": "Number conversion", "statement": "to_num/to_uint64 of a known vector is its value (low 64 bits for multi-word), and 0 if any bit is x/z.", "quantifier": "every width and content", "why_tests_cant": "every x position", "anchors": ["include/logic/bit.hh: to_num, to_uint64", "include/logic/logic.hh: to_num, to_uint64"]}
{"id": "C48", "title": "Assignment between widths", "statement": "Assigning a wider vector keeps exactly the low n bits; assigning a narrower native one keeps its value.", "quantifier": "every width pair and value", "why_tests_cant": "needs high bits set in the source and later observation of the target", "anchors": ["include/logic/bit.hh: operator=", "include/logic/logic.hh: operator="]}
{"id": "C49", "title": "Part-select update of a logic vector", "statement": "update<hi,lo>(v) / update(hi,lo,v) / slice_ref = v put v's symbols (0-padded) in the selected positions and change no other position.", "quantifier": "every width, content, range and source", "why_tests_cant": "all ranges and sources", "anchors": ["include/logic/logic.hh: update, update_, slice_ref", "include/logic/bit.hh: slice_ref_fixed, slice_ref_runtime"]}
{"id": "C50", "title": "Part-select update of a bit vector", "statement": "update<hi,lo>(v) and update(hi,lo,v) on bit obey the same law.", "quantifier": "every width, content, range and source", "why_tests_cant": "ranges not starting at 0", "anchors": ["include/logic/bit.hh: update, update_"]}
{"id": "C51", "title": "Packed array element read", "statement": "arr[i] is element i (base_size bits) when i is an existing element, and x (0 for 2-state) when i is unknown or not an element.", "quantifier": "every element width, element count, content and index", "why_tests_cant": "the last element and indices just past the end", "anchors": ["include/logic/array.hh: packed_array::operator[]"]}
{"id": "C52", "title": "Packed array element write", "statement": "update(i,v) changes element i to v and no other element; it is a no-op for unknown or non-existing i.", "quantifier": "every element width, count, content, index and value", "why_tests_cant": "neighbouring elements must be compared for every index", "anchors": ["include/logic/array.hh: packed_array::update(const logic&, const K&)"]}
{"id": "C53", "title": "Packed array range read/write", "statement": "slice_array<hi,lo>() and update<hi,lo>(v) address exactly elements lo..hi.", "quantifier": "every element width, declared range and content", "why_tests_cant": "all ranges", "anchors": ["include/logic/array.hh: slice_array, update"]}
{"id": "C54", "title": "Unpacked array read/write", "statement": "update<i>(v) then [i] gives v, other elements unchanged; reading outside the declared range gives the default element; writing outside changes nothing.", "quantifier": "every declared range, content and index", "why_tests_cant": "declared ranges not starting at 0", "anchors": ["include/logic/array.hh: unpacked_array"]}
{"id": "C55", "title": "Binary literal parsing", "statement": "A binary literal denotes the vector of its digits, x and z included, underscores ignored, for native targets up to 64 digits.", "quantifier": "every digit string", "why_tests_cant": "4^n digit strings", "anchors": ["src/util.cc: parse_raw_str_, parse_xz_raw_str_, get_input_base"]}
{"id": "C56", "title": "Hexadecimal literal parsing", "statement": "A hex literal denotes the number of its digits, upper or lower case.", "quantifier": "every digit string", "why_tests_cant": "needs lower-case digits", "anchors": ["src/util.cc: parse_raw_str_ case 'h'"]}
{"id": "C57", "title": "Octal literal parsing", "statement": "An octal literal denotes the number of its digits with x/z groups of three.", "quantifier": "every digit string", "why_tests_cant": "all strings", "anchors": ["src/util.cc: parse_raw_str_ case 'o', parse_xz_raw_str_"]}
{"id": "C58", "title": "Decimal literal parsing", "statement": "A decimal literal denotes its number, underscores ignored: in a native vector of n bits the number modulo 2^n (for n = 1: the literals 0 and 1), in a wider vector the number itself for every value below 2^64 written with at most 64 characters.", "quantifier": "every digit string, width and signedness", "why_tests_cant": "all strings", "anchors": ["src/util.cc: parse_raw_str_ case 'd'"]}
{"id": "C59", "title": "Multi-word literal parsing", "statement": "A literal for a vector wider than 64 bits denotes the same number as its digits, for bases 2, 8, 16 and 10, with or without underscores.", "quantifier": "every digit string and width", "why_tests_cant": "chunk boundaries at 64 characters", "anchors": ["src/util.cc: parse_raw_str(value,size,ptr), parse_xz_raw_str, get_stride"]}
{"id": "C60", "title": "Binary formatting", "statement": "str(\"b\") of a logic vector is its symbols, most significant first, exactly n characters.", "quantifier": "every width and content", "why_tests_cant": "all widths incl. multiples of 64", "anchors": ["src/util.cc: to_string_, to_string", "include/logic/logic.hh: str"]}
{"id": "C61", "title": "Hex and octal formatting", "statement": "str(\"x\")/str(\"o\") of a known vector is its usual base-16/base-8 numeral, most significant digit first, zero padded to ceil(n/4)/ceil(n/3) digits.", "quantifier": "every width and value", "why_tests_cant": "all widths; word-crossing octal digits", "anchors": ["src/util.cc: fmt_value, to_string, format_value_2power", "include/logic/logic.hh: str", "include/logic/bit.hh: str"]}
{"id": "C62", "title": "Decimal formatting", "statement": "str(\"0d\") of a known vector is its decimal numeral (with '-' for negative signed values) and str(\"d\") pads it on the left with blanks to the width of the largest value.", "quantifier": "every width and value", "why_tests_cant": "all values; size 128 boundary", "anchors": ["src/util.cc: fmt_decimal, parse_fmt, pad_result, decimal_size_table"]}
{"id": "C63", "title": "x/z digits in formatted output", "statement": "A hex/octal digit position whose bits are all x prints 'x', all z prints 'z', some x prints 'X', some z but no x prints 'Z'; for decimal the same rule applies to the whole number.", "quantifier": "every width and content", "why_tests_cant": "all mixtures", "anchors": ["src/util.cc: fmt_value, fmt_decimal"]}
{"id": "C64", "title": "Format/parse round trip", "statement": "Parsing the binary or hex formatted text of a vector gives the vector back.", "quantifier": "every width and content", "why_tests_cant": "4^n contents", "anchors": ["src/util.cc: to_string, parse_raw_str, parse_xz_raw_str"]}
{"id": "C65", "title": "Field width handling", "statement": "The formatted text has at least the requested number of characters, \"0\" suppresses padding, and padding never changes the digits.", "quantifier": "every format string and value", "why_tests_cant": "all width/format combinations", "anchors": ["src/util.cc: parse_fmt, pad_result"]}
{"id": "C66", "title": "Compound assignment", "statement": "a op= b leaves in a the value of (a op b) reduced to a's width, for &=,|=,^=,>>=,<<=.", "quantifier": "every width pair and value", "why_tests_cant": "needs wider right operands", "anchors": ["include/logic/bit.hh: operator&= etc", "include/logic/logic.hh: operator&= etc"]}
{"id": "C67", "title": "Mixed-width arithmetic on unsigned operands equals arithmetic on zero-extended operands", "statement": "For unsigned operands of different width, a op b = extend(a) op extend(b), result width max.", "quantifier": "every width pair and value pair", "why_tests_cant": "all width pairs incl. native with multi-word", "anchors": ["include/logic/bit.hh: add, minus, multiply, divide, mod", "include/logic/logic.hh: add, minus, multiply, divide, mod"]}
{"id": "C68", "title": "Multi-word helper queries", "statement": "highest_bit is the index of the top set bit of a non-zero number; is_one iff the number is 1; fit_in_64 iff the number is < 2^64; all_set iff all declared bits are set.", "quantifier": "every width and value", "why_tests_cant": "only values with set bits in particular half-words differ", "anchors": ["include/logic/big_num.hh: highest_bit, is_one, fit_in_64, all_set"]}
{"id": "C69", "title": "Signed and unsigned literals", "statement": "N_logic and N_bit (and the 64-bit forms) denote N modulo 2^32 (2^64) as a signed vector with no x/z.", "quantifier": "every unsigned long long N", "why_tests_cant": "2^64 literals", "anchors": ["include/logic/logic.hh: operator\"\"_logic", "include/logic/bit.hh: operator\"\"_bit"]}
{"id": "C70", "title": "Signed division of native vectors truncates toward zero", "statement": "For signed vectors of at most 64 bits with a non-zero divisor (and excluding the most negative value divided by -1), a / b is the quotient of the signed values truncated toward zero and a % b has the sign of the dividend, so that a = (a/b)*b + a%b.", "quantifier": "every native width and pair of signed values with the stated exceptions", "why_tests_cant": "2^128 operand pairs; sign combinations at every width", "anchors": ["include/logic/bit.hh: operator/, operator%"]}
{"id": "C71", "title": "Last write wins (2-state)", "statement": "After any sequence of in-range set(i, b) and update(a, b, src) calls on a bit vector, every position holds what the last call covering it wrote, and the original value if no call covers it.", "quantifier": "every width, every initial value, every finite sequence of in-range writes with wide enough sources", "why_tests_cant": "sequences of unbounded length, overlapping in every way", "anchors": ["include/logic/bit.hh: set, update"]}
{"id": "C72", "title": "Last write wins (4-state)", "statement": "The same for logic vectors and set/set_x/set_z/update: every position holds the symbol (0, 1, x or z) the last covering call wrote.", "quantifier": "every width, initial value and finite sequence of in-range writes", "why_tests_cant": "sequences of unbounded length, overlapping in every way", "anchors": ["include/logic/logic.hh: set, set_x, set_z, update"]}
{"id": "C73", "title": "Counting with ++ and -- (2-state)", "statement": "Applying ++ (or --) k times to an n-bit vector gives the initial number plus (minus) k modulo 2^n.", "quantifier": "every width >= 2, signedness, initial value and k", "why_tests_cant": "needs 2^n steps to wrap around at every width", "anchors": ["include/logic/bit.hh: operator++, operator--"]}
{"id": "C74", "title": "Counting with ++ and -- (4-state)", "statement": "The same for logic vectors without x or z; a vector with an x or z becomes all x after one step and stays so.", "quantifier": "every width >= 2, signedness, initial value and k", "why_tests_cant": "unbounded number of steps", "anchors": ["include/logic/logic.hh: operator++, operator--"]}
{"id": "C75", "title": "Expressions over bit vectors compute modulo 2^n", "statement": "An expression built from n-bit unsigned variables with ~ - & | ^ + - * / % << >> evaluates to the n-bit vector of the same expression over the integers modulo 2^n.", "quantifier": "every width, all variable values, every expression tree (any depth)", "why_tests_cant": "expression trees of unbounded depth", "anchors": ["include/logic/bit.hh: operators ~ - & | ^ + * / % << >>"]}
{"id": "C76", "title": "Expressions over logic vectors follow IEEE 1800", "statement": "An expression built from n-bit unsigned logic variables evaluates, position by position, to the IEEE 1800 value: tables for bitwise operators, all x for arithmetic and shifts with an x or z operand and for division by zero, otherwise the integer result modulo 2^n.", "quantifier": "every width, all variable values (including x and z), every expression tree", "why_tests_cant": "expression trees of unbounded depth", "anchors": ["include/logic/logic.hh: operators ~ - & | ^ + * / % << >>"]}
{"id": "C77", "title": "Ring and Boolean algebra laws", "statement": "Both sides of each usual law (commutativity, associativity, distributivity, De Morgan, absorption, a-b = a+(-b), a-b = ~(~a+b), a+b = (a|b)+(a&b), ...) evaluate to the same vector.", "quantifier": "every width >= 2, all values of the operands, operands being arbitrary expressions", "why_tests_cant": "laws over all operand values and sub-expressions", "anchors": ["include/logic/bit.hh: operators ~ - & | ^ + *"]}
{"id": "C78", "title": "Comparing results of operators", "statement": "Comparing the results of two expressions with == < >= gives the comparison of their values modulo 2^n.", "quantifier": "every width, all variable values, every pair of expressions", "why_tests_cant": "the error depends on invisible storage left by earlier operators", "anchors": ["include/logic/bit.hh: operator==, operator<, operator>=, operator+, operator-, operator<<, operator~"]}
{"id": "C79", "title": "The comparison operators form a total order", "statement": "For vectors of one type exactly one of a<b, a==b, a>b holds; <=, >=, != are their combinations, swapping the operands mirrors the relation, == means equal in every position, and < <= == are transitive.", "quantifier": "every width, signedness, and pair or triple of values", "why_tests_cant": "all pairs and triples of values", "anchors": ["include/logic/bit.hh: operator<, operator<=, operator>, operator>=, operator==, operator!="]}
{"id": "C80", "title": "Division law", "statement": "For a non-zero divisor (a / b) * b + a % b equals a, and a % b < b.", "quantifier": "every width, every pair of unsigned values, a and b arbitrary expressions", "why_tests_cant": "2^(2n) operand pairs", "anchors": ["include/logic/bit.hh: operator/, operator%, operator*, operator+"]}
{"id": "C81", "title": "Shift laws", "statement": "For amounts below the width, (a << i) << j is a << (i+j), (a >> i) >> j is a >> (i+j), and shifting back and forth clears exactly the shifted-out positions.", "quantifier": "every width >= 2, value and amounts i, j with i + j below the width", "why_tests_cant": "all widths and amounts", "anchors": ["include/logic/bit.hh: operator<<, operator>>"]}
{"id": "C82", "title": "Replacing x and z by known values never changes known results", "statement": "If some x or z positions of the inputs of an expression are replaced by other values, the positions of the result that were 0 or 1 keep their value.", "quantifier": "every width, all inputs, every replacement, every expression tree", "why_tests_cant": "quantifies over pairs of executions", "anchors": ["include/logic/logic.hh: operators ~ - & | ^ + * / % << >>"]}
{"id": "C83", "title": "4-state and 2-state evaluation agree on known inputs", "statement": "On inputs without x or z, an expression over logic evaluates to a vector without x or z with the number the same expression over bit gives.", "quantifier": "every width, all known inputs, every expression tree", "why_tests_cant": "quantifies over pairs of executions of two implementations", "anchors": ["include/logic/logic.hh: operators", "include/logic/bit.hh: operators"]}
{"id": "C84", "title": "Part-selects and extensions compose", "statement": "A constant slice of a slice is the slice of the combined range; the low slice of an extended vector is the original vector; extending twice is extending once - as equal objects, for bit and logic.", "quantifier": "every unsigned vector of every width, every pair of nested in-range slices that compile, every pair of target widths", "why_tests_cant": "all widths, values and ranges; native and multi-word storage mix within one composition", "anchors": ["include/logic/bit.hh: slice, extend", "include/logic/logic.hh: slice, extend"]}
{"id": "C85", "title": "Concatenation composes", "statement": "Slicing a concatenation gives the operands back, concatenating the two parts of a vector gives the vector, concatenation is associative, and concat of any number of vectors puts each argument right above the following ones.", "quantifier": "all unsigned operands, every split position, any number of arguments", "why_tests_cant": "any number of operands of any widths", "anchors": ["include/logic/bit.hh: concat", "include/logic/logic.hh: concat"]}
{"id": "C86", "title": "Writing a range, then reading or writing again", "statement": "After update(a, b, v), a slice inside the range reads v, a slice outside reads the old vector; updates of disjoint ranges commute, and an update hides earlier updates of ranges inside its own.", "quantifier": "every width, value, and pair of in-range ranges in either bound order", "why_tests_cant": "all pairs of ranges and values", "anchors": ["include/logic/bit.hh: update, slice", "include/logic/logic.hh: update, slice"]}
{"id": "C87", "title": "References to slices write the named range", "statement": "Assigning to slice_ref<a, b>(), slice_ref(a, b) or slice_ref<k, up>(base) writes the same range that slice with these arguments reads, and nothing else; a constant range outside the vector does not compile.", "quantifier": "every vector, range and assigned value", "why_tests_cant": "all ranges and base values", "anchors": ["include/logic/bit.hh: slice_ref, bit_slice", "include/logic/logic.hh: slice_ref"]}
{"id": "C88", "title": "Fields of packed structs and unions are independent variables", "statement": "In a packed struct with non-overlapping fields, every field reads the value last written to it, or its initial value, whatever was written to other fields; fields of a fresh 4-state struct read x; union members share their low positions.", "quantifier": "every struct size, every family of pairwise disjoint fields, every finite sequence of field writes of any values", "why_tests_cant": "sequences of unbounded length over arbitrary field layouts", "anchors": ["include/logic/struct.hh: packed_struct", "include/logic/union.hh: union_", "tests/test_struct.cc: field accessors", "include/logic/logic.hh: update, slice"]}
{"id": "C89", "title": "bit::unpack distributes a 2-state vector over logic variables", "statement": "b.unpack(t1, ..., tk) gives each logic target its own consecutive slice of b (the last target the lowest positions), without x or z.", "quantifier": "every unsigned vector, every list of at least two targets of any widths that fit", "why_tests_cant": "any number of targets of any widths", "anchors": ["include/logic/bit.hh: unpack, unpack_"]}
{"id": "C90", "title": "Mixed logic/bit operators are rejected, not miscomputed", "statement": "The overloads of & | ^ << >> taking a bit operand on the right of a logic vector can never be instantiated.", "quantifier": "all operand types and values", "why_tests_cant": "a test cannot show that no instantiation compiles", "anchors": ["include/logic/logic.hh: operator&, operator|, operator^, operator>>, operator<< (bit overloads)"]}
{"id": "C91", "title": "!b, match and nmatch of bit vectors", "statement": "!b is true exactly if b is 0; match is equality of the values and nmatch its negation.", "quantifier": "every vector, every pair of vectors", "why_tests_cant": "all widths and values", "anchors": ["include/logic/bit.hh: operator!, match, nmatch"]}
{"id": "C92", "title": "Imperative programs run as over the integers modulo 2^n", "statement": "A program of assignments, sequencing, if and while (conditions ==, <, >=) over unsigned n-bit variables does exactly what the same program does over integers modulo 2^n: it ends in the corresponding state, divides by zero, or keeps running, in lockstep.", "quantifier": "every program (any length and nesting), every initial state, every number of steps", "why_tests_cant": "unbounded programs and executions", "anchors": ["include/logic/bit.hh: all operators, operator==, operator<, operator>="]}
{"id": "C93", "title": "Euclid's algorithm", "statement": "The usual gcd loop (while 0 < y: t = x % y; x = y; y = t) over unsigned vectors terminates and leaves the greatest common divisor of the initial values in x.", "quantifier": "every pair of arguments of 8, 16, 32 or 64 bits", "why_tests_cant": "2^(2n) argument pairs, unbounded loop", "anchors": ["include/logic/bit.hh: operator%, operator<"]}
{"id": "C94", "title": "big_num: positions, writes, ranges, concatenation, extension", "statement": "operator[] reads a position; set(i, b) changes position i only and any sequence of sets leaves each position with the last value written to it; slice<a, b>() and slice(a, b) are the selected positions as a number; concat(y) is this number above y; extend<m>() keeps the number. Constant indices outside the number and narrowing are compile errors.", "quantifier": "every size below 2^32, both signednesses, all contents, indices and write sequences", "why_tests_cant": "unbounded sizes, contents and write sequences", "anchors": ["include/logic/big_num.hh: operator[], set, slice, concat, extend"]}
{"id": "C95", "title": "big_num: bitwise operators", "statement": "~, &, |, ^ and the compound assignments combine the operands position by position at the wider size; ^ reduction is the parity; mask() has every position set; mask_off() leaves exactly the declared positions.", "quantifier": "every pair of sizes and signednesses, all contents", "why_tests_cant": "all sizes and word boundaries", "anchors": ["include/logic/big_num.hh: operator~, operator&, operator|, operator^, operator&=, operator^=, operator|=, r_xor, mask, mask_off"]}
{"id": "C96", "title": "big_num: shifts", "statement": "x >> k is the number divided by 2^k, x << k multiplied by 2^k modulo 2^n, ashr divides the signed number rounding down; an amount given as a big_num of any size means the number it holds.", "quantifier": "every size, signedness, content and amount (also far beyond the size)", "why_tests_cant": "all sizes, word boundaries and amounts", "anchors": ["include/logic/big_num.hh: operator>>, operator<<, ashr, ashl"]}
{"id": "C97", "title": "big_num: comparisons", "statement": "==, !=, <, <=, >, >= compare the numbers the operands hold, signed if both are signed, whatever their sizes.", "quantifier": "every pair of sizes, signednesses and contents", "why_tests_cant": "all pairs of values", "anchors": ["include/logic/big_num.hh: operator==, operator>, operator<, operator>=, operator<="]}
{"id": "C98", "title": "big_num: arithmetic", "statement": "+, -, *, unary - are the integer operations modulo 2^n at the wider size, / and % are the integer quotient and remainder, and division by zero is defined to give zero.", "quantifier": "every pair of sizes, signednesses and contents", "why_tests_cant": "carries and word boundaries at all sizes", "anchors": ["include/logic/big_num.hh: operator+, operator-, operator*, operator/, operator%, negate, power"]}
{"id": "C99", "title": "big_num: queries", "statement": "any_set and the conversion to bool hold iff the number is not 0, all_set iff every position is 1, is_one iff the number is 1, fit_in_64 iff it is below 2^64, highest_bit is the position of the leading one, negative() the sign, to_uint64 the number modulo 2^64.", "quantifier": "every size, signedness and content", "why_tests_cant": "all sizes and contents", "anchors": ["include/logic/big_num.hh: any_set, operator bool, all_set, is_one, fit_in_64, highest_bit, negative, to_uint64, popcount"]}
{"id": "C100", "title": "big_num: construction and conversion", "statement": "A default-constructed or cleared number is 0; converting between signed and unsigned keeps every position; construction from a native number or from a text gives that number modulo 2^n.", "quantifier": "every size, signedness, native number and text", "why_tests_cant": "result depends on memory contents and all lengths", "anchors": ["include/logic/big_num.hh: constructors, clear, to_signed"]}
{"id": "C101", "title": "Reading outside the declared range", "statement": "Reading a position outside the declared range is harmless: it gives 0.", "quantifier": "every width, value and index outside the range", "why_tests_cant": "indices beyond the storage only fail on some platforms and some widths", "anchors": ["include/logic/bit.hh: operator[]", "include/logic/big_num.hh: operator[]"]}
{"id": "C102", "title": "Widening a 4-state vector", "statement": "Widening a logic vector keeps the symbol of every position; the new positions are 0 for unsigned vectors and repeat the top symbol (0, 1, x or z) for signed ones.", "quantifier": "every width, target width, signedness and content", "why_tests_cant": "all widths and contents, native and multi-word paths", "anchors": ["include/logic/logic.hh: extend"]}
{"id": "C103", "title": "Imperative programs over 4-state variables follow IEEE 1800", "statement": "A program of assignments, sequencing, if and while over n-bit unsigned logic variables, with conditions ==, <, >=, match and the truth value of a vector, does what IEEE 1800 says, in lockstep: a condition with an x or z is not true, arithmetic with x or z gives x, match compares symbols.", "quantifier": "every program (any length and nesting), every initial state including x and z, every number of steps", "why_tests_cant": "programs of unbounded length and loops", "anchors": ["include/logic/logic.hh: operators, comparisons, match, operator bool"]}
{"id": "C104", "title": "A program over logic variables without x and z runs as over bit variables", "statement": "If the run over bit variables ends, the run over logic variables with the same initial numbers ends in the same numbers and without x or z; if it keeps running, so does the other.", "quantifier": "variables of 8, 16, 32, 64 bits; every program (products not at 16 bits), every initial state without x and z, every number of steps", "why_tests_cant": "quantifies over pairs of executions of two implementations", "anchors": ["include/logic/logic.hh: operators", "include/logic/bit.hh: operators"]}
{"id": "C105", "title": "Multiplication by shifting and adding", "statement": "The loop: while 0 < b: if (b & 1) == 1 then r += a; a <<= 1; b >>= 1 terminates, runs into no undefined behaviour and leaves a * b modulo 2^n in r, also at the widths where operator* is undefined.", "quantifier": "all arguments of 8, 16, 32, 64 bits and of every multiple of 64 bits", "why_tests_cant": "2^(2n) argument pairs, unbounded loop", "anchors": ["include/logic/bit.hh: operator&, operator+, operator<<, operator>>, operator<, operator=="]}
{"id": "C106", "title": "Exponentiation by squaring", "statement": "The loop: while 0 < e: if (e & 1) == 1 then r *= a; a *= a; e >>= 1 terminates and leaves a^e modulo 2^n in r.", "quantifier": "all arguments of 8, 32, 64 bits", "why_tests_cant": "2^(2n) argument pairs, unbounded loop", "anchors": ["include/logic/bit.hh: operator*, operator&, operator>>, operator<, operator=="]}
{"id": "C107", "title": "Division by repeated subtraction", "statement": "The loop: while a >= b: a -= b; q += 1 terminates for b other than 0 and leaves the quotient in q and the remainder in a, also at the widths where operator/ is wrong.", "quantifier": "all arguments of 8, 16, 32, 64 bits and of every multiple of 64 bits", "why_tests_cant": "up to 2^n iterations", "anchors": ["include/logic/bit.hh: operator-, operator+, operator>="]}
{"id": "C108", "title": "Counting ones", "statement": "The loop: while 0 < a: c += a & 1; a >>= 1 terminates and leaves the number of ones of a in c.", "quantifier": "all arguments of 8, 16, 32, 64 bits and of every multiple of 64 bits", "why_tests_cant": "2^n arguments", "anchors": ["include/logic/bit.hh: operator&, operator+, operator>>, operator<"]}
{"id": "C109", "title": "The truth tables of 4-state & and |", "statement": "At every position, & and | of two logic vectors (the narrower one widened) follow one fixed table of the two symbols: the IEEE 1800 one except that x&0 is x, z&1 is 1, z&z is z, x|0 is 1 and z|1 is x; ^ of vectors of different widths is |.", "quantifier": "every pair of widths, not both signed, all contents", "why_tests_cant": "all positions of all widths, native and multi-word paths", "anchors": ["include/logic/logic.hh: operator&, operator|, operator^"]}
{"id": "C110", "title": "negate() in place", "statement": "b.negate() replaces a vector by its two's complement modulo 2^n, as unary minus does; the only undefined cases are the smallest signed 32- and 64-bit numbers; multi-word vectors do not compile.", "quantifier": "every vector whose storage is in order, every width and signedness", "why_tests_cant": "all values of all widths; undefined behaviour at the edge", "anchors": ["include/logic/bit.hh: negate"]}
{"id": "C111", "title": "Comparing and matching a 4-state with a 2-state vector", "statement": "a op b for logic a and bit b of the same range and a comparison op gives 1, 0 or x as IEEE 1800 says: x iff a has an x or z, otherwise the comparison of the numbers; match is true iff a has no x or z and the same positions. Other ranges do not compile.", "quantifier": "every width, signedness and content of both operands", "why_tests_cant": "all pairs of contents", "anchors": ["include/logic/logic.hh: operator==, !=, <, >, <=, >= (bit overloads), match, nmatch (bit overloads)"]}
{"id": "C112", "title": "Changing the declared bounds by construction", "statement": "The constructor of logic taking a logic with other declared bounds is rejected for every pair of different bounds; for equal bounds it copies.", "quantifier": "all pairs of declared bounds, all contents", "why_tests_cant": "a test cannot show that no instantiation compiles", "anchors": ["include/logic/logic.hh: constructor logic(const logic<new_msb, new_lsb, new_signed>&)"]}
{"id": "C113", "title": "Indexing by a vector", "statement": "l[i] for a bit index i reads the position of l with the number i, and gives x for a number outside the declared range.", "quantifier": "every range, content and index value", "why_tests_cant": "all index values including huge and negative ones", "anchors": ["include/logic/logic.hh: operator[] (bit overload), get"]}
{"id": "C114", "title": "util::copy of a range", "statement": "copy(dst, src, start, end) puts the positions start..end of src at the positions 0..end-start of dst and leaves the others; a range the wrong way round never completes.", "quantifier": "every pair of vectors (2-state and 4-state), every range that fits", "why_tests_cant": "all widths, ranges and contents", "anchors": ["include/logic/util.hh: copy"]}
{"id": "C115", "title": "Construction of a vector from a big_num", "statement": "bit(x) holds the number x modulo 2^n.", "quantifier": "every range of at most 64 positions, every big_num of every size", "why_tests_cant": "all sizes and contents", "anchors": ["include/logic/bit.hh: constructor from big_num"]}
{"id": "C116", "title": "Construction and assignment from C++ integers", "statement": "Constructing a bit or logic vector or a packed array from an integer v, or assigning v, gives v modulo 2^n, without x or z; default-constructed 4-state arrays are x, 2-state ones 0.", "quantifier": "every range, signedness and integer; every array shape", "why_tests_cant": "all values at all widths, sign extension into further words", "anchors": ["include/logic/bit.hh: constructors, operator=", "include/logic/logic.hh: constructors, operator=", "include/logic/array.hh: packed_array constructors"]}
{"id": "C117", "title": "Field width of a format", "statement": "Leading digits of a format ask for a field of that many characters, never less than the natural one; without digits the natural width is used; an empty format and a number of 2^64 and more throw.", "quantifier": "every format text and natural width", "why_tests_cant": "unbounded texts", "anchors": ["src/util.cc, include/logic/util.hh: str_len"]}
{"id": "C118", "title": "Which 2-state vectors can exist", "statement": "Whatever sequence of API calls a program makes, every bit vector it obtains is an object of its declared type: its storage holds a value of the holder type (or the declared number of words). Nothing more can be relied on: every such object, also with anything above the declared width, is obtained by some sequence of calls.", "quantifier": "every sequence of API calls of any length, every declared range and signedness; every storage contents", "why_tests_cant": "quantifies over all call sequences", "anchors": ["include/logic/bit.hh: constructors, operators, set, slice, extend, concat, update, mask_off"]}
{"id": "C119", "title": "Which 4-state vectors can exist", "statement": "Whatever sequence of API calls a program makes, value and xz mask of every logic vector have the declared range, the mask is unsigned and both hold values of their storage type; conversely every combination of value and mask storage is obtained by some sequence of calls.", "quantifier": "every sequence of API calls of any length, every declared range and signedness; every storage contents", "why_tests_cant": "quantifies over all call sequences", "anchors": ["include/logic/logic.hh: constructors, operators, set, set_x, set_z, slice, extend, concat, update, unpack, reductions"]}
{"id": "C120", "title": "Programs that keep vectors in order", "statement": "A program that makes unsigned vectors only by construction, bitwise operators, right shifts, ranges, widening, concatenation, writing positions, native division, and anything else only followed by mask_off(), never has a vector with something stored outside the declared positions; such vectors are == iff they have the same positions, and no operation distinguishes two with the same positions.", "quantifier": "every such program of any length, all widths and contents", "why_tests_cant": "quantifies over all call sequences; equality depends on invisible storage", "anchors": ["include/logic/bit.hh: operator&, |, ^, >>, /, %, slice, extend, concat, set, mask_off, operator=="]}
{"id": "C121", "title": "Exact arithmetic of native vectors", "statement": "For vectors of at most 64 positions, + - * / %, ++, --, unary - and negate() are one formula on the stored integers: the operation in the wider of the computing types (undefined iff it overflows a signed one or divides by zero, rejected where the types do not pair up), the result stored in the holder type.", "quantifier": "all pairs of widths 1..64, bounds, signednesses and stored integers, also with bits above the declared width", "why_tests_cant": "up to 2^128 operand pairs per pair of types; undefined behaviour", "anchors": ["include/logic/bit.hh: operator+, -, *, /, %, ++, --, negate"]}
{"id": "C122", "title": "Exact bitwise operators of native vectors", "statement": "For vectors of at most 64 positions, & | ^ and ~ and the compound assignments act on the stored integers: both operands sign- or zero-extended to the common type, combined bit by bit, stored in the holder type of the wider width.", "quantifier": "all pairs of widths 1..64, bounds, signednesses and stored integers", "why_tests_cant": "up to 2^128 operand pairs per pair of types", "anchors": ["include/logic/bit.hh: operator&, |, ^, ~, &=, |=, ^="]}
{"id": "C123", "title": "Exact shifts of native vectors", "statement": "For vectors of at most 64 positions, <<, >>, ashr and the compound assignments are one formula on the stored integer and the amount, with undefined behaviour exactly where an amount is not below the computing width.", "quantifier": "all pairs of widths 1..64, signednesses, stored integers and amounts", "why_tests_cant": "all amounts, undefined behaviour", "anchors": ["include/logic/bit.hh: operator<<, >>, ashr, <<=, >>="]}
{"id": "C124", "title": "Exact comparisons and queries of native vectors", "statement": "For vectors of at most 64 positions, ==, !=, <, <=, >, >=, any_set, the & reduction, highest_bit and to_uint64 are one formula on the stored integers; comparisons always give a result.", "quantifier": "all pairs of widths 1..64, signednesses and stored integers", "why_tests_cant": "up to 2^128 operand pairs per pair of types", "anchors": ["include/logic/bit.hh: operator==, !=, <, <=, >, >=, any_set, r_and, highest_bit, to_uint64"]}
{"id": "C125", "title": "Exact conversions of native vectors", "statement": "For vectors of at most 64 positions, assignment from vectors and numbers, to_signed, to_unsigned, mask_off and extend store one formula of the stored integer in the target's holder type; narrowing extend is a slice for unsigned vectors and rejected for signed ones.", "quantifier": "all pairs of widths 1..64, signednesses and stored integers", "why_tests_cant": "all pairs of types and values", "anchors": ["include/logic/bit.hh: operator=, to_signed, to_unsigned, mask_off, extend"]}
{"id": "C126", "title": "Exact position access of native vectors", "statement": "For vectors of at most 64 positions, reading and writing a position, constant and runtime slices and concatenation are one formula on the stored integers, with undefined behaviour and rejected code exactly where the formula says so, for every index in or outside the range.", "quantifier": "all widths 1..64, bounds, signednesses, stored integers and int indices", "why_tests_cant": "all indices and values", "anchors": ["include/logic/bit.hh: get, operator[], set, slice, concat"]}
{"id": "C127", "title": "Programs over native vectors run as on the reference machine", "statement": "A program of assignments (plain, compound, increments, position writes), sequencing, if and while over variables of any native vector types, mixed widths and signednesses, has exactly the outcome of the same program on a machine that computes each operation by one formula on integers: same final variables, undefined behaviour, rejected code, or still running.", "quantifier": "every program of any length and nesting, every family of variable types up to 64 positions, every initial state, every number of steps", "why_tests_cant": "unbounded programs and executions, mixed types", "anchors": ["include/logic/bit.hh: all operators"]}
{"id": "C128", "title": "Exact arithmetic at any width", "statement": "For vectors of any widths, narrow, wide or mixed, + - * / %, ++, --, unary - and negate() are one formula on the stored integers: wide operands are widened to the common width, the result is stored modulo 2^64 per word; undefined products, rejected types and the cases in which quotients are not quotients are exactly those of the formula, which is true division for operands inside their width whose words have non-zero low halves.", "quantifier": "all pairs of widths, bounds, signednesses and stored numbers, also with bits above the declared width", "why_tests_cant": "unbounded widths and values", "anchors": ["include/logic/bit.hh: operator+, -, *, /, %, ++, --, negate", "include/logic/big_num.hh: operator+, -, *, /, %"]}
{"id": "C129", "title": "Exact bitwise operators and shifts at any width", "statement": "For vectors of any widths, & | ^ ~ << >> ashr and the compound assignments are one formula on the stored integers, including where results keep bits above the width and the position an arithmetic shift of a wide signed vector does not write.", "quantifier": "all pairs of widths, bounds, signednesses, stored numbers and amounts", "why_tests_cant": "unbounded widths and amounts", "anchors": ["include/logic/bit.hh: operator&, |, ^, ~, <<, >>, ashr, &=, |=, ^=, <<=, >>=", "include/logic/big_num.hh: operator<<, >>, ashr, &, |, ^, ~"]}
{"id": "C130", "title": "Exact comparisons and queries at any width", "statement": "For vectors of any widths, ==, !=, <, <=, >, >=, any_set, the & reduction, highest_bit and to_uint64 are one formula on the stored integers, including which comparisons are rejected, return nothing or do not finish.", "quantifier": "all pairs of widths, signednesses and stored numbers", "why_tests_cant": "unbounded widths; termination", "anchors": ["include/logic/bit.hh: operator==, !=, <, <=, >, >=, any_set, r_and, highest_bit, to_uint64", "include/logic/big_num.hh: operator==, >, <, negative"]}
{"id": "C131", "title": "Exact construction and conversions at any width", "statement": "For vectors of any widths, construction from a number, assignment from vectors and numbers, to_signed, to_unsigned, mask_off and extend are one formula on the number and the stored integer.", "quantifier": "all widths, bounds, signednesses, stored numbers and 64-bit integers", "why_tests_cant": "unbounded widths", "anchors": ["include/logic/bit.hh: constructors, operator=, to_signed, to_unsigned, mask_off, extend"]}
{"id": "C132", "title": "Exact position access at any width", "statement": "For vectors of any widths, reading and writing a position, constant and runtime slices and concatenation are one formula on the stored integers, for every int index in or outside the range.", "quantifier": "all widths, bounds, signednesses, stored numbers and int indices", "why_tests_cant": "unbounded widths, all indices", "anchors": ["include/logic/bit.hh: get, operator[], set, slice, concat", "include/logic/big_num.hh: operator[], set, slice"]}
{"id": "C133", "title": "Programs over vectors of any widths run as on the reference machine", "statement": "A program of assignments (plain, compound, increments, position writes), sequencing, if and while over variables of any vector types, of mixed narrow and wide widths and signednesses, has exactly the outcome of the same program on a machine that computes each operation by one formula on integers.", "quantifier": "every program of any length and nesting, every family of variable types, every initial state, every number of steps", "why_tests_cant": "unbounded programs, executions and widths", "anchors": ["include/logic/bit.hh: all operators", "include/logic/big_num.hh: all operators"]}
{"id": "C134", "title": "Exact arithmetic of 4-state vectors", "statement": "For logic vectors of any widths, + - * / %, ++, --, unary - and + are one formula on the stored values and x/z masks: all x if the library sees an x or z in an operand or a zero divisor, otherwise the 2-state operator with an empty mask; it also says which operand types do not compile and which x the library overlooks.", "quantifier": "all pairs of widths, bounds, signednesses, stored values and masks", "why_tests_cant": "unbounded widths and values, overlooked x in wide masks", "anchors": ["include/logic/logic.hh: operator+, -, *, /, %, ++, --"]}
{"id": "C135", "title": "Exact bitwise operators of 4-state vectors", "statement": "For logic vectors of any widths, &, | and ~ apply one fixed table of symbols at every position and ^ sets an x where an operand has an x or z, storing nothing above the width in the values; the same theorem says which operand types do not compile.", "quantifier": "all pairs of widths, bounds, signednesses, stored values and masks", "why_tests_cant": "unbounded widths and values", "anchors": ["include/logic/logic.hh: operator&, |, ^, ~"]}
{"id": "C136", "title": "Exact shifts of 4-state vectors", "statement": "For logic vectors of any widths, <<, >> and ashr give all x if the library sees an x or z in the vector or the amount, otherwise they apply the 2-state shift to values and mask.", "quantifier": "all pairs of widths, signednesses, stored values, masks and amounts", "why_tests_cant": "unbounded widths and amounts", "anchors": ["include/logic/logic.hh: operator<<, >>, ashr"]}
{"id": "C137", "title": "Exact comparisons and conversions of 4-state vectors", "statement": "For logic vectors of any widths, the six comparisons give x if the library sees an x or z and otherwise the 2-state comparison; match compares values and masks; !, conversion to bool and to uint64 treat a vector with a visible x or z as x, false and 0.", "quantifier": "all pairs of widths, signednesses, stored values and masks", "why_tests_cant": "unbounded widths", "anchors": ["include/logic/logic.hh: operator==, !=, <, <=, >, >=, !, bool, match, to_uint64"]}
{"id": "C138", "title": "Exact reductions of 4-state vectors", "statement": "The & and | reductions search the indices from 0 upwards and stop at the first x or z (result x) or deciding symbol; the ^ reduction gives the parity of the number of zeros or x; the negated reductions invert; which types do not compile is part of the formula.", "quantifier": "all widths, bounds, signednesses, stored values and masks", "why_tests_cant": "unbounded widths; which of several x and 0 comes first", "anchors": ["include/logic/logic.hh: r_and, r_or, r_xor, r_nand, r_nor, r_xnor"]}
{"id": "C139", "title": "Exact position access and conversions of 4-state vectors", "statement": "Reading and writing positions (0, 1, x, z or a one-bit vector), constant and runtime slices, widening, to_signed, to_unsigned, concatenation (also with a 2-state vector), construction from a 2-state vector, assignment and compound assignment are one formula on stored values and masks, for every int index in or outside the range, with undefined behaviour and rejected code exactly where the formula says so.", "quantifier": "all widths, bounds, signednesses, stored values, masks and int indices", "why_tests_cant": "unbounded widths, all indices", "anchors": ["include/logic/logic.hh: get, operator[], set, set_x, set_z, slice, extend, to_signed, to_unsigned, concat, operator=, &=, |=, ^=, <<=, >>="]}
{"id": "C140", "title": "Programs over 2-state and 4-state variables run as on the reference machine", "statement": "A program of assignments, compound assignments, increments, position writes, 2-state statements, sequencing, if and while over bit and logic variables of any types, mixing widths, signednesses and both kinds, has exactly the outcome of the same program on a machine that computes each operation by one formula on the stored numbers.", "quantifier": "every program of any length and nesting, every family of variable types, every initial state including x and z, every number of steps", "why_tests_cant": "unbounded programs, executions and widths", "anchors": ["include/logic/logic.hh: all operators", "include/logic/bit.hh: all operators"]}
{"id": "C141", "title": "Exact reading of texts", "statement": "Constructing a bit or logic vector from any text gives what a reference reader gives: the text has one base and one body; every character has a worth and a place; which texts are undefined behaviour, how wide vectors cut a text into words and which x and z are found is part of the formula. No text of at most 16 characters is undefined for a bit vector, no text at all for one wider than 64 positions.", "quantifier": "every text (also not a literal), every declared range and signedness", "why_tests_cant": "unbounded texts over all characters; undefined behaviour", "anchors": ["src/util.cc: get_input_base, parse_raw_str_, parse_xz_raw_str_, parse_raw_str, parse_xz_raw_str, get_stride", "include/logic/bit.hh: constructor from string_view", "include/logic/logic.hh: constructor from string_view"]}
{"id": "C142", "title": "Exact texts", "statement": "str() of a bit or logic vector for any format gives what a reference printer gives: the format asks for one number of columns and one base; which characters a piece of at most 64 positions has, how a wide vector is cut into pieces, where the sign and the filling go and which calls throw, are undefined or do not compile is part of the formula.", "quantifier": "every vector of every range, signedness and contents, every format text", "why_tests_cant": "unbounded widths and formats", "anchors": ["include/logic/util.hh, src/util.cc: to_string, pad_result, str_len, get_max_size_fmt", "include/logic/bit.hh: str", "include/logic/logic.hh: str"]}
{"id": "C143", "title": "Exact big_num objects", "statement": "Every operator and member of big_num (widening, &, |, ^, ~, unary -, +, -, *, /, %, compound & and ^, the shifts by numbers and by objects, the comparisons, mask_off, set and the queries) gives what a reference machine gives: one formula on the number stored; which operations are undefined, do not compile or never end is part of the formula.", "quantifier": "objects of every size and signedness and all contents, also above the declared positions", "why_tests_cant": "unbounded sizes and all contents of the words; undefined behaviour and non-termination", "anchors": ["include/logic/big_num.hh: big_num"]}
{"id": "C144", "title": "Exact packed array reads", "statement": "Reading an element of a packed array gives what a reference machine gives for every index vector: nothing (all x, or 0 for 2-state elements) if the index stores an x or z or a number not smaller than the number of bits of the array, otherwise the positions from the address of the element on, with the undefined cases of the address arithmetic and of the dynamic part-select.", "quantifier": "all element widths, signednesses and array ranges, all index vectors and all contents, also above the declared positions", "why_tests_cant": "unbounded sizes and all contents; undefined behaviour and non-termination", "anchors": ["include/logic/array.hh: packed_array::operator[]"]}
{"id": "C145", "title": "Implicit conversions between vector types", "statement": "An object is accepted where a vector of another type is expected exactly if the types are equal or the object is signed and both have at most 64 positions, or equally many positions beyond that. An accepted object keeps its type's identity if the types are equal; otherwise its number is taken over modulo 2^n of the target (a single-position target becomes 1 iff the number is not 0), and 4-state symbols are copied position by position, the sign position being repeated.", "quantifier": "every pair of declared ranges and signednesses, all values and x/z masks", "why_tests_cant": "a rejected conversion cannot be written in a compiled test; unbounded widths and all values", "anchors": ["include/logic/bit.hh: bit(const bit<new_msb, new_lsb, true> &)", "include/logic/logic.hh: logic(const logic<new_msb, new_lsb, true> &)"]}
{"id": "C146", "title": "Positions given at compile time", "statement": "When the position is a template argument inside a declared range that starts at 0, set<i>, set_x<i> and set_z<i> change exactly the symbol of that declared position, and get<i>, x_set<i> and z_set<i> tell its symbol for vectors of up to 64 positions and do not compile for wider ones. A position outside the range of a vector of more than 64 positions is rejected by the compiler. For ranges with another start, and for any constant, set<i> gives what the reference machine of the run-time form gives, with integer overflow rejected by the compiler.", "quantifier": "all declared ranges and signednesses, all constants, all contents", "why_tests_cant": "a rejected position cannot be written in a compiled test; unbounded widths and all contents", "anchors": ["include/logic/bit.hh: bit::get<>, bit::set<>", "include/logic/logic.hh: logic::get<>, logic::set<>, logic::set_x<>, logic::set_z<>, logic::x_set<>, logic::z_set<>", "include/logic/big_num.hh: big_num::set<>"]}
{"id": "C147", "title": "Sign query", "statement": "negative() of a vector tells whether the number it denotes is below 0.", "quantifier": "all widths and signednesses, all contents", "why_tests_cant": "unbounded widths and all contents", "anchors": ["include/logic/bit.hh: bit::negative", "include/logic/big_num.hh: big_num::negative"]}
{"id": "C148", "title": "Writing packed array elements one after another", "statement": "After any sequence of element writes every element holds the value written to it last, or its old contents; elements filled in with update(i, v) read back as the values.", "quantifier": "every element width, index range, initial contents and finite sequence of element writes (constant or run-time indices), values with and without x and z", "why_tests_cant": "a write may damage what an earlier write of the sequence left in another element; all sequences and orders matter", "anchors": ["include/logic/array.hh: packed_array::update(const logic&, const K&), packed_array::update<hi, lo>, packed_array::operator[]"]}
{"id": "C149", "title": "Writing unpacked array elements one after another", "statement": "After any sequence of update<i>(v) every element of an unpacked array holds the value written to it last, or its old contents; writes outside the declared range are ignored.", "quantifier": "every element type, declared range, initial contents and finite sequence of writes", "why_tests_cant": "all sequences, all declared ranges", "anchors": ["include/logic/array.hh: unpacked_array::update, unpacked_array::operator[]"]}
{"id": "C150", "title": "big_num: and reduction", "statement": "r_and() of a big_num is true exactly when every position is 1.", "quantifier": "every size, signedness and content", "why_tests_cant": "all sizes and contents; the result depends on the word boundary", "anchors": ["include/logic/big_num.hh: big_num::r_and"]}
{"id": "C151", "title": "Whether code compiles depends on the declared types only", "statement": "Whether an expression, a test or a program over bit and logic variables compiles, and the type (bounds and signedness) of every result, is decided by the declared types of the variables: an accepted program never instantiates a rejected operation, whatever values its variables hold and however long it runs, and its variables keep their types; a rejected expression has a value in no state.", "quantifier": "every typing of the variables (any widths, bounds, signedness), all values, every expression tree and program, every number of steps", "why_tests_cant": "all programs, types and values; a test only sees the instantiations it contains", "anchors": ["include/logic/bit.hh: all operators of bit, requires clauses, static_assert", "include/logic/logic.hh: all operators of logic"]}
{"id": "C152", "title": "Programs over signed vectors compute with two's complement numbers", "statement": "A program of assignments, ++, --, sequencing, if and while over signed n-bit variables and the operators - + * / % & | ^ << >> ashr and the six comparisons does what the same program does over integers of n bits, with results wrapping around at n bits; division by zero is the only error.", "quantifier": "every width from 2 to 64, every program (any length and nesting), all initial values, every number of steps", "why_tests_cant": "unbounded programs and executions; overflow happens only for particular values and is undefined behaviour at some widths", "anchors": ["include/logic/bit.hh: operator-, operator+, operator*, operator/, operator%, operator&, operator|, operator^, operator<<, operator>>, ashr, operator++, operator--, comparison operators"]}
{"id": "C153", "title": "Programs over wide signed vectors compute with two's complement numbers", "statement": "A program of assignments, ++, --, sequencing, if and while over signed n-bit variables with n above 64 and the operators + - & | ^ << >>, negation, inversion and the comparisons does what the same program does over integers of n bits, with results wrapping around at n bits.", "quantifier": "every width from 65, every program (any length and nesting), all initial values, every number of steps", "why_tests_cant": "unbounded programs and executions; wrong comparisons need values left over from earlier operations or the smallest number", "anchors": ["include/logic/bit.hh: operator+, operator-, operator&, operator|, operator^, operator<<, operator>>, operator~, two_complement, to_signed, operator++, operator--, operator<, operator>", "include/logic/big_num.hh: operator+, operator-, operator>, negate, operator<<, operator>>"]}
{"id": "C154", "title": "Changing variables from bit to logic does not change a program without x and z", "statement": "A program of assignments, compound assignments, ++, --, set, sequencing, if and while over bit variables and the operators + - * / % & | ^ ~ << >> ashr, concatenation, slices, to_signed, to_unsigned, unary minus, comparisons, conversion to bool, reading one position and r_and behaves the same when every variable and constant is declared logic instead of bit: same control flow, same final contents, no x or z.", "quantifier": "every program (any length and nesting), all widths and initial values, every number of steps", "why_tests_cant": "unbounded programs and executions; a difference needs contents outside the declared positions, a zero divisor or a signed operand", "anchors": ["include/logic/bit.hh: all operators of bit", "include/logic/logic.hh: all operators of logic, logic(bit)"]}
{"id": "C155", "title": "An adder written with single positions gives the sum", "statement": "A loop over the positions of two vectors of n positions that reads a[i] and b[i], sets r.set(i, a[i] ^ b[i] ^ carry) and computes the next carry with &, | and ^ leaves in r the sum modulo 2^n (what a + b gives), and the last carry is bit n of the sum. With logic the same holds when no position is x or z, and a position that does not depend on the value of an x is not given wrongly.", "quantifier": "every width n >= 1 (native and big storage), every signedness, all contents of the three vectors, for logic also every x and z", "why_tests_cant": "unbounded widths, so unbounded loops; the carry chain depends on all positions below; the one-bit tables of & and | with x matter in all combinations", "anchors": ["include/logic/bit.hh: operator[], set, operator+", "include/logic/logic.hh: operator[], set, operator&, operator|, operator^"]}
{"id": "C156", "title": "Shifting both ways and or-ing rotates a vector", "statement": "For a vector a of n positions and amounts k, l with k + l = n, (a << k) | (a >> l) moves the content of every position p to position (p + k) mod n; doing it again with k and l exchanged gives a back.", "quantifier": "every width, signedness and content of a, all amounts 0 <= k <= n, every declared width of the amounts", "why_tests_cant": "unbounded widths and all pairs of amounts; the amounts' own width and the case of amount n take different code paths for native and big storage", "anchors": ["include/logic/bit.hh: operator<<, operator>>, operator|", "include/logic/big_num.hh: operator<<, operator>>"]}
{"id": "C157", "title": "Gray codes", "statement": "g = a ^ (a >> 1) has at every position p the exclusive or of positions p and p + 1 of a. The codes of a number and of its successor modulo 2^n differ in exactly one position. Replacing g by g ^ (g >> k) for k = 1, 2, 4, ... up to the width gives the number back.", "quantifier": "every width n >= 2, signedness and content, every declared width of the amounts", "why_tests_cant": "unbounded widths; the claim on neighbours ranges over all contents, the decoding loop has as many steps as the logarithm of the width", "anchors": ["include/logic/bit.hh: operator>>, operator^", "include/logic/big_num.hh: operator>>, operator^"]}
{"id": "C158", "title": "Cyclic redundancy checks", "statement": "The usual bitwise loop (take the top position of the register xor the next message bit, shift the register left by one, xor the polynomial if that was 1) leaves in the register the remainder, over the integers modulo 2, of the message polynomial times X^n (plus the start value times X^length) by X^n + poly; running it over a message followed by its own check leaves 0.", "quantifier": "every width n >= 2, every polynomial, start value and message of any length, every signedness", "why_tests_cant": "unbounded messages and widths; native and big storage shift and xor differently", "anchors": ["include/logic/bit.hh: operator[], operator<<, operator^", "include/logic/big_num.hh: operator<<, operator^"]}
{"id": "C159", "title": "A delay line over an unpacked array", "statement": "If every push moves each element of an unpacked array one index up (with update at constant indices, from the top) and writes the new value at index 0, then element i holds the value pushed i pushes ago, or what was in the array before, moved up.", "quantifier": "every number of elements, both directions of an index range that starts at 0, every element type (bit or logic of any width and signedness), every sequence of pushes", "why_tests_cant": "unbounded sizes and sequences of pushes", "anchors": ["include/logic/array.hh: unpacked_array operator[], update", "include/logic/bit.hh: operator=", "include/logic/logic.hh: operator="]}
{"id": "C160", "title": "Linear feedback shift registers", "statement": "One step of a register (remember position 0, shift right by one, xor the taps if position 0 was 1) halves the number and flips the taps if it was odd. Different states have different successors if and only if the topmost position is one of the taps; then the register returns to every start other than 0 within 2^n - 1 steps and never becomes 0.", "quantifier": "every width n >= 2, all taps, every start value, any number of steps, every signedness", "why_tests_cant": "all states of all widths and unboundedly many steps; native and big storage shift and xor differently", "anchors": ["include/logic/bit.hh: operator[], operator>>, operator^", "include/logic/big_num.hh: operator>>, operator^"]}
{"id": "C161", "title": "Swapping two vectors with ^=", "statement": "a ^= b; b ^= a; a ^= b swaps two 2-state vectors of one type. For unsigned 4-state vectors it swaps exactly the positions where both symbols are known or both are x.", "quantifier": "every width and all contents, both signednesses for bit", "why_tests_cant": "all pairs of vectors of all widths, all combinations of symbols", "anchors": ["include/logic/bit.hh: operator^=", "include/logic/logic.hh: operator^="]}
{"id": "C162", "title": "The order of operands", "statement": "For + * & | ^ the operands can be exchanged: the results, and whether the expression compiles and is defined, are the same. a < b is b > a, a <= b is b >= a, and a == b is b == a.", "quantifier": "all vectors of any two widths, bounds and signednesses, 2-state; 4-state + * for any two types, ^ & | for one width", "why_tests_cant": "the operators select among overloads by width and bounds of the right operand only; all pairs of types and contents", "anchors": ["include/logic/bit.hh: operator+, operator*, operator&, operator|, operator^, operator==, operator<, operator>, operator<=, operator>=", "include/logic/logic.hh: operator+, operator*, operator&, operator|, operator^"]}
{"id": "C163", "title": "A packed array keeps its type", "statement": "The storage of a 4-state packed array is a logic vector with element width times element count positions, declared from that number minus one down to 0, signed exactly if the elements are. Every constructor gives such storage, and assigning elements or ranges of elements keeps it, whatever the index (also unknown or out of range) and whatever the assigned vector.", "quantifier": "every element width, index range and signedness; every contents, index, assigned vector, number and text", "why_tests_cant": "all array types, all contents and all indices", "anchors": ["include/logic/array.hh: packed_array, packed_array::update, constructors"]}
{"id": "C164", "title": "A queue kept in a packed array", "statement": "A first-in first-out queue kept in a packed array of n elements, pushed with update(logic(tail), v) and popped with a[logic(head)] and two counters that go round modulo n, returns the pushed values in their order, position by position, as long as no pop finds it empty and at most n values are queued.", "quantifier": "all packed array types whose lowest index is 0, all initial contents and starting slots, all sequences of pushes and pops of any length, all pushed 4-state values of the element width", "why_tests_cant": "unbounded sequences of calls; whether a write disturbs a queued value depends on the slot and on how full the queue is, and on the contents", "anchors": ["include/logic/array.hh: packed_array::update(logic, value), packed_array::operator[](logic)", "include/logic/logic.hh: logic(T value)"]}
{"id": "C165", "title": "Voting among three copies", "statement": "(a & b) | (b & c) | (a & c) of three vectors of one width shows at every position the known bit that at least two of them hold there, whatever the third holds.", "quantifier": "all widths, bounds declared downwards and contents, 2-state (any signedness) and unsigned 4-state, the third copy also with x and z", "why_tests_cant": "three symbols of four values at every position of every width", "anchors": ["include/logic/bit.hh: operator&, operator|", "include/logic/logic.hh: operator&, operator|"]}
{"id": "C166", "title": "Choosing between two vectors by a mask", "statement": "(s & a) | (~s & b) has at every position the symbol of a where s is 1 and the symbol of b where s is 0, a chosen z counting as x.", "quantifier": "all widths, bounds declared downwards and contents, 2-state (any signedness) and unsigned 4-state, the chosen vectors also with x and z", "why_tests_cant": "three symbols at every position of every width", "anchors": ["include/logic/bit.hh: operator&, operator|, operator~", "include/logic/logic.hh: operator&, operator|, operator~"]}
{"id": "C167", "title": "Clearing and isolating the lowest one", "statement": "a & (a - 1) is a without its lowest one; a & ~(a - 1), and a & -a where unary minus compiles, is the lowest one alone; for a = 0 all give 0.", "quantifier": "unsigned 2-state vectors of every width declared from n-1 down to 0 (for a & -a at most 64 positions), every contents, also with garbage above the declared width", "why_tests_cant": "all widths and contents; the borrow of the subtraction runs through any number of words", "anchors": ["include/logic/bit.hh: operator-, operator&, operator~, unary operator-", "include/logic/big_num.hh: operator-, operator&, operator~"]}
{"id": "C168", "title": "Counting ones by clearing them", "statement": "The loop while (a) { a = a & (a - 1); count++; } ends and counts the ones of a.", "quantifier": "unsigned 2-state vectors of every width declared from n-1 down to 0, every contents", "why_tests_cant": "all widths and contents; the number of turns is not bounded by a constant", "anchors": ["include/logic/bit.hh: operator bool, any_set, operator-, operator&", "include/logic/big_num.hh: any_set"]}
{"id": "C169", "title": "Saturating addition and subtraction", "statement": "s = a + b; if (s < a) s = ~zero; leaves the smaller of the sum and the largest number of the type in s, and d = a - b; if (a < d) d = zero; leaves the larger of the difference and 0 in d.", "quantifier": "unsigned 2-state vectors of every width declared from n-1 down to 0 without ones above the width, every contents", "why_tests_cant": "all widths and contents; whether the comparison sees the overflow depends on how the width relates to the storage", "anchors": ["include/logic/bit.hh: operator+, operator-, operator<, operator~", "include/logic/big_num.hh: operator+, operator-, operator<"]}
{"id": "C170", "title": "Moving the positions of a vector", "statement": "for (int i = 0; i < n; i++) r.set(i, a[f(i)]) leaves position f(p) of a at every position p of r, whatever r held before and for every table f; r.set(f(i), a[i]) leaves position p of a at position f(p) if f names no position twice; doing one after the other gives a back.", "quantifier": "2-state and 4-state vectors of every width declared from n-1 down to 0, every contents, every table of positions", "why_tests_cant": "all widths, contents and tables", "anchors": ["include/logic/bit.hh: operator[], set", "include/logic/logic.hh: operator[], set"]}
{"id": "C171", "title": "Reversing a vector in place", "statement": "Exchanging positions i and n-1-i for every i below n/2 with operator[] and set reverses a vector.", "quantifier": "2-state and 4-state vectors of every width declared from n-1 down to 0, every contents", "why_tests_cant": "all widths and contents; the vector is read while it is written", "anchors": ["include/logic/bit.hh: operator[], set", "include/logic/logic.hh: operator[], set"]}
{"id": "C172", "title": "The mean of two vectors", "statement": "(a & b) + ((a ^ b) >> 1) is the mean of a and b rounded down, also where a + b does not fit; (a + b) >> 1 is it only where a + b fits.", "quantifier": "unsigned 2-state vectors of every width of at least 2 declared from n-1 down to 0 without ones above the width, every contents", "why_tests_cant": "all widths and contents; sums keep their carry above the width at some widths", "anchors": ["include/logic/bit.hh: operator&, operator^, operator>>, operator+", "include/logic/big_num.hh: operator&, operator^, operator>>, operator+"]}
{"id": "C173", "title": "Numbers kept in several vectors", "statement": "Adding (subtracting) two numbers kept in several vectors part by part, finding the carry (borrow) by comparing, gives the parts of the sum (difference) and the last carry (borrow).", "quantifier": "any number of parts, unsigned 2-state vectors of every width declared from n-1 down to 0 without ones above the width, every contents", "why_tests_cant": "unbounded number of parts, all widths; whether a comparison sees the carry depends on the width", "anchors": ["include/logic/bit.hh: operator+, operator-, operator<", "include/logic/big_num.hh: operator+, operator-, operator<"]}
{"id": "C174", "title": "The integer square root", "statement": "Trying the positions of the root from the highest down (t = r + m; if (a >= t * t) r = t) leaves the integer square root of a in r.", "quantifier": "unsigned 2-state vectors of every width of at least 2 declared from n-1 down to 0 without ones above the width, every contents", "why_tests_cant": "all widths and contents; products of odd widths need a position above the width", "anchors": ["include/logic/bit.hh: operator+, operator*, operator>=", "include/logic/big_num.hh: operator*, operator>="]}
{"id": "C175", "title": "Shift registers", "statement": "Repeating r = r.slice<n-2, 0>().concat(x) with inputs x of one position leaves the last inputs in the lowest positions, the latest lowest, and what r held before above them; x and z move like 0 and 1.", "quantifier": "unsigned 2-state and 4-state vectors of every width of at least 2 declared from n-1 down to 0 without ones above the width, every contents, every sequence of inputs of every length", "why_tests_cant": "all widths, contents and sequences of inputs; one width in the middle of the range is wrong", "anchors": ["include/logic/bit.hh: slice, concat", "include/logic/logic.hh: slice, concat"]}
{"id": "C176", "title": "Comparing numbers kept in several vectors", "statement": "Going through the parts from the lowest to the highest (if (a[i] < b[i]) c = true; else if (b[i] < a[i]) c = false;) leaves in c whether the whole left number is smaller, or the initial c if the numbers are equal.", "quantifier": "unsigned 2-state parts of every width declared from n-1 down to 0 without ones above the width, every number of parts, every contents, both initial values", "why_tests_cant": "all widths, numbers of parts and contents", "anchors": ["include/logic/bit.hh: operator<", "include/logic/big_num.hh: operator<, operator>"]}
{"id": "C177", "title": "Sorting vectors", "statement": "Insertion sort with operator< (swapping neighbours while a[j] < a[j-1]) ends and leaves the same vectors in ascending order of their values, signed or unsigned, 2-state or 4-state.", "quantifier": "2-state and 4-state vectors of one type of every width and both signs declared from n-1 down to 0 without ones above the width, lists of every length", "why_tests_cant": "all lists, widths and signs; wide signed comparison may not end, and a comparison with x stops the inner loop", "anchors": ["include/logic/bit.hh: operator<", "include/logic/logic.hh: operator<, operator bool", "include/logic/big_num.hh: operator<, operator>"]}
{"id": "C178", "title": "Looking for the highest and the lowest one", "statement": "A loop over the positions that remembers the last (or only the first) position whose a[i] is true ends with the highest (lowest) position that holds 1, or -1 if there is none; x and z count as not 1.", "quantifier": "2-state and 4-state vectors of every width and both signs declared from n-1 down to 0, every contents", "why_tests_cant": "all widths and contents; reading x or z above position 63 is undefined", "anchors": ["include/logic/bit.hh: operator[]", "include/logic/logic.hh: operator[], operator bool"]}
{"id": "C179", "title": "Comparing position by position", "statement": "Going through the positions from the lowest to the highest (if (a[i] != b[i]) c = b[i];, the other way round at the highest position of signed vectors) tells whether a is smaller than b.", "quantifier": "2-state vectors of one type of every width and both signs declared from n-1 down to 0, every contents", "why_tests_cant": "all widths and contents, also the wide signed ones that operator< never finishes comparing", "anchors": ["include/logic/bit.hh: operator[]"]}
{"id": "C180", "title": "Digits of a number", "statement": "while (zero < a) { digits.push_back(a % d); a = a / d; } ends and gives the digits of a in base d, the lowest first, without leading zeros.", "quantifier": "unsigned 2-state vectors of every width of at least 2 declared from n-1 down to 0 without ones above the width, every contents, every base from 2 to 2^32-1 that fits", "why_tests_cant": "all widths, contents and bases; wide division is wrong for some numbers", "anchors": ["include/logic/bit.hh: operator%, operator/, operator<", "include/logic/big_num.hh: div_mod"]}
{"id": "C181", "title": "A clocked register with reset and enable", "statement": "Repeating if (rst) r = zero; else if (en) r = r + d; on a default-constructed r leaves it all x until the first reset; after a reset it holds the sum of the enabled summands modulo 2^n; a summand with an x or z makes it all x until the next reset; a reset or enable that is x or z counts as 0.", "quantifier": "unsigned 4-state registers of every width declared from n-1 down to 0, every sequence of inputs of every length with reset and enable 0, 1, x or z and every summand without ones above the width", "why_tests_cant": "all sequences, widths and positions of x; wide additions overlook some x", "anchors": ["include/logic/logic.hh: operator+, operator bool, logic()"]}
{"id": "C182", "title": "Sign extension by xor and minus", "statement": "If a uses only its k low positions and m is 2^(k-1), (a ^ m) - m holds the two's complement reading of those k positions, modulo 2^n.", "quantifier": "unsigned 2-state vectors of every width n without ones above the width, every k from 1 to n, every contents of the k positions", "why_tests_cant": "all widths, all k and all contents; wide subtraction carries between words", "anchors": ["include/logic/bit.hh: operator^, operator-", "include/logic/big_num.hh: operator^, operator-"]}
{"id": "C183", "title": "Conditional negation by xor", "statement": "(a ^ m) - m is -a modulo 2^n if m is all ones and a if m is zero; (a + m) ^ m is -a modulo 2^n if m is all ones.", "quantifier": "unsigned 2-state vectors of every width n without ones above the width, every contents", "why_tests_cant": "all widths and contents; sums keep ones above the width", "anchors": ["include/logic/bit.hh: operator^, operator-, operator+", "include/logic/big_num.hh: operator^, operator-, operator+"]}
{"id": "C184", "title": "Evaluating a polynomial", "statement": "r = zero; for (i = cs.size(); i-- > 0;) r = r * d + cs[i]; leaves in r the value at d of the polynomial with the coefficients cs, if that value fits.", "quantifier": "unsigned 2-state vectors of every width of at least 2 without ones above the width, every point of at least 1, every list of coefficients of every length whose value fits", "why_tests_cant": "all lists, widths and points; wide products are lost or written outside the vector for some operands", "anchors": ["include/logic/bit.hh: operator*, operator+", "include/logic/big_num.hh: operator*, operator+"]}
{"id": "C185", "title": "Barrel shifters", "statement": "for (i = 0; i < m; i++) if (k[i]) a = a << s[i]; with s[i] equal to 2^i shifts a left by the number k, filling with zeros, and agrees with a << k where that is defined; the same with >>.", "quantifier": "unsigned 2-state vectors a of every width of at least 2 and k of every width m, declared down to 0, every contents, every amounts s[i] the library accepts", "why_tests_cant": "all widths of both vectors and all contents; stages cross words", "anchors": ["include/logic/bit.hh: operator<<, operator>>, operator[]", "include/logic/big_num.hh: operator<<, operator>>"]}
{"id": "C186", "title": "The Hamming distance of two vectors", "statement": "Counting the positions i with a[i] != b[i] gives a distance: between 0 and the width, 0 exactly for equal contents, symmetric, and with the triangle inequality. Counting the ones of a ^ b by clearing them one after the other gives the same number.", "quantifier": "2-state vectors of every width declared from n-1 down to 0, every contents; for the second way unsigned and without ones above the width", "why_tests_cant": "all widths and all pairs and triples of contents; the test for zero overlooks some ones", "anchors": ["include/logic/bit.hh: operator[], operator^, operator bool, operator-, operator&"]}
