{
 "claims": [
  {
   "property": "C01",
   "status": "proved",
   "theorems": [
    "C01_set_get"
   ],
   "note": "Proved for everything the property quantifies over."
  },
  {
   "property": "C02",
   "status": "partial",
   "theorems": [
    "C02_refuted",
    "C02_partial",
    "C02_exact"
   ],
   "note": "C02_refuted: false of the code for [5:2]. C02_partial: what holds: [operator[]] addresses the declared position of every ascending range, [set] that of every descending range. Missing: the other two combinations, false by [C02_refuted]. C02_exact: a bit written is read back, for any declared range. The lower bound must be 0, but for the top bit of a signed vector of 8 or 16 positions."
  },
  {
   "property": "C03",
   "status": "partial",
   "theorems": [
    "C03_read_exact",
    "C03_exact",
    "C03_refuted",
    "C03_partial",
    "C03_read_partial"
   ],
   "note": "C03_read_exact: reading a symbol of a 4-state vector. C03_exact: a symbol written is read back. C03_refuted: reading back an x written at position 69 of a 70-bit vector is undefined behaviour. C03_partial: Missing: reading an x or z at an index of 64 or more (false); ranges that do not start at 0 (see C02). C03_read_partial: every position can be read."
  },
  {
   "property": "C04",
   "status": "proved",
   "theorems": [
    "C04_default_bit",
    "C04_default_logic"
   ],
   "note": "2-state and 4-state constructors, every declared range."
  },
  {
   "property": "C05",
   "status": "proved",
   "theorems": [
    "C05_slice",
    "C05_rejected",
    "C05_logic_slice"
   ],
   "note": "C05_rejected: the remaining instantiations, 65-bit slices of multi-word vectors, are rejected by the compiler."
  },
  {
   "property": "C06",
   "status": "partial",
   "theorems": [
    "C06_refuted",
    "C06_partial",
    "C06_top_undefined",
    "C06_single_position",
    "C06_one_bit",
    "C06_65_rejected",
    "C06_exact",
    "C06_logic_partial"
   ],
   "note": "C06_refuted: the top of a signed vector cannot be sliced. C06_partial: Missing: one-bit slices of native signed vectors and slices that reach within one bit of the storage width (8, 16, 32, 64). C06_top_undefined: a select that reaches the top position of a signed vector whose width fills its storage is undefined. C06_single_position: a select of a single position of a signed vector reads that position or the next one up. C06_65_rejected: 65 positions of a wider signed vector do not compile. C06_exact: slices of signed vectors with the bounds as template arguments."
  },
  {
   "property": "C07",
   "status": "partial",
   "theorems": [
    "C07_refuted",
    "C07_partial",
    "C07_indexed_partial",
    "C07_one_bit",
    "C07_exact",
    "C07_logic_partial",
    "C07_logic_indexed_partial"
   ],
   "note": "C07_partial: Missing: vectors of one bit. C07_one_bit: the run-time select of a one-bit vector is always 0. C07_exact: slices with the bounds as function arguments."
  },
  {
   "property": "C08",
   "status": "partial",
   "theorems": [
    "C08_refuted",
    "C08_partial",
    "C08_exact",
    "C08_logic_partial"
   ],
   "note": "C08_partial: Missing: vectors that carry garbage above their width (produced by + - * << ~). C08_exact: unsigned vectors keep their number unless something stored above their width becomes visible."
  },
  {
   "property": "C09",
   "status": "partial",
   "theorems": [
    "C09_refuted",
    "C09_partial",
    "C09_big_partial",
    "C09_one_bit",
    "C09_exact"
   ],
   "note": "C09_refuted: a positive 70-bit value, and -1 in one bit. C09_partial: Missing: one-bit and multi-word sources. C09_big_partial: multi-word sources: ones are filled in whatever the sign, so negative numbers (and only these) survive. C09_one_bit: one-bit signed vectors are extended with zeros. C09_exact: signed vectors."
  },
  {
   "property": "C10",
   "status": "partial",
   "theorems": [
    "C10_refuted",
    "C10_partial",
    "C10_rejected",
    "C10_signed_partial",
    "C10_negative_right",
    "C10_wide",
    "C10_exact",
    "C10_logic_exact",
    "C10_logic_partial"
   ],
   "note": "C10_partial: Missing: totals above 32 with a left operand of at most 32 bits; signed operands. C10_rejected: totals of 64 and more do not compile. C10_signed_partial: the left operand may be signed and carry anything above its width, the right one may be signed but not negative. Missing: results of more than 32 positions with a left operand of at most 32 (below), more than 63 positions (rejected). C10_negative_right: a negative right operand erases the left one. C10_wide: a left operand of at most 32 positions is moved within 32 bits: what leaves them is lost, and moving it by 32 or more is undefined. C10_exact: the total must stay below 64 positions, and a left operand of at most 32 positions must not lose bits when shifted as unsigned int. C10_logic_exact: concatenation of 4-state vectors."
  },
  {
   "property": "C11",
   "status": "partial",
   "theorems": [
    "C11_exact",
    "C11_refuted",
    "C11_partial",
    "C11_mask_not_moved"
   ],
   "note": "C11_exact: concatenation with a 2-state vector. C11_refuted: {x, 1} of a one-bit logic and a one-bit bit is 0z. C11_partial: Missing: a left operand with x or z (false); widths beyond those of C10. C11_mask_not_moved: what happens to x and z: the value bits move up, the x/z mask stays."
  },
  {
   "property": "C12",
   "status": "partial",
   "theorems": [
    "C12_exact",
    "C12_unpack",
    "C12_refuted",
    "C12_concat_back_partial"
   ],
   "note": "C12_exact: unpacking a 4-state vector into any number of variables and joining them again gives the vector. C12_unpack: each variable receives its slice, the last one the least significant bits. C12_refuted: 64 ones, unpacked into two halves, cannot be concatenated back; 33 ones, unpacked into 31 and 2, lose the top position. C12_concat_back_partial: concatenating the variables back (a.concat(b).concat(c)...), for the widths C10 covers."
  },
  {
   "property": "C13",
   "status": "partial",
   "theorems": [
    "C13_same_width",
    "C13_refuted",
    "C13_mixed_partial",
    "C13_exact"
   ],
   "note": "C13_mixed_partial: Missing: different widths when an operand cannot be widened correctly (C08, C09). C13_exact: bitwise operators on vectors of different widths."
  },
  {
   "property": "C14",
   "status": "partial",
   "theorems": [
    "C14_refuted",
    "C14_partial",
    "C14_full_storage",
    "C14_signed_partial",
    "C14_exact"
   ],
   "note": "C14_refuted: + * << ~ leave garbage above the width. C14_partial: Missing: + - * << ~ unary minus (false), signed operands. C14_full_storage: vectors that fill their storage are always in order, so every operation on them keeps them so. C14_signed_partial: signed native operands. Missing: + - * / << ~ unary minus (false), multi-word operands. C14_exact: the result leaves the storage above the width clean."
  },
  {
   "property": "C15",
   "status": "partial",
   "theorems": [
    "C15_exact",
    "C15_mixed_exact",
    "C15_refuted",
    "C15_partial",
    "C15_mixed_partial"
   ],
   "note": "C15_exact: 4-state &. C15_refuted: x & 0 is x and z & 1 is 1. C15_partial: Every entry of the table but three: x & 0, z & 1, z & z. Missing: these three (false). C15_mixed_partial: operands of different width: the same with the narrower one extended by zeros."
  },
  {
   "property": "C16",
   "status": "partial",
   "theorems": [
    "C16_exact",
    "C16_mixed_exact",
    "C16_refuted",
    "C16_partial",
    "C16_mixed_partial"
   ],
   "note": "C16_exact: 4-state |. C16_refuted: x | 0 is 1 and z | 1 is x. C16_partial: Every entry of the table but two: x | 0, z | 1. Missing: these two (false)."
  },
  {
   "property": "C17",
   "status": "proved",
   "theorems": [
    "C17_xor",
    "C17_signed_rejected"
   ],
   "note": "C17_signed_rejected: two signed operands: none of the three operators compiles."
  },
  {
   "property": "C18",
   "status": "partial",
   "theorems": [
    "C18_exact",
    "C18_refuted",
    "C18_partial"
   ],
   "note": "C18_exact: 4-state ^ of different widths. C18_refuted: different widths compute | instead of ^. C18_partial: Missing: positions holding 1^1, 1^x, 1^z, x^0, x^1 (false); signed operands."
  },
  {
   "property": "C19",
   "status": "proved",
   "theorems": [
    "C19_not"
   ],
   "note": "Proved for everything the property quantifies over."
  },
  {
   "property": "C20",
   "status": "proved",
   "theorems": [
    "C20_known_bitwise"
   ],
   "note": "Proved for everything the property quantifies over."
  },
  {
   "property": "C21",
   "status": "partial",
   "theorems": [
    "C21_exact",
    "C21_refuted",
    "C21_partial",
    "C21_lowest_decides",
    "C21_complements"
   ],
   "note": "C21_exact: & of all symbols is right iff in front of every x or z there is a 0, or there is no 0 at all. C21_refuted: r_and of 0x is x. C21_partial: Missing: a 0 above an x or z (false). C21_lowest_decides: what r_and and r_or compute: the lowest symbol that is not 1 (not 0) decides. C21_complements: r_nand and r_nor."
  },
  {
   "property": "C22",
   "status": "partial",
   "theorems": [
    "C22_exact",
    "C22_refuted",
    "C22_partial"
   ],
   "note": "C22_exact: | of all symbols. C22_refuted: r_or of 1x is x. C22_partial: Missing: a 1 above an x or z (false)."
  },
  {
   "property": "C23",
   "status": "partial",
   "theorems": [
    "C23_exact",
    "C23_refuted",
    "C23_partial",
    "C23_parity_of_zeros",
    "C23_rejected"
   ],
   "note": "C23_exact: ^ of all symbols. C23_refuted: r_xor of 000 is 1. C23_partial: Missing: odd widths (false). C23_parity_of_zeros: what it computes at any width: the parity of the zeros. C23_rejected: the other instantiations do not compile."
  },
  {
   "property": "C24",
   "status": "partial",
   "theorems": [
    "C24_refuted",
    "C24_partial",
    "C24_any_set_exact_partial",
    "C24_nand_exact",
    "C24_nor_exact",
    "C24_exact",
    "C24_any_exact"
   ],
   "note": "C24_refuted: r_and of the one-bit vector 1 is false; so is that of a signed all-ones vector; a 128-bit vector with only bit 32 set is \"not any set\". C24_partial: Missing: r_and for one-bit, signed and multi-word vectors (false); r_or of multi-word vectors whose ones all lie in upper halves of 64-bit groups (false); r_xor of native vectors (does not compile). C24_any_set_exact_partial: multi-word any_set / r_or / operator bool exactly: it looks at the low half of each 64-bit group only. C24_nand_exact: the negated reductions, exactly as the reductions themselves. C24_exact: the & reduction of 2-state vectors. C24_any_exact: any_set."
  },
  {
   "property": "C25",
   "status": "partial",
   "theorems": [
    "C25_exact",
    "C25_not_exact",
    "C25_refuted",
    "C25_partial"
   ],
   "note": "C25_exact: conversion to bool. C25_not_exact: and operator!. C25_refuted: a 128-bit vector with only bit 32 set converts to false. C25_partial: Missing: multi-word vectors whose ones (or x/z) all lie in upper halves of 64-bit groups (false)."
  },
  {
   "property": "C26",
   "status": "partial",
   "theorems": [
    "C26_refuted",
    "C26_partial",
    "C26_rejected",
    "C26_wide_undefined",
    "C26_one_bit_undefined",
    "C26_exact"
   ],
   "note": "C26_refuted: u8 >> 8 is undefined behaviour. C26_partial: Missing: amounts >= width for native vectors (false). C26_rejected: a native vector and a multi-word amount do not compile. C26_wide_undefined: an amount of at least the width is always undefined for native vectors. C26_exact: >>."
  },
  {
   "property": "C27",
   "status": "partial",
   "theorems": [
    "C27_refuted",
    "C27_partial",
    "C27_any_amount",
    "C27_one_bit",
    "C27_exact"
   ],
   "note": "C27_partial: Missing: native amounts of at least 32 (64 for widths above 32) and one-bit vectors (false). C27_any_amount: the amount is reduced modulo 2^storage; the result is right for reduced amounts below 32 (64 for vectors of more than 32 positions), undefined otherwise. C27_one_bit: a one-bit vector is never changed by <<. C27_exact: <<. A count held in at most 64 positions is first reduced to the holder type of the left operand; [wrap] is that reduction ([SpecMachine.v])."
  },
  {
   "property": "C28",
   "status": "partial",
   "theorems": [
    "C28_refuted",
    "C28_partial",
    "C28_negative_partial",
    "C28_any_amount",
    "C28_one_bit",
    "C28_exact"
   ],
   "note": "C28_refuted: -2 in 128 bits shifted by 1 is not -1. C28_partial: Missing: native amounts of at least 32/64, one-bit vectors, negative multi-word values (false). C28_negative_partial: negative multi-word values: exactly one position is wrong, bit width-1-amount is cleared. C28_any_amount: as for the left shift. C28_exact: >>>."
  },
  {
   "property": "C29",
   "status": "partial",
   "theorems": [
    "C29_exact",
    "C29_refuted",
    "C29_unknown_partial",
    "C29_shr_partial",
    "C29_shl_partial",
    "C29_ashr_partial"
   ],
   "note": "C29_exact: a shift of 4-state vectors is all x iff the library notices an x or z in an operand. C29_refuted: the library misses an x in position 32 of a 128-bit vector. C29_unknown_partial: Missing: multi-word vectors whose x/z all lie in upper halves of 64-bit groups (false). C29_shr_partial: known operands: C26, C27, C28 at 4 states."
  },
  {
   "property": "C30",
   "status": "partial",
   "theorems": [
    "C30_refuted",
    "C30_partial",
    "C30_any_width",
    "C30_exact"
   ],
   "note": "C30_refuted: 8-bit 1 == 16-bit 257. C30_partial: Missing: a right operand stored in a wider integer type; multi-word vectors of different word counts whose excess words have ones in upper halves only (both false); multi-word signed operands. C30_any_width: the right operand is first reduced modulo 2^storage of the left one. C30_exact: == of unsigned vectors."
  },
  {
   "property": "C31",
   "status": "proved",
   "theorems": [
    "C31_ne_bit",
    "C31_logic_ne",
    "C31_logic_ne_undefined"
   ],
   "note": "Proved for everything the property quantifies over."
  },
  {
   "property": "C32",
   "status": "partial",
   "theorems": [
    "C32_refuted",
    "C32_native_partial",
    "C32_big_partial",
    "C32_rejected",
    "C32_exact",
    "C32_equal_exact"
   ],
   "note": "C32_refuted: a native vector against a multi-word one falls off the end of the function. C32_native_partial: both native. C32_big_partial: both multi-word (one of them may be signed: C34). C32_rejected: native against multi-word. C32_exact: > and < of unsigned vectors. C32_equal_exact: >= and <= of unsigned vectors."
  },
  {
   "property": "C33",
   "status": "partial",
   "theorems": [
    "C33_refuted",
    "C33_native_partial",
    "C33_big_partial",
    "C33_exact"
   ],
   "note": "C33_refuted: the most negative 70-bit number compared with itself never terminates, whatever the recursion budget. C33_big_partial: Missing: multi-word with the minimal value or two negative numbers of different width; >= and <= (do not compile for equal widths); one-bit signed vectors. C33_exact: > of signed vectors."
  },
  {
   "property": "C34",
   "status": "partial",
   "theorems": [
    "C34_refuted",
    "C34_partial",
    "C34_exact"
   ],
   "note": "C34_refuted: 8-bit signed -1 is greater than 8-bit unsigned 255. C34_partial: Missing: negative signed operands in native vectors of less than 64 bits (false). Multi-word operands: C32_big_partial. C34_exact: a signed with an unsigned vector of at most 64 positions."
  },
  {
   "property": "C35",
   "status": "partial",
   "theorems": [
    "C35_exact",
    "C35_refuted",
    "C35_partial",
    "C35_bit_logic_partial"
   ],
   "note": "C35_exact: so is a comparison. C35_refuted: the library misses an x in position 32 of a 128-bit vector. C35_partial: Missing: multi-word vectors whose x/z all lie in upper halves of 64-bit groups (false). C35_bit_logic_partial: a bit against a logic."
  },
  {
   "property": "C36",
   "status": "partial",
   "theorems": [
    "C36_exact",
    "C36_refuted",
    "C36_partial",
    "C36_types_exact"
   ],
   "note": "C36_exact: match() of equal types. C36_types_exact: match() of unsigned vectors of any two widths and bounds. C36_refuted: 4-bit 8+8 reads 0000 but does not match 0000 (the carry is kept above the width). C36_partial: Missing: operands with content above their width (false). Signed vectors of different types: C137 says what is compared."
  },
  {
   "property": "C37",
   "status": "partial",
   "theorems": [
    "C37_refuted",
    "C37_same_width_partial",
    "C37_mixed_width_partial",
    "C37_defined",
    "C37_one_bit",
    "C37_exact"
   ],
   "note": "C37_refuted: 1 + 1 = 1 in one bit. C37_same_width_partial: equal widths; the operands may carry garbage above their width. Missing: one bit (false), signed overflow of 32- and 64-bit vectors (undefined), untidy signed vectors of 17 to 64 bits. C37_mixed_width_partial: different widths. Missing: operands that cannot be widened correctly (C08, C09). C37_defined: exactly when the operation is defined. In up to 16 positions, and when both operands are signed, the exact result of the stored numbers must be representable in 32 or 64 signed bits. C37_one_bit: one-bit addition is OR. C37_exact: +."
  },
  {
   "property": "C38",
   "status": "partial",
   "theorems": [
    "C38_refuted",
    "C38_same_width_partial",
    "C38_mixed_width_partial",
    "C38_neg_partial",
    "C38_neg_rejected",
    "C38_defined",
    "C38_neg_undefined",
    "C38_exact",
    "C38_neg_exact"
   ],
   "note": "C38_same_width_partial: Missing: as for C37, except that one bit is right. C38_neg_rejected: unary minus does not compile for multi-word vectors. C38_neg_undefined: negating the least 32- or 64-bit number is undefined. C38_exact: - with two operands. C38_neg_exact: and with one."
  },
  {
   "property": "C39",
   "status": "partial",
   "theorems": [
    "C39_refuted",
    "C39_same_width_partial",
    "C39_big_partial",
    "C39_mixed_width_partial",
    "C39_defined",
    "C39_exact",
    "C39_wide_exact"
   ],
   "note": "C39_refuted: 65535 * 65535 in 16 bits and 2^64 * 2^64 in 128 bits are undefined. C39_same_width_partial: native, equal widths. C39_big_partial: multi-word: the factors must fit in ka and kb 64-bit groups with ka+kb groups available. C39_exact: * up to 64 positions. C39_wide_exact: products of unsigned vectors of more than 64 positions."
  },
  {
   "property": "C40",
   "status": "partial",
   "theorems": [
    "C40_refuted",
    "C40_partial",
    "C40_zero_undefined",
    "C40_unseen_divisor",
    "C40_exact"
   ],
   "note": "C40_refuted: a 128-bit division by 2^32 gives 0. C40_partial: Missing: multi-word numbers indistinguishable from small ones by their low halves (false). C40_zero_undefined: native division by zero is undefined. C40_unseen_divisor: multi-word division by zero, or by a number all of whose ones lie in upper halves of 64-bit groups: quotient and remainder are 0. C40_exact: / and % of unsigned vectors of any two widths."
  },
  {
   "property": "C41",
   "status": "partial",
   "theorems": [
    "C41_exact",
    "C41_refuted",
    "C41_partial"
   ],
   "note": "C41_exact: / and % of known 4-state vectors are x iff the divisor is taken for 0. C41_refuted: 1 / 2^32 at 128 bits is x. C41_partial: Missing: multi-word divisors whose ones all lie in upper halves of 64-bit groups (false); signed multi-word dividends (do not compile)."
  },
  {
   "property": "C42",
   "status": "partial",
   "theorems": [
    "C42_exact",
    "C42_refuted",
    "C42_unknown_partial",
    "C42_known_partial",
    "C42_neg_partial",
    "C42_neg_rejected",
    "C42_plus_partial"
   ],
   "note": "C42_exact: arithmetic; division also by a number taken for 0. C42_refuted: the library misses an x in position 32 of a 128-bit vector. C42_unknown_partial: Missing: multi-word vectors whose x/z all lie in upper halves of 64-bit groups (false). C42_known_partial: known operands: the 2-state result (division: C41_partial). C42_neg_partial: unary minus and plus."
  },
  {
   "property": "C43",
   "status": "partial",
   "theorems": [
    "C43_refuted",
    "C43_partial",
    "C43_exact"
   ],
   "note": "C43_partial: Missing: 9- to 16-bit and multi-word products, division by zero, signed operands (false). C43_exact: exactly when arithmetic on vectors of one width is undefined."
  },
  {
   "property": "C44",
   "status": "partial",
   "theorems": [
    "C44_refuted",
    "C44_partial",
    "C44_logic_exact",
    "C44_logic_partial",
    "C44_exact"
   ],
   "note": "C44_refuted: ++ on the one-bit 1. C44_partial: Missing: one bit. C44_logic_exact: ++ and --. C44_exact: ++ and -- of vectors of any width and bounds: exactly when they give the neighbouring number modulo 2^n."
  },
  {
   "property": "C45",
   "status": "proved",
   "theorems": [
    "C45_resign",
    "C45_logic_resign"
   ],
   "note": "Proved for everything the property quantifies over."
  },
  {
   "property": "C46",
   "status": "partial",
   "theorems": [
    "C46_refuted",
    "C46_partial",
    "C46_other_widths",
    "C46_exact"
   ],
   "note": "C46_refuted: the 4-bit vector 1111 re-interpreted as signed reads 15. C46_partial: Missing: negative readings at widths other than 8, 16, 32, 64. C46_other_widths: at widths that do not fill the storage, re-interpretation as signed does not change the reading, and re-interpretation of a negative vector as unsigned adds 2^storage. C46_exact: reading a vector as a signed number."
  },
  {
   "property": "C47",
   "status": "partial",
   "theorems": [
    "C47_refuted",
    "C47_bit_partial",
    "C47_exact",
    "C47_uint64_exact",
    "C47_logic_exact",
    "C47_logic_partial"
   ],
   "note": "C47_refuted: 4-bit 8+8 reads 0000 but converts to 16. C47_bit_partial: Missing: vectors that carry garbage above their width (false). C47_exact: to_num of a 2-state vector. C47_uint64_exact: to_uint64 of a 2-state vector. C47_logic_exact: to_uint64 of a 4-state vector. C47_logic_partial: Missing: vectors that carry garbage above their width, multi-word vectors whose x and z are not noticed (C42_refuted)."
  },
  {
   "property": "C48",
   "status": "partial",
   "theorems": [
    "C48_refuted",
    "C48_partial",
    "C48_one_bit",
    "C48_exact",
    "C48_logic_partial"
   ],
   "note": "C48_refuted: assigning 8-bit 2 to one bit gives 1. C48_partial: Missing: one-bit destinations. Multi-word assignments exist for equal widths only. C48_one_bit: a one-bit destination becomes 1 iff the source is not 0. C48_exact: assignment."
  },
  {
   "property": "C49",
   "status": "partial",
   "theorems": [
    "C49_exact",
    "C49_refuted",
    "C49_runtime_partial",
    "C49_constant_partial"
   ],
   "note": "C49_exact: part-select update of a logic vector. C49_refuted: updating a 70-bit range from a source with an x in position 69 is undefined behaviour. C49_runtime_partial: Missing: sources with an x or z at position 64 or above (false). C49_constant_partial: the constant form, and assignment through a slice reference, are the run-time form."
  },
  {
   "property": "C50",
   "status": "partial",
   "theorems": [
    "C50_refuted",
    "C50_runtime_partial",
    "C50_constant_partial",
    "C50_constant_exact",
    "C50_constant_undefined",
    "C50_exact",
    "C50_constant_iff",
    "C50_plain_exact"
   ],
   "note": "C50_refuted: update<7,4>(1111) writes 0000. C50_runtime_partial: the run-time form. Missing: sources narrower than the range, ascending ranges. C50_constant_partial: the constant form is right for ranges that start at 0 only. C50_constant_exact: update<a, b> takes the positions of the source at the indices of the destination; positions the source does not have count as 0. C50_constant_undefined: ... and indices of 32 (64) and more are undefined for native sources. C50_exact: update(a, b, op), for ranges in either direction: which position of the source each index receives, and exactly when that is the promised one. C50_constant_iff: update<a, b>(op): the source is read at the index of the destination. C50_plain_exact: update(a, b, op) of vectors [n-1:0]: sources too narrow for the range supply zeros unless they are negative."
  },
  {
   "property": "C51",
   "status": "partial",
   "theorems": [
    "C51_refuted",
    "C51_element_partial",
    "C51_no_element_partial",
    "C51_bit_element_partial",
    "C51_bit_no_element_partial",
    "C51_rejected",
    "C51_exact",
    "C51_no_element_exact",
    "C51_bit_exact",
    "C51_bit_no_element_exact"
   ],
   "note": "C51_refuted: reading the last of four 8-bit elements is undefined behaviour; an element of a range that does not start at 0 reads as x; a nonexistent element reads as known bits; one-bit elements are mixed with their neighbour. C51_element_partial: Missing: indices that are not smaller than the number of bits of the array; one-bit elements of native arrays and the element that ends at the storage width of a native array. C51_no_element_partial: Missing: indices that are smaller than the number of bits but not elements (false). C51_bit_element_partial: the same for 2-state arrays. C51_rejected: an index of more than 64 bits does not compile. C51_exact: reading an element of a 4-state array. C51_no_element_exact: an index without an element reads all x. C51_bit_exact: the same for 2-state arrays."
  },
  {
   "property": "C52",
   "status": "partial",
   "theorems": [
    "C52_refuted",
    "C52_bit_refuted",
    "C52_element_partial",
    "C52_no_element_partial",
    "C52_bit_element_partial",
    "C52_bit_no_element_partial",
    "C52_exact",
    "C52_no_element_exact",
    "C52_bit_exact",
    "C52_bit_no_element_exact"
   ],
   "note": "C52_refuted: writing element 1 clears the lowest position of element 2; writing the last element of a 64-bit array is undefined behaviour. C52_element_partial: What holds: the element gets the value, the lowest position of the next element gets the position of the value above the element (0 for a value of the element width), and nothing else changes. Missing: the neighbour (false); the element that ends at position 64 of a 64-bit array (undefined behaviour); values with x or z at position 64 or above; indices not smaller than the number of bits. C52_no_element_partial: Missing: indices that are smaller than the number of bits but not elements. C52_exact: writing an element of a 4-state array. C52_no_element_exact: an index without an element leaves the array unchanged. C52_bit_exact: the same for 2-state arrays."
  },
  {
   "property": "C53",
   "status": "partial",
   "theorems": [
    "C53_refuted",
    "C53_read",
    "C53_read_signed_partial",
    "C53_bit_read",
    "C53_bit_rejected",
    "C53_write_partial",
    "C53_exact",
    "C53_bit_exact",
    "C53_write_exact"
   ],
   "note": "C53_refuted: reading all of a signed 32-bit array is undefined, and so is writing a range with an x or z at position 64 or above. C53_read: [w] is the number of positions of elements [lo] to [hi]. C53_read_signed_partial: Missing: signed native arrays when the range reaches the storage width less one (see C06). C53_bit_rejected: a 2-state array of more than 64 bits has no [slice_array]. C53_write_partial: Missing: values with an x or z at position 64 or above (see C49). C53_exact: reading a range of elements. C53_bit_exact: of a 2-state array (the instance exists up to 64 bits). C53_write_exact: and writing it."
  },
  {
   "property": "C54",
   "status": "partial",
   "theorems": [
    "C54_refuted",
    "C54_read",
    "C54_read_exact",
    "C54_write_partial",
    "C54_write_outside_partial",
    "C54_write_exact",
    "C54_write_outside_exact"
   ],
   "note": "C54_refuted: elements 5 down to 2 hold 4, 3, 2, 1; element 4 cannot be written; writing element 1, which does not exist, is undefined behaviour, and so is reading element - 2 ^ 31. C54_read: Reading an element is right for every range. [T] is any element type, [assign] its assignment. C54_read_exact: every other [int] gives the default element unless its distance to the lowest index is not an [int]. C54_write_partial: Missing: ranges that do not start at 0, for indices that are not smaller than the number of elements (false). C54_write_outside_partial: Missing: ranges that do not start at 0, for indices below the range (false). C54_write_exact: writing an element is right exactly if its index is smaller than the number of elements or the element already holds what is written. C54_write_outside_exact: writing outside the range: ignored, undefined or rejected by the compiler."
  },
  {
   "property": "C55",
   "status": "partial",
   "theorems": [
    "C55_array_partial",
    "C55_exact",
    "C55_refuted",
    "C55_logic_partial",
    "C55_bit_partial"
   ],
   "note": "C55_array_partial: the elements of a packed array built from a text. Missing: as in [C55_logic_partial], arrays of more than 64 positions. C55_exact: a binary literal of up to 64 digits is read right iff no x or z is at place 32 or above and no upper-case X or Z is below the width. C55_refuted: a 34-digit binary literal that begins with x is undefined behaviour; an upper-case X is read as 0. C55_logic_partial: Missing: x and z at position 32 and above, upper-case X and Z (both false); more than 64 digits. With [k] = 3 and [k] = 4 the same theorem is the 4-state half of C57 and C56. C55_bit_partial: 2-state vectors read an x as 0 and a z as 1."
  },
  {
   "property": "C56",
   "status": "partial",
   "theorems": [
    "C56_exact",
    "C56_refuted",
    "C56_partial"
   ],
   "note": "C56_exact: a hexadecimal literal is read right iff it is short enough and every lower-case digit is above the width (its lowest position is always right). C56_refuted: 'hff is read as 85. C56_partial: Missing: lower-case digits (false); texts of more than 16 digits or that begin with an underscore."
  },
  {
   "property": "C57",
   "status": "partial",
   "theorems": [
    "C57_exact",
    "C57_refuted",
    "C57_partial",
    "C57_groups_partial"
   ],
   "note": "C57_exact: an octal literal is read right iff it is short enough; otherwise reading it is undefined. C57_refuted: an octal 5 written with 23 digits is undefined behaviour; a one-bit vector reads 2 as 1. C57_partial: Missing: texts of more than 22 digits or that begin with an underscore; too large numbers for one-bit vectors."
  },
  {
   "property": "C58",
   "status": "proved",
   "theorems": [
    "C58_bit",
    "C58_logic",
    "C58_multi_word"
   ],
   "note": "C58_bit: every native width; a number that the vector cannot hold is reduced modulo 2^n."
  },
  {
   "property": "C59",
   "status": "partial",
   "theorems": [
    "C59_binary_exact",
    "C59_hexadecimal_exact",
    "C59_octal_exact",
    "C59_hexadecimal_number_exact",
    "C59_octal_number_exact",
    "C59_decimal_exact",
    "C59_refuted",
    "C59_number_partial",
    "C59_symbols_partial",
    "C59_short_partial"
   ],
   "note": "C59_binary_exact: every position is right exactly when no x or z stands in the upper half of a word, and no X or Z stands among the [n] lowest digits. C59_hexadecimal_exact: hexadecimal: exactly when only the lowest position of a lower-case digit, if any, lies inside the vector. C59_octal_exact: octal: exactly when every position from 63 up is 0. C59_hexadecimal_number_exact: 2-state vectors and the number denoted. C59_decimal_exact: decimal, up to 64 characters, underscores allowed: exactly when the number fits one word. For longer texts each 64 characters are taken for a word of their own ([C141_bit] says what is read). C59_refuted: underscores and octal digits of long literals go to the wrong positions; a long decimal loses its high part. C59_number_partial: Missing: underscores, octal and decimal literals of more than one word (all false); lower-case digits. C59_short_partial: texts of one word: every base, underscores allowed."
  },
  {
   "property": "C60",
   "status": "partial",
   "theorems": [
    "C60_exact",
    "C60_bit_exact",
    "C60_refuted",
    "C60_logic_partial",
    "C60_bit_partial"
   ],
   "note": "C60_exact: 4-state vectors are printed right in binary iff the last word is not left out or shows only zeros. C60_bit_exact: 2-state vectors of more than one word must be signed, and every word its own mirror image. C60_refuted: the top word of a 128-bit vector is not printed; the bits of a signed 70-bit 2-state vector are printed in the wrong order, and str() of an unsigned one does not compile. C60_logic_partial: Missing: 4-state vectors of more than one word whose width is a multiple of 64 (false), 2-state vectors of more than one word (false)."
  },
  {
   "property": "C61",
   "status": "partial",
   "theorems": [
    "C61_exact",
    "C61_octal_exact",
    "C61_refuted",
    "C61_logic_partial",
    "C61_digit_partial",
    "C61_reversed_partial"
   ],
   "note": "C61_exact: without x and z, numerals are right iff nothing is stored beyond the width in the last digit and the last word is not left out. C61_octal_exact: octals of more than one word: the digits must not reach beyond the last word (otherwise the call is undefined, C142), and the positions of a digit behind a word boundary must be 0. C61_refuted: 2-state vectors print their digits in the wrong order; a negative 6-bit vector prints eight bits; a digit across the word boundary is wrong in octal, and octal of 128 bits is undefined behaviour. C61_logic_partial: Missing: the cases of C61_refuted, hexadecimal of widths that are multiples of 64 and at least 128 (false). C61_digit_partial: 2-state vectors: values of a single digit are right,. C61_reversed_partial: in general the digits are those of the numeral, the least significant first."
  },
  {
   "property": "C62",
   "status": "partial",
   "theorems": [
    "C62_exact",
    "C62_bit_exact",
    "C62_refuted",
    "C62_logic_partial",
    "C62_bit_partial",
    "C62_logic_multi_word_partial",
    "C62_bit_multi_word_partial"
   ],
   "note": "C62_exact: which decimals are right. C62_refuted: the smallest 32-bit number is undefined behaviour; 70-bit zero prints nothing and a negative one a wrong number; 128 bits are undefined behaviour; a signed one-bit -1 prints 1. C62_logic_partial: Missing: the cases of C62_refuted, values of 2^128 and above. Padding: C65."
  },
  {
   "property": "C63",
   "status": "partial",
   "theorems": [
    "C63_digits_exact",
    "C63_decimal_exact",
    "C63_refuted",
    "C63_digits_partial",
    "C63_decimal_partial",
    "C63_decimal_multi_word_partial"
   ],
   "note": "C63_digits_exact: binary, octal and hexadecimal: every character is right exactly when the incomplete top digit, if there is one, is not all x and not all z and, for several full words, the top word holds only 0. Octals of more than one word are left out ([C62_octal_exact]). C63_decimal_exact: decimals of a vector with x or z: the one character is right exactly when the value is not negative, the vector has not 128 bits, a vector of 65 to 127 bits is not all x and not all z, and in a wider one the lower 128 positions have the same character as all. C63_refuted: an incomplete top digit of x prints X; a signed 6-bit vector of z prints -X; a 70-bit vector of x prints X. C63_digits_partial: An incomplete top digit is printed as if the missing positions were 0. Missing: octal of more than one word, widths that are multiples of 64 and at least 128. C63_decimal_partial: Missing: negative signed vectors (false), multi-word vectors without a known position, 128 bits and more."
  },
  {
   "property": "C64",
   "status": "partial",
   "theorems": [
    "C64_exact",
    "C64_refuted",
    "C64_binary_partial",
    "C64_bit_binary_partial",
    "C64_hex_partial",
    "C64_decimal_partial"
   ],
   "note": "C64_exact: writing in binary and reading back gives the same symbols iff no x or z is in the upper half of a word and the last word is not left out or shows only zeros. C64_refuted: the hexadecimal text of 171 is read back as 1; the binary text of a vector with an x in position 33 is undefined behaviour when read back. C64_binary_partial: Missing: x and z in the upper half of a word; widths that are multiples of 64 and at least 128 (both false). C64_hex_partial: Missing: digits a to f, digits that mix known and unknown positions (both false). C64_decimal_partial: decimals, beyond the property."
  },
  {
   "property": "C65",
   "status": "partial",
   "theorems": [
    "C65_logic_exact",
    "C65_bit_exact",
    "C65_refuted",
    "C65_logic_partial",
    "C65_bit_partial"
   ],
   "note": "C65_logic_exact: the field of a 4-state vector is the text without a width filled up on the left to the usual or larger requested number of characters exactly when the width fits; likewise for 2-state vectors of one word and 2-state decimals. C65_refuted: a signed 70-bit 2-state vector is padded in the middle; a width of 2^64 or more throws. C65_logic_partial: The text is the unpadded text (\"0\" and the base) filled up on the left to the usual or the larger requested width; the sign of a decimal comes on top. Missing: 2-state vectors of more than one word (false), widths of 2^64 and more (false), decimals of 128 bits."
  },
  {
   "property": "C66",
   "status": "partial",
   "theorems": [
    "C66_refuted",
    "C66_bitwise_partial",
    "C66_shift_partial",
    "C66_exact"
   ],
   "note": "C66_refuted: one-bit 0 |= 2-bit 10 gives 1. C66_bitwise_partial: Missing: one-bit destination with a wider operand; signed destination with unsigned operand and multi-word destination with a wider operand (do not compile). C66_exact: &=, |= and ^=."
  },
  {
   "property": "C67",
   "status": "proved",
   "theorems": [
    "C67_mixed_is_extended"
   ],
   "note": "Proved for everything the property quantifies over."
  },
  {
   "property": "C68",
   "status": "partial",
   "theorems": [
    "C68_refuted",
    "C68_highest_bit_partial",
    "C68_partial",
    "C68_exact"
   ],
   "note": "C68_partial: Missing: all_set (always false above 64 bits), numbers whose upper words have ones in upper halves only. C68_exact: the tests whether a number of several words fits in 64 bits and whether it is 1."
  },
  {
   "property": "C69",
   "status": "proved",
   "theorems": [
    "C69_bit_literals",
    "C69_logic_literals"
   ],
   "note": "Proved for everything the property quantifies over."
  },
  {
   "property": "C70",
   "status": "proved",
   "theorems": [
    "C70_overflow_undefined",
    "C70_signed_division",
    "C70_any_widths"
   ],
   "note": "C70_overflow_undefined: signed division of native vectors truncates towards zero. C70_signed_division: The one excluded case is the overflowing quotient of 32- and 64-bit vectors (above); multi-word signed division does not compile. C70_any_widths: signed operands of any two native widths; the quotient truncates towards zero and the remainder takes the sign of the dividend."
  },
  {
   "property": "C71",
   "status": "proved",
   "theorems": [
    "C71_last_write_wins"
   ],
   "note": "Proved for everything the property quantifies over."
  },
  {
   "property": "C72",
   "status": "partial",
   "theorems": [
    "C72_refuted",
    "C72_last_write_wins_partial",
    "C72_exact"
   ],
   "note": "C72_refuted: copying 70 positions from a 70-bit vector reaches shifts by 64 and more. C72_last_write_wins_partial: Missing: sources with an x or z in the positions from 64 on. C72_exact: any sequence of symbol and range writes to a 4-state vector leaves every position as the last write to it, iff no source has an x or z beyond position 63 to be copied; otherwise undefined."
  },
  {
   "property": "C73",
   "status": "proved",
   "theorems": [
    "C73_counting"
   ],
   "note": "Proved for everything the property quantifies over."
  },
  {
   "property": "C74",
   "status": "partial",
   "theorems": [
    "C74_refuted",
    "C74_counting_partial",
    "C74_exact"
   ],
   "note": "C74_refuted: a 70-bit vector whose only x is in position 40 is counted up to a known number. C74_counting_partial: Missing: vectors of more than 64 bits whose x and z all go unnoticed (C44). C74_exact: k steps of ++ or -- on a 4-state vector of at least 2 positions: all x as soon as the library notices an x or z, otherwise k is added modulo the width."
  },
  {
   "property": "C75",
   "status": "partial",
   "theorems": [
    "C75_refuted",
    "C75_expressions_partial",
    "C75_exact"
   ],
   "note": "C75_expressions_partial: Missing: what [supported] leaves out, namely 9- to 16-bit products of 2^31 and more, multi-word products except those of [factors], multi-word negation, multi-word quotients where an operand's words defeat the library's tests for zero, division of intermediate results at widths with storage above the positions. C75_exact: every expression, every width and all stored numbers, also those above the declared positions; the result follows the formulas of SpecProg.v."
  },
  {
   "property": "C76",
   "status": "partial",
   "theorems": [
    "C76_refuted",
    "C76_expressions_partial",
    "C76_exact"
   ],
   "note": "C76_refuted: x & 0 is x. C76_expressions_partial: Missing: what [supported4] leaves out. C76_exact: every expression, every width and all stored numbers, also those above the declared positions; the result follows the formulas of SpecProg4.v."
  },
  {
   "property": "C77",
   "status": "partial",
   "theorems": [
    "C77_bitwise",
    "C77_additive",
    "C77_refuted",
    "C77_negation_partial",
    "C77_product_partial",
    "C77_negation_exact",
    "C77_product_exact"
   ],
   "note": "C77_refuted: (a * b) * b is defined and a * (b * b) is not; a + (-a) of 70 bits does not compile. C77_negation_partial: Missing: multi-word negation. C77_product_partial: Missing: products of 9 to 16 bits (undefined behaviour, C75_refuted) and of more than 64 bits. C77_negation_exact: the laws with a minus hold for all operands exactly up to 64 positions. C77_product_exact: the laws with a product hold for all operands exactly up to 8 and from 17 to 64 positions: at the other widths ~0 * ~0 is undefined."
  },
  {
   "property": "C78",
   "status": "partial",
   "theorems": [
    "C78_refuted",
    "C78_compare_results_partial",
    "C78_exact"
   ],
   "note": "C78_refuted: 8 + 8 and 0 are equal in all four positions but not [==]. C78_compare_results_partial: Missing: results of [+], [-], [*], [~], [<<] at widths other than 8, 16, 32, 64 and multiples of 64. C78_exact: comparing vectors whose storage may hold results that overflowed the width."
  },
  {
   "property": "C79",
   "status": "partial",
   "theorems": [
    "C79_refuted",
    "C79_trichotomy_partial",
    "C79_transitive_partial",
    "C79_exact"
   ],
   "note": "C79_refuted: comparing the most negative 70-bit signed vector with itself does not terminate. C79_trichotomy_partial: Missing: signed vectors of more than 64 bits. C79_exact: the comparisons of two vectors of one type are a total order."
  },
  {
   "property": "C80",
   "status": "partial",
   "theorems": [
    "C80_refuted",
    "C80_native_partial",
    "C80_division_partial",
    "C80_exact"
   ],
   "note": "C80_refuted: (a / 1) * 1 + a % 1 of 70 bits is undefined. C80_native_partial: every pair of expressions up to 64 bits that have a value, whatever they contain; [amounts_vec]: shift amounts are vectors. Missing: more than 64 bits (false). C80_division_partial: Missing: vectors of more than 64 bits, and intermediate results at widths with storage above the positions. C80_exact: the division law beyond 64 positions."
  },
  {
   "property": "C81",
   "status": "proved",
   "theorems": [
    "C81_shifts"
   ],
   "note": "Proved for everything the property quantifies over."
  },
  {
   "property": "C82",
   "status": "partial",
   "theorems": [
    "C82_refuted",
    "C82_monotone_partial",
    "C82_exact"
   ],
   "note": "C82_refuted: z & 1 is 1 but 0 & 1 is 0. C82_monotone_partial: Missing: as in C76. C82_exact: where known results of & | ^ stay when x and z are replaced by known values: everywhere but at z & 1 and x | 0."
  },
  {
   "property": "C83",
   "status": "partial",
   "theorems": [
    "C83_exact",
    "C83_undivided",
    "C83_refuted",
    "C83_known_agrees_partial"
   ],
   "note": "C83_exact: up to 64 positions the two evaluations agree on all expressions the 2-state one gives a value exactly if the vectors fill their storage. C83_undivided: Without / and % the two evaluations have the same outcome and store the same, at 8, 16, 32, 64 and all multiples of 64 positions; with them, up to 64 positions, wherever the 2-state one has a value (a zero divisor gives x, C154). C83_refuted: ~(a - a) / b over 12-bit logic is 255 for b = 16, over bit it is 4095. C83_known_agrees_partial: Missing: what [supported] leaves out (C75)."
  },
  {
   "property": "C84",
   "status": "proved",
   "theorems": [
    "C84_bit_slice_of_slice",
    "C84_logic_slice_of_slice",
    "C84_bit_slice_of_extension",
    "C84_logic_slice_of_extension",
    "C84_bit_extension_twice",
    "C84_logic_extension_twice"
   ],
   "note": "Proved for everything the property quantifies over."
  },
  {
   "property": "C85",
   "status": "partial",
   "theorems": [
    "C85_slices_exact",
    "C85_split_exact",
    "C85_logic_slices_exact",
    "C85_logic_split_exact",
    "C85_refuted",
    "C85_bit_slices_of_concat_partial",
    "C85_logic_slices_of_concat_partial",
    "C85_bit_concat_of_slices_partial",
    "C85_logic_concat_of_slices_partial",
    "C85_bit_concat_assoc_partial",
    "C85_logic_concat_assoc_partial",
    "C85_logic_concat_many_partial",
    "C85_bit_concat_many_partial"
   ],
   "note": "C85_slices_exact: slicing a concatenation gives the operands back. C85_split_exact: concatenating the two parts of a vector gives the vector. C85_logic_slices_exact: the same for 4-state vectors. C85_refuted: totals of 33 to 63 bits are wrong when the left operand has at most 32 bits (C11). C85_bit_slices_of_concat_partial: Missing here and in the other C85 theorems: totals of 33 to 63 bits with a left operand of at most 32 bits (wrong), totals from 64 bits on (rejected), signed operands. C85_logic_concat_many_partial: concat with any number of arguments: every argument sits above the ones that follow it."
  },
  {
   "property": "C86",
   "status": "partial",
   "theorems": [
    "C86_exact",
    "C86_two_writes_exact",
    "C86_bit_write_then_read",
    "C86_bit_two_writes",
    "C86_refuted",
    "C86_logic_write_then_read_partial",
    "C86_logic_two_writes_partial"
   ],
   "note": "C86_exact: a slice updated is read back. C86_two_writes_exact: two updates of the same slice leave the second. C86_logic_write_then_read_partial: Missing here and below: 4-state sources with an x or z in the positions from 64 on ([clean])."
  },
  {
   "property": "C87",
   "status": "partial",
   "theorems": [
    "C87_exact",
    "C87_bit_forms_partial",
    "C87_logic_forms",
    "C87_refuted"
   ],
   "note": "C87_exact: assignments through slice_ref<a, b>(), slice_ref(a, b) and slice_ref<k, up>(a). C87_bit_forms_partial: [slice_ref<a, b>() = v] of 2-state vectors is [update<a, b>(v)], which is wrong unless the range starts at 0 (C50); the runtime forms are [update(a, b, v)], with the range of the indexed form spelled out."
  },
  {
   "property": "C88",
   "status": "partial",
   "theorems": [
    "C88_default_2state",
    "C88_exact",
    "C88_refuted",
    "C88_struct_partial",
    "C88_default",
    "C88_union_partial"
   ],
   "note": "C88_default_2state: a 2-state packed structure or union starts with zeros. C88_exact: writes to the fields of a packed 4-state structure. C88_refuted: 2-state structs written with [update<hi, lo>] lose fields that do not start at 0 (C50). C88_struct_partial: Missing: 2-state structs (wrong), values with an x or z in the positions from 64 on ([clean]), fields of 65 bits in wider structs. C88_default: every field of a fresh struct reads x. C88_union_partial: union members share the positions from 0 on."
  },
  {
   "property": "C89",
   "status": "proved",
   "theorems": [
    "C89_unpack",
    "C89_rejected"
   ],
   "note": "Proved for everything the property quantifies over."
  },
  {
   "property": "C90",
   "status": "proved",
   "theorems": [
    "C90_rejected"
   ],
   "note": "Proved for everything the property quantifies over."
  },
  {
   "property": "C91",
   "status": "partial",
   "theorems": [
    "C91_not_exact",
    "C91_match_exact",
    "C91_refuted",
    "C91_not_partial",
    "C91_match_partial"
   ],
   "note": "C91_not_exact: ! of a 2-state vector. C91_match_exact: match and nmatch. C91_not_partial: Missing: multi-word vectors whose ones all lie in upper halves of 64-bit groups (wrong). C91_match_partial: Missing: the operand pairs on which [==] is wrong (C30)."
  },
  {
   "property": "C92",
   "status": "partial",
   "theorems": [
    "C92_refuted",
    "C92_lockstep_partial",
    "C92_fuel",
    "C92_states",
    "C92_exact",
    "C92_right_or_undefined"
   ],
   "note": "C92_refuted: products of 16-bit variables overflow int. C92_lockstep_partial: Missing: widths without full storage (C73, C74: comparison and division see what is stored above the width), products of 16-bit variables (wrong), [-], [*], [/], [%] on multi-word variables, signed variables. C92_fuel: a finished run stays the same with more fuel. C92_states: every vector of the type is given by the number it stores. C92_exact: every program, every width, in lockstep with the program over the stored numbers. C92_right_or_undefined: At 8, 16, 32 and 64 positions a program does what it does over the integers modulo 2^n, or its behaviour is undefined; the latter exactly if the program over the stored numbers divides by zero, forms a 16-bit product of 2^31 or more or shifts by too much."
  },
  {
   "property": "C93",
   "status": "proved",
   "theorems": [
    "C93_euclid"
   ],
   "note": "C93_euclid: greatest common divisors by Euclid's algorithm, for all arguments of 8, 16, 32, 64 bits."
  },
  {
   "property": "C94",
   "status": "partial",
   "theorems": [
    "C94_read",
    "C94_write",
    "C94_writes",
    "C94_slice",
    "C94_slice_rejected",
    "C94_slice_runtime",
    "C94_slice_refuted",
    "C94_concat",
    "C94_extend_refuted",
    "C94_extend_partial",
    "C94_narrow_rejected",
    "C94_extend_exact"
   ],
   "note": "C94_read: reading. C94_write: writing one position; a constant index outside the number is rejected. C94_writes: any sequence of writes: the last write of a position wins. C94_slice_refuted: a runtime slice up to position 2^64-1 never ends. C94_extend_refuted: extending a non-negative signed number changes its value. C94_extend_partial: Missing: non-negative signed numbers, numbers with garbage above their width (both false). C94_extend_exact: widening a big_num."
  },
  {
   "property": "C95",
   "status": "partial",
   "theorems": [
    "C95_not",
    "C95_refuted",
    "C95_and_partial",
    "C95_or_partial",
    "C95_xor_partial",
    "C95_and_assign_partial",
    "C95_xor_assign_partial",
    "C95_assign_rejected",
    "C95_parity",
    "C95_mask",
    "C95_mask_off",
    "C95_exact"
   ],
   "note": "C95_refuted: a narrower signed operand is filled with ones; ~ leaves ones above the width. C95_and_partial: Missing: a narrower operand that does not widen (see [widens]; false). C95_and_assign_partial: compound assignment keeps the type of the object. C95_exact: &, | and ^ of big_nums. An operand that is widened wrongly gets ones above its size."
  },
  {
   "property": "C96",
   "status": "partial",
   "theorems": [
    "C96_shr",
    "C96_shl",
    "C96_shr_by_number",
    "C96_shl_by_number",
    "C96_ashr_unsigned",
    "C96_ashr_refuted",
    "C96_ashr_exact",
    "C96_ashr_partial"
   ],
   "note": "C96_shr_by_number: the amount may be a number of any size. C96_ashr_refuted: the arithmetic shift of a negative number loses a sign bit. C96_ashr_exact: exactly: the position n-1-k of the quotient is cleared. C96_ashr_partial: Missing: negative numbers shifted by less than their width (false)."
  },
  {
   "property": "C97",
   "status": "partial",
   "theorems": [
    "C97_refuted",
    "C97_eq_partial",
    "C97_eq_complete",
    "C97_order",
    "C97_order_eq_partial",
    "C97_signed_partial",
    "C97_signed_eq_partial",
    "C97_signed_rejected",
    "C97_native",
    "C97_exact",
    "C97_signed_eq_exact",
    "C97_signed_exact"
   ],
   "note": "C97_refuted: a wider operand with ones only in upper halves of words above the other one's compares equal; signed operands of different sizes compare wrong; > of two signed minimal values never ends. C97_eq_partial: not both signed; Missing: different numbers of words with an invisible excess (false). C97_signed_partial: both signed. Missing: two negative numbers of different sizes, and the smallest number (false). C97_exact: ==, != and >= of big_nums that are not both signed. C97_signed_eq_exact: == of signed big_nums. C97_signed_exact: > of signed big_nums; two smallest numbers are compared forever."
  },
  {
   "property": "C98",
   "status": "partial",
   "theorems": [
    "C98_refuted",
    "C98_add_partial",
    "C98_sub_partial",
    "C98_negate",
    "C98_mul_partial",
    "C98_div_partial",
    "C98_div_zero",
    "C98_div_rejected",
    "C98_exact",
    "C98_mul_exact",
    "C98_div_exact"
   ],
   "note": "C98_refuted: arithmetic. C98_add_partial: Missing: a narrower operand that does not widen (false). C98_mul_partial: the product is right exactly as long as the operands' groups of 64 positions fit side by side; otherwise the multiplication writes outside the number. Missing: operands that do not widen, and operands whose upper groups are invisible (false). C98_div_partial: Missing: signed dividends (rejected), invisible operands (next theorem). C98_div_zero: division by zero, and by a number the library takes for zero, gives 0 and 0. C98_exact: + and - of big_nums. C98_mul_exact: products of big_nums, for operands that are widened correctly. C98_div_exact: quotients and remainders of unsigned big_nums."
  },
  {
   "property": "C99",
   "status": "partial",
   "theorems": [
    "C99_refuted",
    "C99_any_partial",
    "C99_all_partial",
    "C99_all_multi_refuted",
    "C99_one_partial",
    "C99_highest_partial",
    "C99_negative",
    "C99_negative_rejected",
    "C99_to_uint64",
    "C99_rejected",
    "C99_exact"
   ],
   "note": "C99_refuted: queries. C99_any_partial: exactly: [any_set] and the conversion to bool see only the low half of every 64-bit group. C99_rejected: members that can never be instantiated: popcount, |=, comparisons > >= <= with native numbers, power. C99_exact: any_set, fit_in_64, is_one, all_set and the highest set bit."
  },
  {
   "property": "C100",
   "status": "partial",
   "theorems": [
    "C100_default",
    "C100_clear",
    "C100_convert",
    "C100_native_refuted",
    "C100_native_partial",
    "C100_text_refuted",
    "C100_text_partial",
    "C100_native_exact",
    "C100_text_any",
    "C100_text_exact"
   ],
   "note": "C100_default: construction and conversion. C100_native_refuted: a negative native number in an unsigned object is extended with zeros above 64 positions. C100_native_partial: Missing: negative numbers in unsigned objects (false for multi-word ones). C100_text_refuted: a text shorter than the number leaves the upper words as they were in memory. C100_text_partial: a binary or hexadecimal text that reaches into the top word is read right whatever the memory held. Missing: shorter texts (false), underscores, other bases. C100_native_exact: a [big_num] made from a native number. C100_text_any: a [big_num] made from a text: the words the text does not reach keep what the memory of the object held. C100_text_exact: so the number is right exactly if that is 0."
  },
  {
   "property": "C101",
   "status": "partial",
   "theorems": [
    "C101_native",
    "C101_refuted",
    "C101_unsigned_partial",
    "C101_signed",
    "C101_big_partial",
    "C101_exact"
   ],
   "note": "C101_native: reading outside the range. Native vectors: the storage is read, up to 32 (64) positions; beyond and below it is undefined. C101_refuted: reading 4-bit 0101 at 40. C101_unsigned_partial: unsigned: 0 up to the limit. C101_signed: signed: the sign. C101_big_partial: multi-word: always 0. C101_exact: reading a position outside the declared range."
  },
  {
   "property": "C102",
   "status": "partial",
   "theorems": [
    "C102_refuted",
    "C102_exact_partial"
   ],
   "note": "C102_refuted: the 4-bit signed x001 extended to 8 bits. C102_exact_partial: exactly: the positions are kept; the new ones are 0 (unsigned or one bit), the value bit of the top position (native signed: 0 for 0 and x, 1 for 1 and z), or 1 (multi-word signed). Missing: the property for signed vectors with an x or z on top and for multi-word signed vectors (false)."
  },
  {
   "property": "C103",
   "status": "partial",
   "theorems": [
    "C103_states",
    "C103_exact",
    "C103_refuted",
    "C103_lockstep_partial",
    "C103_own_tables"
   ],
   "note": "C103_states: every vector of the type is given by the two numbers it stores. C103_exact: every program, every width, in lockstep with the program over the stored numbers. C103_refuted: v0 = v0 & v1 with x and 0 leaves x. C103_lockstep_partial: Missing: programs with & and | (false), widths other than 8, 16, 32, 64, products of 16-bit variables. C103_own_tables: every program, with the tables the library implements (C109)."
  },
  {
   "property": "C104",
   "status": "proved",
   "theorems": [
    "C104_two_and_four_state"
   ],
   "note": "C104_two_and_four_state: programs over known variables."
  },
  {
   "property": "C105",
   "status": "proved",
   "theorems": [
    "C105_shift_and_add"
   ],
   "note": "C105_shift_and_add: multiplication by shifting and adding."
  },
  {
   "property": "C106",
   "status": "proved",
   "theorems": [
    "C106_power"
   ],
   "note": "C106_power: exponentiation by squaring."
  },
  {
   "property": "C107",
   "status": "proved",
   "theorems": [
    "C107_subtract"
   ],
   "note": "C107_subtract: division by repeated subtraction."
  },
  {
   "property": "C108",
   "status": "proved",
   "theorems": [
    "C108_count"
   ],
   "note": "C108_count: counting ones."
  },
  {
   "property": "C109",
   "status": "proved",
   "theorems": [
    "C109_and",
    "C109_or",
    "C109_and_widths",
    "C109_or_xor_widths"
   ],
   "note": "C109_and: the tables at equal widths, whatever the bounds. C109_and_widths: different widths: the narrower operand is widened; ^ computes |."
  },
  {
   "property": "C110",
   "status": "proved",
   "theorems": [
    "C110_negate",
    "C110_undefined",
    "C110_minus",
    "C110_rejected"
   ],
   "note": "C110_negate: [negate()] replaces a vector by its two's complement. C110_undefined: the smallest 32- or 64-bit number has no negation, and computing it is undefined behaviour. C110_minus: the same number as unary minus, for every vector, defined in the same cases."
  },
  {
   "property": "C111",
   "status": "partial",
   "theorems": [
    "C111_mixed",
    "C111_mixed_exact",
    "C111_match_exact",
    "C111_refuted",
    "C111_compare_partial",
    "C111_match_partial",
    "C111_rejected"
   ],
   "note": "C111_mixed: comparing an unsigned 4-state with a signed 2-state vector compares with the number the conversion gives. C111_mixed_exact: which is the comparison of the numbers exactly if. C111_match_exact: and matching. C111_refuted: an unsigned logic and a signed bit with the same positions can compare different. C111_compare_partial: Missing: a signed bit operand of an unsigned vector (false by [C111_refuted]); multi-word signed vectors; vectors whose x and z positions the library does not see (false, C35)."
  },
  {
   "property": "C112",
   "status": "proved",
   "theorems": [
    "C112_rejected",
    "C112_same"
   ],
   "note": "C112_rejected: the constructor that is meant to change the declared bounds compiles for no other bounds."
  },
  {
   "property": "C113",
   "status": "partial",
   "theorems": [
    "C113_exact",
    "C113_refuted",
    "C113_partial",
    "C113_rejected"
   ],
   "note": "C113_exact: indexing a 4-state vector with a vector. C113_refuted: an index of 2^32 reads position 0; in a range [5:2] index 2 reads x. C113_partial: Missing: ranges that do not start at 0 and indices of 2^32 and more (both false)."
  },
  {
   "property": "C114",
   "status": "proved",
   "theorems": [
    "C114_copy",
    "C114_copy_logic",
    "C114_reversed"
   ],
   "note": "C114_copy_logic: an x or z at an index of 64 and more cannot be read (C03). C114_reversed: a range given the wrong way round never completes."
  },
  {
   "property": "C115",
   "status": "partial",
   "theorems": [
    "C115_exact",
    "C115_refuted",
    "C115_partial",
    "C115_one",
    "C115_rejected"
   ],
   "note": "C115_exact: a vector made from a big_num. C115_refuted: a one-position vector built from a [big_num] holding 2 is 1. C115_partial: Missing: one-position vectors (see [C115_one])."
  },
  {
   "property": "C116",
   "status": "partial",
   "theorems": [
    "C116_exact",
    "C116_assign_exact",
    "C116_refuted",
    "C116_bit_partial",
    "C116_one",
    "C116_negative",
    "C116_value",
    "C116_logic_partial",
    "C116_assign_partial",
    "C116_assign_logic_partial",
    "C116_assign_rejected",
    "C116_array_partial",
    "C116_array_default"
   ],
   "note": "C116_exact: a vector made from a C++ integer. C116_assign_exact: assignment of a C++ integer. C116_refuted: one position takes 2 as 1; an unsigned 128-bit vector takes -1 as 2^64-1. C116_bit_partial: Missing: other numbers in one position ([C116_one]), negative numbers in unsigned multi-word vectors ([C116_negative]). C116_value: a number the type can represent is represented. C116_assign_partial: assigning a number to a vector. C116_array_partial: the elements of a packed array built from a number."
  },
  {
   "property": "C117",
   "status": "proved",
   "theorems": [
    "C117_digits",
    "C117_none",
    "C117_empty"
   ],
   "note": "C117_digits: the width asked for by the leading digits of a format."
  },
  {
   "property": "C118",
   "status": "proved",
   "theorems": [
    "C118_members",
    "C118_closed",
    "C118_reachable"
   ],
   "note": "C118_members: positions given at compile time, references to ranges, concatenation of many, copying, packed arrays of bits. C118_closed: every operator of two vectors a program made gives one it can make, listed one by one. C118_reachable: the vectors a program can make are exactly the objects of the declared type."
  },
  {
   "property": "C119",
   "status": "partial",
   "theorems": [
    "C119_members",
    "C119_closed",
    "C119_unreachable_refuted",
    "C119_sound",
    "C119_native",
    "C119_multi_word_partial",
    "C119_tidy_masks_refuted"
   ],
   "note": "C119_sound: every reachable vector is an object of its type. C119_native, C119_multi_word_partial: conversely every object of up to 64 positions, and every wider one whose mask is clear above the declared positions, is reachable. C119_unreachable_refuted: not every wider one is. C119_tidy_masks_refuted: some wider ones with something above the positions of the mask are (a literal with too many digits). Missing: exactly which. C119_members, C119_closed: the members Reach.v does not chain, and the operators one by one."
  },
  {
   "property": "C120",
   "status": "proved",
   "theorems": [
    "C120_tidy",
    "C120_equality",
    "C120_same",
    "C120_needed"
   ],
   "note": "C120_tidy: a program that only uses the operations of [neat2] never leaves anything outside the declared positions. C120_same: such a vector is determined by its positions: no operation can tell two with the same positions apart. C120_needed: without the restriction, equality can tell vectors with the same positions apart."
  },
  {
   "property": "C121",
   "status": "proved",
   "theorems": [
    "C121_add",
    "C121_sub",
    "C121_mul",
    "C121_div",
    "C121_rem",
    "C121_inc",
    "C121_dec",
    "C121_neg",
    "C121_negate"
   ],
   "note": "C121_add: arithmetic operators."
  },
  {
   "property": "C122",
   "status": "proved",
   "theorems": [
    "C122_and",
    "C122_or",
    "C122_xor",
    "C122_not",
    "C122_assign"
   ],
   "note": "C122_and: bitwise operators and their compound assignments."
  },
  {
   "property": "C123",
   "status": "proved",
   "theorems": [
    "C123_shl",
    "C123_shr",
    "C123_ashr",
    "C123_assign"
   ],
   "note": "C123_shl: shifts and their compound assignments."
  },
  {
   "property": "C124",
   "status": "proved",
   "theorems": [
    "C124_eq",
    "C124_order",
    "C124_queries"
   ],
   "note": "C124_eq: comparisons."
  },
  {
   "property": "C125",
   "status": "proved",
   "theorems": [
    "C125_assign",
    "C125_assign_number",
    "C125_sign",
    "C125_mask_off",
    "C125_resize"
   ],
   "note": "C125_assign: assignment, change of signedness and width, mask_off."
  },
  {
   "property": "C126",
   "status": "proved",
   "theorems": [
    "C126_get",
    "C126_set",
    "C126_slice",
    "C126_slice_runtime",
    "C126_concat"
   ],
   "note": "C126_get: single positions, slices, concatenation."
  },
  {
   "property": "C127",
   "status": "proved",
   "theorems": [
    "C127_programs",
    "C127_types"
   ],
   "note": "C127_programs: whole programs. [lib_run] and [ref_run] (MachineProg.v) run the same program with the library and with the reference machine; the outcomes, including the final values of all variables, undefined behaviour, code that does not compile and not having finished yet, are the same. C127_types: all variables stay objects of their declared type."
  },
  {
   "property": "C128",
   "status": "proved",
   "theorems": [
    "C128_add",
    "C128_sub",
    "C128_mul",
    "C128_div",
    "C128_rem",
    "C128_division",
    "C128_inc",
    "C128_dec",
    "C128_neg",
    "C128_negate"
   ],
   "note": "C128_add: arithmetic operators. C128_division: the formula of wide quotients and remainders is division for numbers inside the declared width whose words are not misread as 0."
  },
  {
   "property": "C129",
   "status": "proved",
   "theorems": [
    "C129_and",
    "C129_or",
    "C129_xor",
    "C129_not",
    "C129_shl",
    "C129_shr",
    "C129_ashr",
    "C129_assign"
   ],
   "note": "C129_and: bitwise operators, shifts and their compound assignments."
  },
  {
   "property": "C130",
   "status": "proved",
   "theorems": [
    "C130_eq",
    "C130_ne",
    "C130_lt",
    "C130_le",
    "C130_gt",
    "C130_ge",
    "C130_any_set",
    "C130_r_and",
    "C130_highest",
    "C130_to_uint64"
   ],
   "note": "C130_eq: comparisons and queries."
  },
  {
   "property": "C131",
   "status": "proved",
   "theorems": [
    "C131_new",
    "C131_assign",
    "C131_assign_number",
    "C131_sign",
    "C131_mask_off",
    "C131_resize"
   ],
   "note": "C131_new: construction, assignment, signedness, mask_off and change of width."
  },
  {
   "property": "C132",
   "status": "proved",
   "theorems": [
    "C132_get",
    "C132_set",
    "C132_set_bit",
    "C132_slice",
    "C132_slice_runtime",
    "C132_concat"
   ],
   "note": "C132_get: single positions, slices, concatenation."
  },
  {
   "property": "C133",
   "status": "proved",
   "theorems": [
    "C133_programs",
    "C133_types"
   ],
   "note": "C133_programs: whole programs on vectors of any widths: [lib_run] with the library and [any_run] with the reference machine. C133_types: all variables stay objects of their declared type."
  },
  {
   "property": "C134",
   "status": "proved",
   "theorems": [
    "C134_add",
    "C134_sub",
    "C134_mul",
    "C134_div",
    "C134_rem",
    "C134_minus",
    "C134_plus",
    "C134_increment",
    "C134_decrement"
   ],
   "note": "C134_add: arithmetic operators."
  },
  {
   "property": "C135",
   "status": "proved",
   "theorems": [
    "C135_and",
    "C135_or",
    "C135_xor",
    "C135_not"
   ],
   "note": "C135_and: bitwise operators."
  },
  {
   "property": "C136",
   "status": "proved",
   "theorems": [
    "C136_ashl",
    "C136_ashl_bit",
    "C136_left",
    "C136_right",
    "C136_arithmetic"
   ],
   "note": "C136_ashl: ashl of a 4-state vector is its left shift; a 2-state amount must have the same bounds. C136_left: shifts."
  },
  {
   "property": "C137",
   "status": "proved",
   "theorems": [
    "C137_eq",
    "C137_ne",
    "C137_lt",
    "C137_le",
    "C137_gt",
    "C137_ge",
    "C137_match",
    "C137_false",
    "C137_true",
    "C137_to_uint64"
   ],
   "note": "C137_eq: comparisons, matching, truth."
  },
  {
   "property": "C138",
   "status": "proved",
   "theorems": [
    "C138_and",
    "C138_or",
    "C138_xor",
    "C138_nand",
    "C138_nor",
    "C138_xnor"
   ],
   "note": "C138_and: reductions."
  },
  {
   "property": "C139",
   "status": "proved",
   "theorems": [
    "C139_get",
    "C139_set",
    "C139_set_x",
    "C139_set_z",
    "C139_set_logic",
    "C139_slice",
    "C139_slice_runtime",
    "C139_widen",
    "C139_sign",
    "C139_concat",
    "C139_concat_bit",
    "C139_of_bit",
    "C139_assign",
    "C139_compound"
   ],
   "note": "C139_get: positions, slices, widths, signedness, concatenation, construction, assignment."
  },
  {
   "property": "C140",
   "status": "proved",
   "theorems": [
    "C140_programs",
    "C140_types"
   ],
   "note": "C140_programs: whole programs on 2-state and 4-state variables of any widths: [lib4_run] with the library and [four_run] with the reference machine. C140_types: all variables stay objects of their declared type."
  },
  {
   "property": "C141",
   "status": "proved",
   "theorems": [
    "C141_parts",
    "C141_bit",
    "C141_logic",
    "C141_wide_defined",
    "C141_short_defined"
   ],
   "note": "C141_parts: every text has one base and one body. C141_wide_defined: no text is undefined for a 2-state vector of more than 64 positions. C141_short_defined: a text of at most 16 characters is never undefined for a 2-state vector."
  },
  {
   "property": "C142",
   "status": "proved",
   "theorems": [
    "C142_formats",
    "C142_bit",
    "C142_logic"
   ],
   "note": "C142_formats: every format asks for one number of columns and one base."
  },
  {
   "property": "C143",
   "status": "proved",
   "theorems": [
    "C143_bitwise_and_sums",
    "C143_products",
    "C143_comparisons",
    "C143_shifts",
    "C143_one_operand"
   ],
   "note": "C143_bitwise_and_sums: every member of [big_num] computes what the reference machine of SpecBigRef.v computes, for every size, signedness and contents (also above the declared positions)."
  },
  {
   "property": "C144",
   "status": "proved",
   "theorems": [
    "C144_read",
    "C144_read_bit"
   ],
   "note": "C144_read: reading from a 4-state array. C144_read_bit: and from a 2-state array."
  },
  {
   "property": "C145",
   "status": "proved",
   "theorems": [
    "C145_exact",
    "C145_logic_exact"
   ],
   "note": "C145_exact: an object where a vector of another type is expected, 2-state. C145_logic_exact: and 4-state: x and z positions are copied, the position of the sign is repeated as a known bit."
  },
  {
   "property": "C146",
   "status": "proved",
   "theorems": [
    "C146_bit",
    "C146_logic",
    "C146_read",
    "C146_outside_bit",
    "C146_outside_logic",
    "C146_exact",
    "C146_logic_exact"
   ],
   "note": "C146_bit: get<i>() and set<i>() of a 2-state vector whose range starts at 0; [place] is the declared position of an index. C146_logic: set<i>(), set_x<i>(), set_z<i>() of a 4-state vector write the symbol of the declared position and no other. C146_read: get<i>(), x_set<i>(), z_set<i>(): right up to 64 positions; of wider vectors they do not compile. C146_outside_bit: positions outside the range of a vector of more than 64 positions are rejected by the compiler. C146_exact: any range and any constant ([slot], [with_position], [placed]: the reference machine of C126 and C132). C146_logic_exact: the same for the symbols of a 4-state vector, and the reading members."
  },
  {
   "property": "C147",
   "status": "partial",
   "theorems": [
    "C147_refuted",
    "C147_exact"
   ],
   "note": "C147_refuted: negative(). C147_exact: It tells whether the value is negative, except for a signed vector of one position that holds 1 (that is, -1); unsigned vectors of more than 64 positions do not have it."
  },
  {
   "property": "C148",
   "status": "partial",
   "theorems": [
    "C148_refuted",
    "C148_constant_partial",
    "C148_fill_partial",
    "C148_bit_fill_partial",
    "C148_fill_read_partial",
    "C148_constant_exact",
    "C148_sequence_exact",
    "C148_bit_sequence_exact"
   ],
   "note": "C148_refuted: writing element 1 and then element 0 with a run-time index damages element 1. C148_constant_partial: with constant indices every element holds what was written to it last. Missing: values with x or z at position 64 or above (C53). C148_fill_partial: with run-time indices: filling upwards is right. Missing: other orders (false), see C52 for the conditions. C148_fill_read_partial: and the elements read back with the same indices are the values. Missing: one-bit elements and native arrays filled to the end of their storage (C51). C148_constant_exact: undefined exactly if some value has an x or z at position 64 or above; otherwise every element holds what was written to it last. C148_sequence_exact: run-time indices, in any order: exactly when the sequence is undefined, and otherwise what every position of every element holds."
  },
  {
   "property": "C149",
   "status": "partial",
   "theorems": [
    "C149_sequence_exact",
    "C149_latest_partial",
    "C149_refuted"
   ],
   "note": "C149_sequence_exact: writes to unpacked arrays, any sequence of constant indices: the writes with an index below the number of elements are carried out, the others ignored; exactly when one of the former is outside the declared range the behaviour is undefined. C149_latest_partial: Missing: declared ranges that do not start at 0, for indices not smaller than the number of elements (ignored, C54_refuted)."
  },
  {
   "property": "C150",
   "status": "partial",
   "theorems": [
    "C150_refuted",
    "C150_value",
    "C150_exact"
   ],
   "note": "C150_refuted: all ones in 128 positions reduce to 0, the number 2 to 1; an 8-bit zero to 1 (compilers that accept the member). C150_value: what the reduction gives. C150_exact: it is right exactly for the 8-bit number 255 and for numbers that are not all ones and have ones in all lower words or a 0 in one certain position."
  },
  {
   "property": "C151",
   "status": "proved",
   "theorems": [
    "C151_expressions",
    "C151_rejected",
    "C151_tests",
    "C151_programs",
    "C151_four_expressions",
    "C151_four_rejected",
    "C151_four_tests",
    "C151_four_programs"
   ],
   "note": "C151_expressions: 2-state expressions: what the checker accepts compiles for all values and has the type it tells. C151_rejected: what it rejects yields a result for no values. C151_tests: comparisons, conversions to bool, single positions and reductions, both directions. C151_programs: 2-state programs: an accepted program meets no operation that does not compile, however long it runs, and its variables keep their types. C151_four_expressions: the same for expressions over 2-state and 4-state variables."
  },
  {
   "property": "C152",
   "status": "partial",
   "theorems": [
    "C152_integers_partial",
    "C152_exact",
    "C152_wraps_refuted",
    "C152_overflow_refuted"
   ],
   "note": "C152_integers_partial: as long as the program over the integers stays within n positions, divides by no zero and shifts by less than n, the library does the same. C152_exact: every program and state, also after an overflow: in lockstep with the program over the stored integers (results wrap in 8 and 16 bits and are undefined in 32 and 64). C152_wraps_refuted: an overflow does not wrap around at n positions: with 12 the sum of 2047 and 1 shows -2048 and is not below 0, with 32 it is undefined."
  },
  {
   "property": "C153",
   "status": "partial",
   "theorems": [
    "C153_integers_partial",
    "C153_exact",
    "C153_compare_refuted",
    "C153_equal_refuted",
    "C153_smallest_refuted"
   ],
   "note": "Right while the integers stay strictly between -2^(n-1) and 2^(n-1); refuted for comparisons at widths that do not fill their words and with the smallest number, and ==, <=, unary minus do not compile. C153_exact gives every program of the language; *, /, %, ashr are not in it."
  },
  {
   "property": "C154",
   "status": "partial",
   "theorems": [
    "C154_same_partial",
    "C154_narrow_refuted",
    "C154_zero_refuted",
    "C154_signed_refuted",
    "C154_join_refuted"
   ],
   "note": "C154_same_partial: any mix of widths, bounds and signednesses (signed vectors declared [n-1:0]) without & | ^ ~, with concatenation where everything is unsigned; & | ^ ~, reading declared positions and r_and (up to 64) at one unsigned width that fills its storage; / and % up to 64 positions (where a zero divisor is undefined for bit). Refuted: ~ at 12 positions, division by zero, & of signed vectors, concatenation onto a signed vector. Missing: reading single positions of other widths, signed vectors declared otherwise."
  },
  {
   "property": "C155",
   "status": "partial",
   "theorems": [
    "C155_two_state",
    "C155_plus",
    "C155_four_state_partial",
    "C155_symbols",
    "C155_exact",
    "C155_unknown_refuted"
   ],
   "note": "C155_two_state, C155_plus: everything for bit (for + of two signed vectors see C37). C155_four_state_partial: logic without x and z. C155_symbols: exactly which symbols result, with x and z in the first 64 positions. C155_unknown_refuted: 0x + 00 gives 1 at position 1. C155_exact: with an x or z from position 64 on it is undefined, otherwise the symbols are as stated. Missing: nothing; x operands do not follow IEEE 1800 (refuted)."
  },
  {
   "property": "C156",
   "status": "partial",
   "theorems": [
    "C156_rotates_partial",
    "C156_back_partial",
    "C156_exact",
    "C156_zero_refuted"
   ],
   "note": "C156_rotates_partial, C156_back_partial: amounts from 1 to n - 1. C156_exact: all amounts from 0 to n: vectors of more than 64 positions always rotate; a native vector is shifted by its width when the amount is 0 (undefined), or when it is n and n is 32 or 64 (C156_zero_refuted)."
  },
  {
   "property": "C157",
   "status": "proved",
   "theorems": [
    "C157_code",
    "C157_adjacent",
    "C157_decoded"
   ],
   "note": "Proved for everything the property quantifies over."
  },
  {
   "property": "C158",
   "status": "proved",
   "theorems": [
    "C158_remainder",
    "C158_unique",
    "C158_checked"
   ],
   "note": "Proved for everything the property quantifies over."
  },
  {
   "property": "C159",
   "status": "proved",
   "theorems": [
    "C159_bits",
    "C159_logic"
   ],
   "note": "Proved for everything the property quantifies over."
  },
  {
   "property": "C160",
   "status": "proved",
   "theorems": [
    "C160_step",
    "C160_distinct",
    "C160_returns",
    "C160_alive"
   ],
   "note": "Proved for everything the property quantifies over."
  },
  {
   "property": "C161",
   "status": "proved",
   "theorems": [
    "C161_bits",
    "C161_logic"
   ],
   "note": "Proved for everything the property quantifies over."
  },
  {
   "property": "C162",
   "status": "partial",
   "theorems": [
    "C162_refuted",
    "C162_exact",
    "C162_compare_exact",
    "C162_equal_exact",
    "C162_logic",
    "C162_xor",
    "C162_tables_exact"
   ],
   "note": "C162_refuted: a sum that compiles in one order only; 1 == 257 but not 257 == 1 (8 and 12 positions); x & 0 and 0 & x; a narrow against a wide vector. C162_exact: + * & | ^ of 2-state vectors of any widths, bounds and signs give one outcome in both orders, exactly unless they have one width and bounds in different directions. C162_compare_exact: a < b and b > a, a <= b and b >= a: exactly unless one vector has more than 64 positions and the other has not. C162_equal_exact: a == b and b == a: up to 64 positions the right operand is converted to the type of the left one ([store]); wide signed vectors must have one width. C162_logic: 4-state + and *. C162_xor: 4-state ^ of one width. C162_tables_exact: 4-state & and | of one width: exactly the positions where x meets 0 or z meets 1 depend on the order."
  },
  {
   "property": "C163",
   "status": "proved",
   "theorems": [
    "C163_type",
    "C163_made",
    "C163_kept"
   ],
   "note": "Proved for everything the property quantifies over."
  },
  {
   "property": "C164",
   "status": "partial",
   "theorems": [
    "C164_refuted",
    "C164_partial",
    "C164_exact"
   ],
   "note": "False for a full queue: the push that fills it clears the lowest position of the oldest value, unless it goes to the last slot (C164_refuted; C164_exact gives the returned values for the full capacity). Proved for every sequence of calls that keeps one slot free, for arrays of more than 64 bits and for smaller ones with elements of at least 2 bits and a spare position of storage, and values without x or z at position 64 or above. Missing: the other arrays, where reads are undefined or mixed (C51_exact)."
  },
  {
   "property": "C165",
   "status": "partial",
   "theorems": [
    "C165_bit",
    "C165_refuted",
    "C165_exact"
   ],
   "note": "Proved for 2-state vectors. False for 4-state ones: where the first or second copy holds x and the two others 0, the vote is 1 (C165_refuted); C165_exact states that the vote is right at every other position. 4-state vectors that are all signed do not compile with & and |."
  },
  {
   "property": "C166",
   "status": "partial",
   "theorems": [
    "C166_bit",
    "C166_refuted",
    "C166_exact"
   ],
   "note": "Proved for 2-state vectors. False for 4-state ones where a 1 of the mask chooses an x or z: the result is 1 there (C166_refuted); C166_exact states that the choice is right at every other position with a known mask."
  },
  {
   "property": "C167",
   "status": "proved",
   "theorems": [
    "C167_clear",
    "C167_isolate",
    "C167_negated"
   ],
   "note": "Proved for everything the property quantifies over."
  },
  {
   "property": "C168",
   "status": "partial",
   "theorems": [
    "C168_refuted",
    "C168_above_refuted",
    "C168_partial",
    "C168_exact"
   ],
   "note": "False for more than 64 positions: the test for zero does not look at positions 32 to 63 of each group of 64, so the loop stops too early (C168_refuted). Also false for vectors holding ones above their width, such as sums (C168_above_refuted). Proved up to 64 positions (C168_partial); C168_exact gives the count for every width."
  },
  {
   "property": "C169",
   "status": "partial",
   "theorems": [
    "C169_subtract",
    "C169_refuted",
    "C169_exact",
    "C169_partial"
   ],
   "note": "Subtraction is right at every width (C169_subtract). Addition is right at width 1 and at exactly the widths that fill their storage (C169_exact, C169_partial): elsewhere the sum keeps its carry above the width and the comparison misses the overflow (C169_refuted)."
  },
  {
   "property": "C170",
   "status": "partial",
   "theorems": [
    "C170_gather",
    "C170_scatter",
    "C170_back",
    "C170_gather_exact",
    "C170_refuted",
    "C170_partial",
    "C170_scatter_exact"
   ],
   "note": "Proved for 2-state vectors (C170_gather, C170_scatter, C170_back). For 4-state vectors undefined exactly if an x or z is read from position 64 on (C170_gather_exact, C170_scatter_exact, C170_refuted), otherwise right (C170_partial)."
  },
  {
   "property": "C171",
   "status": "partial",
   "theorems": [
    "C171_two_state",
    "C171_exact",
    "C171_refuted",
    "C171_partial"
   ],
   "note": "Proved for 2-state vectors (C171_two_state). For 4-state vectors undefined exactly if there is an x or z from position 64 on other than in the middle (C171_exact, C171_refuted), otherwise right (C171_partial)."
  },
  {
   "property": "C172",
   "status": "proved",
   "theorems": [
    "C172_mean",
    "C172_plain",
    "C172_plain_wrong"
   ],
   "note": "C172_mean: right at every width of at least 2 (at width 1 the shift by 1 is undefined). C172_plain, C172_plain_wrong: the plain form is right exactly where the sum fits."
  },
  {
   "property": "C173",
   "status": "partial",
   "theorems": [
    "C173_subtract",
    "C173_refuted",
    "C173_exact",
    "C173_partial"
   ],
   "note": "Subtraction is right at every width (C173_subtract). Addition is right at exactly the widths that fill their storage (C173_exact, C173_partial); elsewhere the carry is not seen (C173_refuted)."
  },
  {
   "property": "C174",
   "status": "partial",
   "theorems": [
    "C174_partial",
    "C174_refuted",
    "C174_exact"
   ],
   "note": "Right up to 128 positions (C174_partial) and at no wider width (C174_exact): up to 192 positions undefined (C174_refuted), because the product of two words is written to two words even if the upper one is 0; above that 2^96 is taken for a number of one word and its square for 0."
  },
  {
   "property": "C175",
   "status": "partial",
   "theorems": [
    "C175_two_state_partial",
    "C175_four_state_partial",
    "C175_refuted",
    "C175_exact"
   ],
   "note": "Right at exactly the widths below 64 other than 33 (C175_two_state_partial, C175_four_state_partial, C175_exact). At 33 positions the concatenation shifts the 32 positions of the slice as a 32-bit number and loses the highest (C175_refuted); from 64 positions on the concatenation does not compile."
  },
  {
   "property": "C176",
   "status": "proved",
   "theorems": [
    "C176_less"
   ],
   "note": "C176_less: started with false the loop tells whether the left number is smaller, started with true whether it is not greater."
  },
  {
   "property": "C177",
   "status": "partial",
   "theorems": [
    "C177_partial",
    "C177_refuted",
    "C177_exact",
    "C177_four_partial",
    "C177_four_permutation",
    "C177_four_refuted"
   ],
   "note": "Right for exactly the unsigned types and the signed ones from 2 to 64 positions (C177_partial, C177_exact): the least number of a wider signed type is compared with itself for ever (C177_refuted), the one-position signed type is ordered as 0 < 1 although 1 stands for -1. Vectors that hold x or z are never lost (C177_four_permutation) but may leave the others unsorted (C177_four_refuted)."
  },
  {
   "property": "C178",
   "status": "partial",
   "theorems": [
    "C178_high",
    "C178_low",
    "C178_high4_partial",
    "C178_high4_exact",
    "C178_low4_exact",
    "C178_refuted"
   ],
   "note": "2-state: proved for all (C178_high, C178_low). 4-state: right exactly if no x or z at position 64 or above is read (C178_high4_partial, C178_high4_exact, C178_low4_exact, C178_refuted)."
  },
  {
   "property": "C179",
   "status": "proved",
   "theorems": [
    "C179_less"
   ],
   "note": "C179_less: whatever the width and the sign, and whatever is stored above the width."
  },
  {
   "property": "C180",
   "status": "partial",
   "theorems": [
    "C180_partial",
    "C180_refuted",
    "C180_exact"
   ],
   "note": "Right at exactly the widths up to 96 (C180_partial, C180_exact): 2^96 divided by a base of one word gives 0 (C180_refuted), because only the lower half of each upper word is tested."
  },
  {
   "property": "C181",
   "status": "partial",
   "theorems": [
    "C181_partial",
    "C181_exact",
    "C181_refuted"
   ],
   "note": "Right for all inputs at exactly the widths from 2 to 64 (C181_exact), at wider ones if the x and z of every summand are noticed (C181_partial). One position: 1 + 1 stays 1; more than 64: an x in the upper half of a 64-bit group is ignored (C181_refuted)."
  },
  {
   "property": "C182",
   "status": "proved",
   "theorems": [
    "C182_sext"
   ],
   "note": "Every width."
  },
  {
   "property": "C183",
   "status": "partial",
   "theorems": [
    "C183_negate",
    "C183_added_exact",
    "C183_refuted",
    "C183_added_partial"
   ],
   "note": "(a ^ m) - m at every width (C183_negate). (a + m) ^ m at exactly the widths of at least 2 (C183_added_exact): for one position 1 + 1 stays 1 (C183_refuted)."
  },
  {
   "property": "C184",
   "status": "partial",
   "theorems": [
    "C184_partial",
    "C184_refuted",
    "C184_digits_partial",
    "C184_lost_refuted",
    "C184_exact"
   ],
   "note": "Right for all coefficients at exactly the widths up to 64 and those with 2^n <= d * 2^64 (C184_exact). Wider: 10 * 2^64 of 100 positions is undefined behaviour (C184_refuted), 10 * 2^96 of 200 positions gives 0 (C184_lost_refuted)."
  },
  {
   "property": "C185",
   "status": "partial",
   "theorems": [
    "C185_left_partial",
    "C185_right_partial",
    "C185_right_undefined",
    "C185_left_undefined",
    "C185_left_refuted",
    "C185_shifts",
    "C185_refuted"
   ],
   "note": "Every width; for up to 64 positions the stages must be smaller than the width: otherwise >> is undefined behaviour (C185_refuted, C185_right_undefined) and << undefined (C185_left_undefined) or taken for a shift by 0 (C185_left_refuted)."
  },
  {
   "property": "C186",
   "status": "partial",
   "theorems": [
    "C186_counts",
    "C186_metric",
    "C186_cleared_refuted",
    "C186_cleared_partial",
    "C186_cleared_exact"
   ],
   "note": "The loop over the positions at every width (C186_counts, C186_metric). By clearing: right up to 64 positions, wider vectors by an exact formula (C186_cleared_exact); a difference at position 32 of 100 is missed (C186_cleared_refuted)."
  }
 ]
}