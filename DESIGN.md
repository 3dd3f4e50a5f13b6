# Formal model of Kuree/logic in Rocq

## What is modelled

`/repo` is a header-only C++20 library (`include/logic/*.hh`) plus `src/util.cc`.
The model is a shallow embedding in Gallina, one definition per C++ function, each citing the
file and lines it transcribes.

| file (`rocq/theories`) | models |
|---|---|
| `Cpp.v` | outcome monad and C++20 integer semantics (promotion, usual conversions, overflow, shifts) |
| `BigNum.v` | `include/logic/big_num.hh` (`big_num<size, signed>`) |
| `BigObj.v` | `include/logic/big_num.hh` as a class of its own: sizes and signedness of every member, compile-time requirements, uninitialised memory in the text constructor. |
| `Bit.v` | `include/logic/bit.hh` (`bit<msb, lsb, signed>`) |
| `Logic.v` | `include/logic/logic.hh` (`logic<msb, lsb, signed>`) |
| `Arr.v` | `include/logic/array.hh` |
| `Util.v` | `src/util.cc`, `include/logic/util.hh` |
| `More.v` | `slice_ref` forms of slice/update, variadic `concat`, `bit::unpack`, `match`, `packed_struct`/`packed_union` (`struct.hh`, `union.hh`), mixed `logic`/`bit` overloads |
| `Rest.v` | `negate()` in place, comparisons of `logic` with `bit`, change of bounds, index by a vector, `util::copy`, construction from `big_num`, packed array constructors, `str_len` |
| `Reduce.v` | `big_num::r_and`, for compilers that accept its `if constexpr` and those that do not |
| `Const.v` | members whose position is a template constant (`get<i>`, `set<i>`, `set_x<i>`, `set_z<i>`, `x_set<i>`, `z_set<i>`) |
| `Reach.v` | the closure of the API: every object some sequence of calls produces |
| `SpecRead.v`, `SpecPrint.v` | reference reader and reference printer: texts to stored numbers and back, independent of the model's loops |
| `SpecBigRef.v` | reference machine of `big_num` objects |
| `SpecArrRef.v` | reference machine of packed array accesses, exact conditions for them |
| `SpecIff.v`, `SpecIff2.v`, `SpecIff3.v`, `SpecIff4.v`, `SpecIff5.v`, `SpecIff6.v`, `SpecConst.v`, `SpecMem.v` | the conditions that appear in the exact (if-and-only-if) theorems |
| `SpecMachine.v`, `SpecWide.v`, `SpecFour.v` | reference machines: every operator as one formula on stored integers (native, any width, 4-state), independent of the model's functions |
| `MachineProg.v`, `WideProg.v`, `FourProg.v` | programs over mixed variables, run by the library model and by the reference machines |
| `SpecProg.v`, `SpecProg4.v` | meaning of 2-state and 4-state client expressions and programs on the numbers the variables keep, with the cases in which an operation is undefined |
| `SpecType.v` | which expressions and programs compile and with which type, from the declarations alone |
| `SpecSigned.v` | meaning of programs over signed vectors, as integers and wrapped |
| `SpecSignedWide.v` | meaning of programs over signed vectors of more than 64 positions, on the integers they show |
| `SpecChange.v` | the programs that should do the same with `logic` as with `bit`, and what "the same" is |
| `SpecCircuit.v` | carries and sums over the symbols 0, 1, x, z with the tables of `SpecExact4.v`; amounts of shifts |
| `SpecQueue.v` | a first-in first-out queue as a list, and the same with the damage a full packed array does |
| `SpecVote.v` | two of three values agree; vectors of one width declared downwards |
| `SpecAccum.v` | the state machine of a summing register with reset, enable and x |
| `SpecDigits.v` | digits of a number in a base |
| `SpecScan.v` | the highest and the lowest position with a property |
| `SpecSerial.v` | what a shift register holds after some inputs |
| `SpecSqrt.v` | the masks of the square root |
| `SpecLong.v` | the number kept in several vectors |
| `SpecTrick.v` | ones below a position; the positions the test for zero looks at |
| `SpecMono.v` | replacing x and z by known values |
| `SpecCrc.v` | polynomials over the integers modulo 2, as numbers |
| `Sanity.v` | the repository's own unit tests transcribed as computed examples (fidelity check) |
| `Spec.v`, `SpecArr.v`, `SpecText.v` | independent specifications: four-state symbols, IEEE 1800 tables, vectors as numbers; element places of arrays; digits, literals and printed texts |
| `Client.v`, `Client4.v`, `Program.v` | client programs (write sequences, expression trees over `bit` and `logic`, struct field writes, imperative programs with loops), how to run them, and their meaning over integers / four-state symbols |
| `ZBits.v`, `Words.v`, `Big*.v`, `Bit*.v`, `Logic*.v`, `Arr*.v`, `Text*.v`, `Fmt*.v`, `Client*Proofs.v`, `LawProofs.v`, `More*.v`, `ProgramProofs.v` | lemmas |
| `Props*.v` | the property theorems only, each with a satisfiability example and `Print Assumptions` |

### Representation

* `outcome A = Ok a | UB | Exn | Fuel | IllFormed`. Undefined behaviour (signed overflow, bad shift amount,
  out-of-bounds `std::array` access, falling off a value-returning function, division by zero) is the
  distinct result `UB`; a C++ exception is `Exn`; non-termination (a recursion that never ends) is `Fuel`;
  a template instantiation that the compiler rejects is `IllFormed`.
* C++ integers are `Z` tagged with their type; every arithmetic step goes through `Cpp.v`.
* `big_num<size,signed>`: `list Z` of 64-bit words, least significant first. Template parameters are passed as arguments.
* `bit<msb,lsb,signed>`: record with the template parameters as fields and a holder that is either
  one native C++ integer (`size <= 64`) or a word list (`size >= 65`), exactly as `util::get_holder_type`.
* `logic<msb,lsb,signed>`: a pair of a value `bit` and an unsigned mask `bit`.
* Loops are folds over explicit index lists; recursion that is not structurally terminating uses fuel with `Fuel` as the visible failure.

### Simplifications (also stated at the definitions)

* `int` index arithmetic on template parameters and `uint64_t` loop counters is unbounded `Z`
  (widths are assumed to be below 2^31, as C++ template parameters of type `int` force anyway).
* `std::ceil((double)size/64)` is exact integer ceiling.
* compile-time template recursion (fold expressions, `slice_tuple`, `unpack_`) becomes list recursion.
* `std::string` is a list of character codes (`list Z`); locale and allocation failure are not modelled.
* the LP64 / two's-complement / gcc-or-clang platform is assumed: `unsigned long` is 64 bits, `char` is signed 8 bits.

### Not modelled

iostream printing, template meta-programming that has no run-time content, and the `explicit`/`constexpr` status of members.
Members that cannot be instantiated evaluate to `IllFormed` in the model (the compiler's rejection), so theorems about
them say "rejected": `big_num::popcount`, `big_num::power`, signed multi-word division, bitwise operators on two signed
`logic` vectors, `get` with a vector index, arithmetic and bitwise operators between `logic` and `bit`,
`bit::unpack` into `bit` variables, `concat` of 64 or more bits on `bit`, and the like.
A few members that no instantiation of compiles have no definition in the model at all: `bit::get(bit)` (bit.hh 54-67, returns
a `bit<0>` as `bool` although the conversion is explicit), native `bit::all_set` (920-927, a `constexpr` variable initialised by
a non-`constexpr` member), `bit(logic&&)` (1017-1022), `logic::get(logic)` (logic.hh 85-99, subtracts an `int` from a `bit`).

## Properties

The user-level statement is in `properties.jsonl`. Where the code does not satisfy it we prove (a) `..._refuted`:
a concrete reachable counterexample in the model, and (b) `..._partial`: the largest domain on which it holds.

| ids | modelled by | proof method |
|---|---|---|
| C01-C03 | `Bit.set/get`, `Logic.set/get` | bit-level (`Z.testbit`) characterisation of the holder update, case split native/words |
| C04 | constructors | computation of mask, induction on words |
| C05-C07 | `slice*` | loop invariant over the copying fold (words), mask/shift algebra (native) |
| C08-C09 | `extend` | congruence modulo 2^n; refutation for the multi-word ones-fill |
| C10-C12 | `concat`, `unpack` | bit-level characterisation; refutations for promotion and the unshifted mask |
| C13-C14, C20 | bitwise operators | testbit extensionality; canonical-form invariant |
| C15-C19 | 4-state bitwise operators | position-wise characterisation for all widths; exact table of the code, refutation by concrete pair |
| C21-C25 | reductions, truthiness | induction over the scan; parity lemma; exact condition for multi-word `any_set` |
| C26-C29 | shifts | loop invariant (words), shift algebra (native) |
| C30-C36 | comparisons | lexicographic induction over words; two's complement reasoning |
| C37-C44, C67 | arithmetic | carry-chain induction, schoolbook-multiplication invariant, shift-subtract division invariant |
| C45-C48 | conversions | congruence modulo 2^n |
| C49-C50 | updates | loop invariant |
| C51-C54 | arrays | corollaries of slice/update laws, refutations |
| C55-C59 | parsing | induction over the digit string |
| C60-C65 | formatting | induction over digits; refutations |
| C66 | compound assignment | corollary |
| C68-C69 | helpers, literals | induction over words; computation |
| C70 | signed native division | case split on the C++ type, `Z.quot` |
| C71-C72 | sequences of writes (`Client.v`) | induction on the program with a position-wise invariant |
| C73-C74 | k-fold `++`/`--` | induction on k |
| C75-C76 | expression trees | structural induction; invariant: type, number/symbols, nothing stored above the width where promised |
| C77, C80, C81 | algebraic laws over arbitrary sub-expressions | corollaries of C75 and integer arithmetic modulo 2^n |
| C78 | comparisons of results | refutation (storage above the width is compared); corollary of C75 where there is none |
| C79 | order laws | reduction to the order on Z |
| C82 | x-monotonicity (pairs of executions) | monotonicity of the four-state meaning, then C76; refutation for `&` |
| C83 | 4-state versus 2-state executions | simulation by structural induction |
| C12, C53, C74, C77, C80, C83 (`CounterProofs.v`) | the part each leaves open | concrete counterexamples; C80 up to 64 bits for every pair of expressions that has a value, by the reference machine of C121 |
| C84-C86 | compositions of slice, extend, concat, update | extensionality: vectors with equal positions and nothing above them are equal objects; induction on the argument list |
| C87, C90, C91 | `More.v` | reduction to `update`, `==`, `any_set`; C90 by case split on the template constraints |
| C88 | struct programs (`Program.v`) | induction on the list of writes; refutation for 2-state structs |
| C89 | `bit::unpack` | induction on the target list |
| C92 | imperative programs (`Program.v`) | lockstep simulation, induction on the fuel |
| C93 | Euclid's loop | corollary of C92 and well-founded induction on the divisor |
| C94 | `BigObj.v` (members of `big_num` used directly, with their compile-time requirements) | word-level lemmas of `BigNumProofs.v`, induction on the list of writes; extension of non-negative signed numbers refuted |
| C95 | `BigObj.v` | word-level lemmas; widening of signed operands and ones above the width after `~` refuted |
| C96 | `BigObj.v` | word-level lemmas; `ashr` refuted for negative numbers, with its exact result |
| C97 | `BigObj.v` | word-level lemmas; refuted for unsigned operands with an invisible excess, mixed-size signed operands, smallest signed number |
| C98 | `BigObj.v` | word-level lemmas; exact condition for the out-of-bounds write of `*`; division by numbers with empty low halves refuted |
| C99 | `BigObj.v` | word-level lemmas; `any_set`, `all_set`, `is_one`, `fit_in_64` refuted, with their exact results |
| C100 | `BigObj.v`, text constructor over uninitialised memory | word-level lemmas; texts shorter than the number refuted |
| C101 | indexing a vector outside its range | exact result from the C++ shift rules (native) and the range test (multi-word); refuted for indices of 32 (64) and more |
| C102 | `logic_extend` | exact symbols of the result (`widened`) from the bits of `bit_extend`; refuted for x on top of a signed vector |
| C103 | programs over `logic` variables (Program4.v: `exec4`), and their IEEE 1800 meaning over symbol strings (`exec4_of`) | induction on fuel; expressions by C76, conditions by C25, C35, C36; refuted with & and \|, proved with the tables of C109 in their place |
| C104 | the same programs over `bit` variables | both lockstep theorems and an induction relating the two meanings |
| C105 | `shift_mul` (Algo.v) run by `exec` | total-correctness rules over the integers (invariant and measure), carried over by C92's lockstep |
| C106 | `power` (Algo.v) run by `exec` | total-correctness rules over the integers (invariant and measure), carried over by C92's lockstep |
| C107 | `sub_div` (Algo.v) run by `exec` | total-correctness rules over the integers (invariant and measure), carried over by C92's lockstep |
| C108 | `popcount` (Algo.v) run by `exec` | total-correctness rules over the integers (invariant and measure), carried over by C92's lockstep |
| C109 | `logic_and`, `logic_or`, `logic_xor` | the bit formulas of the code evaluated per symbol pair, after C102 for the narrower operand |
| C110 | `bit_negate_in` (Rest.v) | reduced to unary minus (C39); exact undefined cases |
| C111 | `logic_cmp_bit`, `logic_match_bit`, `logic_nmatch_bit` | conversion of the bit operand (C45), then C35, C36; refuted for a signed bit with an unsigned logic |
| C112 | `logic_rebound` | case analysis on the constructor's requirements |
| C113 | `logic_get_at` | conversion of the index to a native number, then C02; refuted for indices of 2^32 and more and for ranges not starting at 0 |
| C114 | `util_copy`, `bit_copy`, `logic_copy` | loop invariant; the reversed loop runs out of every fuel |
| C115 | `bit_of_big` | words as a number; refuted for one position |
| C116 | `bit_of_arith`, `logic_of_arith`, `bit_assign_arith`, `logic_assign_arith`, `pa_of_arith`, `pa_default`, ... | case analysis on the holder; refuted for one position and unsigned multi-word vectors |
| C117 | `str_len` | induction on the digits |
| C118 | `made2` (Reach.v): closure of the constructors under every modelled call on bit vectors | induction on the construction for one direction; the other by building any storage with one construction (native) or by counting up with `+` (multi-word) |
| C119 | `made4`: the same for logic vectors | as C118; masks are built position by position with `set_x`/`set_z` on a vector whose value already is the wanted one, native masks with garbage by assignment from a vector filling its storage. Multi-word masks with something above the width: some exist (C119_tidy_masks_refuted: a text with too many digits), others do not (C119_unreachable_refuted, `MaskProofs.v`: an invariant of every call at 65 positions, the last two bits of the storage of a mask) |
| C120 | `neat2`: closure under the calls that keep storage in order | induction, C14 and `mask_off` |
| C121 | `SpecMachine.v`: `computed`, `remainder`, `stepped`, `negated`, `two_complement` on stored integers | case analysis on storage types, exact equality of outcomes |
| C122 | `bitwise`, `inverse`, `assigned` | same, bits of sign-extended integers |
| C123 | `shifted_left`, `shifted_right`, `shifted_arith` | same, amounts compared with the computing width |
| C124 | `equal_native`, `ordered`, `all_ones`, `top_one` | same |
| C125 | `written`, `vector`, `resized` | same |
| C126 | `position`, `with_position`, `slice_fixed`, `slice_dynamic`, `joined` | same, bitwise |
| C127 | `MachineProg.v`: one program, run by the library (`lib_run`) and by the reference machine (`ref_run`) | induction on fuel and program, types of variables as invariant |
| C128 | `SpecWide.v`: `any_sum` … `any_step`, `divided`: formulas on stored integers at any width | words as one number, carry loops by induction, long division by invariant |
| C129 | `any_bitwise`, `any_left`, `any_right`, `any_arith`, `any_put` | bits of the stored number |
| C130 | `any_equal`, `wide_greater`, `any_order`, `any_true`, `any_all_ones`, `any_top_one` | word loops by induction, sign cases |
| C131 | `any_new`, `any_assign`, `vec_of`, `rewritten`, `any_resize` | same |
| C132 | `any_position`, `any_with_position`, `any_slice`, `any_slice_dynamic`, `joined` | bits of the stored number |
| C133 | `WideProg.v`: programs of `MachineProg.v` run by `lib_run` and `any_run` | induction on fuel and program, types as invariant |
| C134 | `SpecFour.v`: `four_arith`, `unless`, `doubt_at`, `four_step`, `four_minus` on values and mask | widening lemmas, 2-state machine on the values, `FourProofs.v` |
| C135 | `four_table`, `four_xor`, `four_not`, tables `lib_and`, `lib_or` | symbols at every position determine an object without bits above the width |
| C136 | `four_shift` | same shift of values and mask |
| C137 | `four_compare`, `four_match`, `four_false`, `four_true`, `four_to_uint64` | C130 on the values |
| C138 | `search`, `four_parity`, `inverted` | induction on the scan |
| C139 | `four_at`, `four_put_at`, `both`, `four_join`, `four_join_bit`, `four_of_bit`, `four_assign`, `four_assigned` | C131, C132 on values and mask |
| C140 | `FourProg.v`: programs over both kinds of variables, run by `lib4_run` and `four_run` | induction on fuel and program, types as invariant |
| C141 | `SpecRead.v`: reference reader of arbitrary texts (parts, places, worth of a character, pieces of wide vectors) | equality of the parsing loops with the reader by induction on the text; C55–C57 exact conditions follow |
| C142 | `SpecPrint.v`: reference printer of arbitrary vectors for arbitrary formats (requests, characters of a piece, pieces of wide vectors, layout) | equality of the formatting loops with the printer by induction on the digits; exact conditions for C60–C62 and the binary round trip of C64 follow |
| C143 | `SpecBigRef.v`: reference machine of `big_num` objects (formulas on the stored number) | equality of every member with its formula (`BigRef.v`), on top of the word-level lemmas of `BigObj*.v` and `WideProofs*.v` |
| C144 | `SpecArrRef.v`: reference machine of element reads | equality for every index vector (`ArrRef.v`), from the reference machines of comparisons and dynamic part-selects |
| C145 | the converting constructors `bit_convert`, `logic_convert`; `SpecIff4.v`: which types are accepted | case analysis on the kinds of storage; equivalence for acceptance and the number or the symbols of the result (`Iff18.v`) |
| C146 | `Const.v`: the constant forms, with an overflow or an unmet `requires` as a compile error | from the run-time forms (`ConstProofs.v`); `set<i>` for every range and constant equals the reference machine |
| C147 | `bit_negative` | refuted for one signed position; equivalence for all other vectors (`ConstProofs2.v`) |
| C148, C149 | folds of the array writes of `Arr.v` over a list; `SpecMem.v`: the value written last | refuted for run-time indices in descending order and for unpacked ranges that do not start at 0; induction over the list for constant indices, for filling upwards, exactly for unpacked arrays (`MemProofs.v`), and exactly for packed arrays written at any constant or run-time indices (`MemProofs2.v`) |
| C150 | `Reduce.v` | refuted; closed form of the result and equivalence (`ReduceProofs.v`) |
| C151 | `SpecType.v`: a type checker for the programs of `MachineProg.v` and `FourProg.v`, written from bounds and signednesses | case analysis of the reference machines and induction over expressions and executions (`TypeProofs.v`, `TypeProofs4.v`) |
| C152 | the programs of `MachineProg.v` on signed variables of one width; `SpecSigned.v`: the same programs over integers, with and without overflow | refuted for overflow; induction over expressions and executions: right as long as nothing overflows, and exactly what happens otherwise (`SignedProofs.v`) |
| C153 | the programs of `MachineProg.v` on signed variables of one width above 64; `SpecSignedWide.v`: the same programs over integers | refuted for widths that do not fill their words, for ==, <= and unary minus (do not compile) and for comparisons with the smallest number; induction over expressions and executions: right strictly between the bounds, and exactly what happens otherwise (`SignedWideProofs.v`). Products, quotients and `ashr` are left out: they are undefined or do not compile for negative operands (see `SpecWide.v`) |
| C154 | the programs of `MachineProg.v`, translated to those of `FourProg.v` | refuted for widths that do not fill their storage (~), zero divisors, signed & and \| and concatenation onto a signed vector; otherwise simulation, by induction over expressions and executions, between the two reference machines (`ChangeProofs.v`): any mix of widths, signednesses and bounds without & \| ^ ~ (signed vectors declared [n-1:0]), one unsigned storage-filling width with them, / and % up to 64 positions |
| C155 | `Circuit.v`: the loop over positions, 2-state and 4-state; `SpecCircuit.v`: carry and sum over symbols | induction over the positions with the carry as invariant (`CircuitProofs.v`); refuted with x (the tables of & and \| make the carry 1), exact symbols where x and z are below position 64 |
| C156 | `Circuit.v`: two shifts and an or | positions of the shift theorems (`CircuitProofs.v`); refuted for amount 0 (a native vector shifted by its width is undefined) |
| C157 | `Circuit.v`: a shift and an exclusive or, and the decoding loop | positions of the shift theorem; induction over the amounts; the lowest zero of the number for neighbours (`CircuitProofs.v`) |
| C158 | `Crc.v`: the bitwise loop; `SpecCrc.v`: polynomials over the integers modulo 2 as numbers, remainder | induction over the message (`CrcProofs.v`); uniqueness of the remainder by degrees |
| C159 | `Crc.v`: one push of a delay line over an unpacked array | loop invariant over the moves, induction over the pushes (`DelayProofs.v`) |
| C160 | `Lfsr.v`: one step and the loop | the step over numbers is injective (top position); pigeonhole over the iterates (`LfsrProofs.v`) |
| C161 | `Lfsr.v`: three compound assignments, 2-state and 4-state | the exclusive or theorem three times, tables of symbols (`LfsrProofs.v`) |
| C162 | both orders of every symmetric operator and comparison | refuted (bounds of the right operand decide which overloads exist, == converts the right operand, the tables of 4-state & and \| are not symmetric); exact conditions from the reference machines (`OrderProofs.v`) |
| C163 | `pa_ok`, `pa_default`, `pa_of_arith`, `pa_of_str`, `pa_update`, `pa_update_c` | an invariant over the loop of position writes (`MemberProofs.v`); the same file has the members C118 and C119 do not chain: positions at compile time, references to ranges, copying, `bit::unpack` |
| C164 | `Queue.v`: push and pop over `pa_update` and `pa_get`; `SpecQueue.v`: a list | an invariant over all sequences of calls: the slots from the head on hold the list (`QueueProofs.v`); refuted for the full queue (a write also clears the lowest position of the next slot), exactly which values are damaged then |
| C165 | `Vote.v`: the three conjunctions and two disjunctions; `SpecVote.v`: two of three agree | position by position from the tables of C109 and C13 (`VoteProofs.v`); refuted with x (x & 0 is x and x \| 0 is 1), exactly where it is right |
| C166 | `Vote.v`: mask, inverted mask and disjunction | the same (`VoteProofs.v`); refuted where the mask chooses x, exactly where it is right |
| C167 | `Trick.v`: subtraction and bitwise operators; `SpecTrick.v`: a one below a position | the positions of z - 1 from the lowest one of z; C13, C38 (`TrickProofs.v`) |
| C168 | `Trick.v`: the loop with fuel; `SpecTrick.v`: the ones the library's test for zero leads to | induction over the turns: each removes the lowest one (`TrickProofs.v`); refuted above 64 positions (the test for zero does not look at the upper halves), exact count for every width |
| C169 | `Saturate.v`: addition, subtraction, comparison, complement | the comparison sees the overflow iff the storage has no room above the width (`SaturateProofs.v`); subtraction proved at every width, addition refuted at width 4 and exact set of widths |
| C170 | `Permute.v`: the loops over operator[] and set | induction over the turns: the positions written so far (`PermuteProofs.v`); 4-state: undefined exactly if an x or z is read from position 64 on |
| C171 | `Permute.v`: the loop | induction over the turns: the outer positions are exchanged, the inner ones still as they were (`PermuteProofs.v`) |
| C172 | `Long.v`: bitwise operators, shift, sum | x + y = (x xor y) + 2 (x and y); exact arithmetic of C128, C129 (`LongProofs.v`) |
| C173 | `Long.v`: the loops over lists of parts; `SpecLong.v`: the number kept in a list | induction over the parts with the carry (`LongProofs.v`); subtraction at every width, addition refuted at width 4, exact set of widths |
| C174 | `Sqrt.v`: the loop over the masks; `SpecSqrt.v`: the masks | induction over the masks: r*r <= a < (r + 2^j)*(r + 2^j) (`SqrtProofs.v`); up to 128 positions; `SqrtExact.v`: no wider width (products of the upper words are written outside the vector, or 2^96 is taken for a number of one word) |
| C175 | `Serial.v`: the loop over the inputs; `SpecSerial.v`: what the register holds | induction over the inputs from the positions of a slice and of a concatenation (`SerialProofs.v`); right at exactly the widths below 64 other than 33 |
| C176 | `Sort.v`: the loop over the parts; `SpecLong.v` | induction over the parts (`SortProofs.v`) |
| C177 | `Sort.v`: insertion sort; the standard library's Permutation and StronglySorted | induction over the list: the sorted part stays sorted and a permutation (`SortProofs.v`); exact: every unsigned width, signed widths from 2 to 64; 4-state vectors only without x and z |
| C178 | `Scan.v`: the loops over the positions; `SpecScan.v`: the highest and the lowest position | induction over the positions (`ScanProofs.v`); 4-state: exactly when no x or z at position 64 or above is read |
| C179 | `Scan.v`: the loop over the positions | induction: c compares the numbers modulo 2^i (`ScanProofs.v`) |
| C180 | `Digits.v`: the loop with fuel; `SpecDigits.v`: digits in a base | induction over the fuel: the quotient has one position less (`DigitsProofs.v`); right at exactly the widths up to 96, for every base |
| C181 | `Accum.v`: the loop over the clock edges; `SpecAccum.v`: a state machine over an optional number | induction over the inputs: simulation of the state machine (`AccumProofs.v`); right for all inputs at exactly the widths from 2 to 64 |
| C182 | `Sext.v`: the expression as calls of the API | the value of xor with one position and of the difference, modulo 2^n (`SextProofs.v`), every width |
| C183 | `Sext.v` | complement as 2^n - 1 - a, then arithmetic modulo 2^n (`SextProofs.v`); the form with + is right at exactly the widths of at least 2 |
| C184 | `Horner.v`: the loop over the coefficients; the value of a list as in `SpecDigits.v` | induction over the coefficients (`HornerProofs.v`); right for all coefficients at exactly the widths up to 64 and those where 2^n <= d * 2^64 |
| C185 | `Barrel.v`: the loop over the stages | invariant: after i stages the vector is shifted by k mod 2^i (`BarrelProofs.v`); stages of at least the width of a native vector are undefined behaviour |
| C186 | `Distance.v`: the loop over the positions; clearing ones as in `Trick.v` | induction over the positions, then the number of ones of the exclusive or (`DistanceProofs.v`); by clearing: C168 applied to a ^ b |
| C83 (`PropsBoth.v`) | `eval`, `eval4` on the same expression (`to4`) | induction on the expression over the stored numbers (`BothProofs.v`): up to 64 positions agreement of all expressions holds exactly at 8, 16, 32 and 64; without division also at multiples of 64 |
| C77 (`PropsLawWidths.v`) | `eval`, the laws of `Client.v` | exactly the widths at which they hold for all operands (`LawWidths.v`); at the others the product of `~0` by itself is undefined, or minus does not compile |

`SpecExact.v`, `Exact*.v` and `PropsExact.v` state what exactly happens in the cases the properties C06, C07, C09, C10, C14, C26-C28, C30, C37-C40, C46, C48, C50, C70 exclude or fail in (undefined behaviour, other results).
`SpecIff.v`-`SpecIff6.v`, `Iff*.v` and `PropsIff*.v` turn the partial theorems of C02, C03, C06-C16, C18, C21-C30, C32-C44 (C44: 4-state), C46-C50, C51-C53 (`PropsArrRef.v`), C54 (`PropsArr.v`), C59 (without underscores, decimals of up to 64 characters), C63 (without octals of several words), C65 (without 2-state digits of several words), C66, C68, C72, C74, C78, C79, C80 (wide), C85 (without associativity), C86-C88, C91, C94 (widening), C95, C97-C101, C111 (unsigned against signed), C113, C115 and C116 into
equivalences: the operator gives the result of the property if and only if a condition on widths, signs, numbers and symbols holds.
They are derived from the reference machines (C126-C140).
`MatchProofs.v` and `PropsMatch.v` do the same for match() of unsigned vectors of different types (C36) and for ++ and -- (C44); `SpecMono.v` and `MonoProofs.v` say for which symbols & and \| keep known results when x and z are replaced (C82).
`ProgExact.v`, `ProgExact4.v`, `PropsProg.v` and `PropsProg4.v` do the same for whole programs (2-state: C75, C92; 4-state: C76, C103): what a program really computes, and that it is right or undefined when no amount wraps.

## Trusted base

* Coq 8.16.1 kernel, including its `vm_compute` conversion (used for concrete examples and refutation witnesses).
* `Print Assumptions` is run below every property theorem; every one answers "Closed under the global context".
  No axiom of the standard library is used by any theorem. (`coqchk` on the whole library environment lists seven
  axioms of `Coq.ssr.ssrunder`, a library file that is loaded but not used.)
* The hand transcription of the C++ in the model files `Cpp.v`, `BigNum.v`, `Bit.v`, `Logic.v`, `Arr.v`, `Util.v`, `More.v`, `BigObj.v`, `Rest.v`, `Const.v`, `Reduce.v`.
  It is checked only by reading and by `Sanity.v`, which replays the repository's unit tests in the model.
* The C++20 integer semantics in `Cpp.v` for an LP64 two's-complement platform.
* The specifications `Spec*.v`, `Client.v`, `Client4.v`, `Program.v`, `Program4.v`, `Algo.v`, in so far as they express the English properties.

## Testing the theorems

`seeded/LOG.jsonl` records edits of the model that imitate realistic bugs, with the property theorems that no longer prove.
