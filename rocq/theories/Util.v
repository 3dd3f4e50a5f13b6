(** Model of src/util.cc (parsing and formatting) and of the string members of bit.hh and logic.hh.
    A [std::string] is the list of its characters, a [char] its (signed, 8 bit) code.
    [std::ceil] of a double quotient is exact integer ceiling (simplification, exact below 2^53).
    No proofs in this file. *)
From Coq Require Import ZArith List Bool Ascii String.
From Verif Require Import Cpp BigNum Bit Logic.
Import ListNotations.
Open Scope Z_scope.

(** String literals of the C++ source as character lists. *)
Fixpoint chars (s : string) : list Z :=
  match s with
  | EmptyString => []
  | String a r => Z.of_nat (nat_of_ascii a) :: chars r
  end.
Definition chr (a : ascii) : Z := Z.of_nat (nat_of_ascii a).

Definition is_digit (c : Z) : bool := (48 <=? c) && (c <=? 57).
Definition is_one_of (c : Z) (s : string) : bool := existsb (Z.eqb c) (chars s).

(** position of the first character satisfying [f] ([find_first_of], [find_first_not_of]) *)
Fixpoint find_first (f : Z -> bool) (s : list Z) : option Z :=
  match s with
  | [] => None
  | c :: r => if f c then Some 0 else option_map Z.succ (find_first f r)
  end.
Definition substr_from (s : list Z) (p : Z) : list Z := skipn (Z.to_nat p) s.
Definition char_at (s : list Z) (p : Z) : Z := nth (Z.to_nat p) s 0.
Definition slen (s : list Z) : Z := Z.of_nat (List.length s).

(** [get_input_base], util.cc 9-27 *)
Definition get_input_base (value : list Z) : Z * Z :=
  match find_first (Z.eqb (chr "'")) value with
  | Some p =>
      let rest := substr_from value (p + 1) in
      match find_first (fun c => negb (is_digit c)) rest with
      | Some b => (char_at rest b, b + 1 + p + 1)
      | None => (chr "b", 0)
      end
  | None => (chr "s", 0)
  end.

(** [get_output_base], util.cc 29-36 *)
Definition get_output_base (fmt : list Z) : Z :=
  match find_first (fun c => negb (is_digit c)) fmt with
  | None => chr "b"
  | Some p => char_at fmt p
  end.

(** one step of each base of [parse_raw_str_], util.cc 38-119; characters are visited from the last to
    the first, state is (idx or base10, result) *)
Definition parse_dec_step (st : Z * Z) (c : Z) : Z * Z :=
  let '(base10, result) := st in
  if is_digit c then (u64 (base10 * 10), u64 (result + u64 ((c - 48) * base10))) else st.
Definition parse_bin_step (st : Z * Z) (c : Z) : outcome (Z * Z) :=
  let '(idx, result) := st in
  let! r :=
    (if is_one_of c "1z" then let! m := c_shl TU64 1 idx in Ok (Z.lor result m) else Ok result) in
  Ok (if c =? chr "_" then idx else idx + 1, r).
Definition oct_digit (c : Z) : Z :=
  if is_one_of c "xX_" then 0 else if is_one_of c "zZ" then 7 else u64 (c - 48).
(** lower-case digits lack the [+ 10], util.cc 99-100 *)
Definition hex_digit (c : Z) : Z :=
  if is_one_of c "xX_" then 0
  else if is_one_of c "zZ" then 15
  else if is_digit c then c - 48
  else if (97 <=? c) && (c <=? 102) then c - 97
  else if (65 <=? c) && (c <=? 70) then c - 65 + 10
  else 0.
Definition parse_pow2_step (digit : Z -> Z) (k : Z) (st : Z * Z) (c : Z) : outcome (Z * Z) :=
  let '(idx, result) := st in
  let! m := c_shl TU64 (digit c) (idx * k) in
  Ok (if c =? chr "_" then idx else idx + 1, Z.lor result m).
Definition parse_str (value : list Z) : Z :=
  fst (fold_left (fun st c =>
         let '(result, i) := st in (Z.lor result (u64 (Z.shiftl (c mod 256) (i * 8))), i + 1))
       (firstn 8 (rev value)) (0, 0)).

(** [parse_raw_str_(value, base)], util.cc 38-119 *)
Definition parse_raw_ (value : list Z) (base : Z) : outcome Z :=
  if is_one_of base "dD" then Ok (snd (fold_left parse_dec_step (rev value) (1, 0)))
  else if is_one_of base "bB" then omap snd (ofold parse_bin_step (rev value) (0, 0))
  else if is_one_of base "oO" then omap snd (ofold (parse_pow2_step oct_digit 3) (rev value) (0, 0))
  else if is_one_of base "hH" then omap snd (ofold (parse_pow2_step hex_digit 4) (rev value) (0, 0))
  else if is_one_of base "sS" then Ok (parse_str value)
  else Ok 0.

(** [parse_raw_str(value)], util.cc 121-124 *)
Definition parse_raw_str (value : list Z) : outcome Z :=
  let '(base, start) := get_input_base value in parse_raw_ (substr_from value start) base.

(** [parse_xz_raw_str_], util.cc 126-176; the binary case shifts a 32-bit [1u] *)
Definition parse_xz_bin_step (st : Z * Z) (c : Z) : outcome (Z * Z) :=
  let '(idx, result) := st in
  let! r :=
    (if is_one_of c "xz" then let! m := c_shl TU32 1 idx in Ok (Z.lor result m) else Ok result) in
  Ok (if c =? chr "_" then idx else idx + 1, r).
Definition parse_xz_pow2_step (s k : Z) (st : Z * Z) (c : Z) : outcome (Z * Z) :=
  let '(idx, result) := st in
  let! r :=
    (if is_one_of c "xXzZ" then let! m := c_shl TU64 s (idx * k) in Ok (Z.lor result m) else Ok result) in
  Ok (if c =? chr "_" then idx else idx + 1, r).
Definition parse_xz_raw_ (value : list Z) (base : Z) : outcome Z :=
  if is_one_of base "bB" then omap snd (ofold parse_xz_bin_step (rev value) (0, 0))
  else if is_one_of base "oO" then omap snd (ofold (parse_xz_pow2_step 7 3) (rev value) (0, 0))
  else if is_one_of base "hH" then omap snd (ofold (parse_xz_pow2_step 15 4) (rev value) (0, 0))
  else Ok 0.
(** [parse_xz_raw_str(value)], util.cc 178-181 *)
Definition parse_xz_raw_str (value : list Z) : outcome Z :=
  let '(base, start) := get_input_base value in parse_xz_raw_ (substr_from value start) base.

(** [get_stride], util.cc 183-202 *)
Definition get_stride (base : Z) : Z :=
  if is_one_of base "bB" then 1
  else if is_one_of base "oO" then 3
  else if is_one_of base "hHxX" then 4
  else if is_one_of base "sS" then 8
  else 1.

(** the batching loop of the multi-word parsers, util.cc 204-246: [remaining], [end] walk down the text,
    [fuel] bounds the number of words *)
Fixpoint parse_words (one : list Z -> outcome Z) (value : list Z) (batch : Z) (fuel : nat)
    (remaining en idx : Z) (ws : list Z) : outcome (list Z) :=
  match fuel with
  | O => Ok ws   (* idx = num_array *)
  | S f =>
      if 0 <? remaining then
        let beg := if batch <=? remaining then remaining - batch else 0 in
        let! w := one (firstn (Z.to_nat (en - beg)) (skipn (Z.to_nat beg) value)) in
        parse_words one value batch f (if batch <? remaining then remaining - batch else 0) beg
          (idx + 1) (word_set ws idx w)
      else Ok ws
  end.
Definition parse_big (one : list Z -> Z -> outcome Z) (value : list Z) (size : Z) : outcome (list Z) :=
  let '(base, start) := get_input_base value in
  let v := substr_from value start in
  parse_words (fun s => one s base) v (64 / get_stride base) (Z.to_nat (nwords size))
    (slen v) (slen v) 0 (bn_zero size).
(** [parse_raw_str(value, size, ptr)], [parse_xz_raw_str(value, size, ptr)]: util.cc 204-246; the target array
    is zero initialised by the callers *)
Definition parse_raw_str_big (value : list Z) (size : Z) : outcome (list Z) := parse_big parse_raw_ value size.
Definition parse_xz_raw_str_big (value : list Z) (size : Z) : outcome (list Z) := parse_big parse_xz_raw_ value size.

(** digits of a number, least significant first: the loops of util.cc 262-265, 422-426, 509-513, 637-641;
    [fuel] is the number of bits, which always suffices *)
Definition dchar (d : Z) : Z := if d <? 10 then 48 + d else 87 + d.
Fixpoint digits_lsf (fuel : nat) (b v : Z) : outcome (list Z) :=
  if v =? 0 then Ok []
  else match fuel with
       | O => Fuel
       | S f => let! r := digits_lsf f b (v / b) in Ok (dchar (v mod b) :: r)
       end.
(** [ss << std::oct/hex/dec << v] *)
Definition numeral (b v : Z) : outcome (list Z) :=
  if v =? 0 then Ok [48] else omap (@rev Z) (digits_lsf 64 b v).

(** [compute_decimal_size], util.cc 248-272 *)
Definition decimal_size (size : Z) : outcome Z :=
  if (0 <=? size) && (size <? 128) then
    if size =? 0 then Ok 1 else omap slen (digits_lsf 128 10 (2 ^ size - 1))
  else UB.

Definition ceil_div (a b : Z) : Z := (a + b - 1) / b.

(** [std::stoul] of a string of digits: throws when empty or out of range *)
Definition stoul (s : list Z) : outcome Z :=
  match s with
  | [] => Exn
  | _ => let v := fold_left (fun a c => a * 10 + (c - 48)) s 0 in
         if v <? 2 ^ 64 then Ok v else Exn
  end.

(** [parse_fmt], util.cc 274-341: (base, actual_size, padding) *)
Definition parse_fmt (fmt : list Z) (size : Z) : outcome (Z * Z * bool) :=
  let pos := find_first (fun c => negb (is_digit c)) fmt in
  let base := match pos with Some p => char_at fmt p | None => chr "s" end in
  let! requested :=
    (match pos with
     | Some 0 => Ok None
     | Some p => omap Some (stoul (firstn (Z.to_nat p) fmt))
     | None => omap Some (stoul fmt)
     end) in
  let! possible :=
    (if is_one_of base "bB" then Ok size
     else if is_one_of base "oO" then Ok (ceil_div size 3)
     else if is_one_of base "dD" then (if 128 <? size then Ok size else decimal_size size)
     else if is_one_of base "xXhH" then Ok (ceil_div size 4)
     else if is_one_of base "sS" then Ok (ceil_div size 8)
     else Ok size) in
  Ok (match requested with
      | None => (base, possible, true)
      | Some r => if r =? 0 then (base, possible, false) else (base, Z.max possible r, true)
      end).

(** [pad_result], util.cc 343-361.  Simplification: the C++ loop counts with a 32-bit unsigned, so a request for 2^32 or more
    padding characters would not end; here it pads. *)
Definition pad_result (is_negative : bool) (base actual_size : Z) (padding : bool) (ss : list Z) : list Z :=
  let neg := is_negative && is_one_of base "dD" in
  let result := if neg then ss ++ [chr "-"] else ss in
  let actual := if neg then actual_size + 1 else actual_size in
  let padc := if is_one_of base "dDsS" then 32 else 48 in
  let padded :=
    if padding then result ++ repeat padc (Z.to_nat (actual - slen result)) else result in
  rev padded.

(** [format_value_2power], util.cc 363-381 *)
Definition format_value_2power (base v : Z) : outcome (list Z) :=
  if is_one_of base "oO" then numeral 8 v
  else if is_one_of base "xhXH" then numeral 16 v
  else Ok [].

(** one character per bit, least significant first, of [size] bits *)
Definition bin_chars (size value : Z) : list Z :=
  map (fun i => if Z.testbit value i then 49 else 48) (zrange 0 size).

Definition dec_lsf (fuel : nat) (value : Z) : outcome (list Z) :=
  if value =? 0 then Ok [48] else digits_lsf fuel 10 value.

(** 2-state native [to_string], util.cc 383-433 *)
Definition to_string2 (fmt : list Z) (size value : Z) (is_negative : bool) : outcome (list Z) :=
  let! p := parse_fmt fmt size in
  let '(base, actual, padding) := p in
  let! ss :=
    (if is_one_of base "bB" then Ok (bin_chars size value)
     else if is_one_of base "oOxhXH" then format_value_2power base value
     else if is_one_of base "sS" then
       ofold (fun acc k =>
                let i := 8 * k in
                let! c := c_shr TU64 value (i * 8) in
                let! t := numeral 10 (Z.land c 255) in
                Ok (acc ++ t))
         (zrange 0 (ceil_div size 8)) []
     else if is_one_of base "dD" then dec_lsf 64 value
     else Ok []) in
  Ok (pad_result is_negative base actual padding ss).

(** [get_mask], util.cc 435 *)
Definition get_mask (stride : Z) : Z := Z.shiftr u64max (64 - stride).

(** one digit of [fmt_value], util.cc 442-474; [v], [xz] are the digit's value and mask bits *)
Definition fmt_digit (base stride v xz : Z) : outcome (list Z) :=
  let mask := get_mask stride in
  if negb (xz =? 0) then
    if xz =? mask then
      Ok [if v =? 0 then chr "x" else if v =? mask then chr "z" else chr "X"]
    else
      Ok [if existsb (fun j => Z.testbit xz j && negb (Z.testbit v j)) (zrange 0 stride)
          then chr "X" else chr "Z"]
  else format_value_2power base v.

(** [fmt_value], util.cc 437-477; the digits start at i = 0, stride, 2*stride, ... < size *)
Definition fmt_value (base size value xz : Z) : outcome (list Z) :=
  let stride := get_stride base in
  let mask := get_mask stride in
  ofold (fun acc k =>
           let i := k * stride in
           let! a := c_shr TU64 value i in
           let! b := c_shr TU64 xz i in
           let! t := fmt_digit base stride (Z.land a mask) (Z.land b mask) in
           Ok (acc ++ t))
    (zrange 0 (ceil_div size stride)) [].

(** [fmt_decimal], util.cc 479-517 *)
Definition fmt_decimal (size value xz : Z) : outcome (list Z) :=
  if negb (xz =? 0) then
    let! mask := c_shr TU64 u64max (64 - size) in
    if xz =? mask then
      Ok [if value =? 0 then chr "x" else if value =? mask then chr "z" else chr "X"]
    else
      Ok [if existsb (fun i => Z.testbit xz i && negb (Z.testbit value i)) (zrange 0 size)
          then chr "X" else chr "Z"]
  else dec_lsf 64 value.

(** [fmt_char], util.cc 519-527 *)
Definition fmt_char (size value : Z) : outcome (list Z) :=
  ofold (fun acc i => let! c := c_shr TU64 value (8 * i) in
                      Ok (acc ++ [swrap 8 (Z.land c 255)]))
    (zrange 0 (ceil_div size 8)) [].

(** 4-state binary digits, util.cc 542-550 *)
Definition bin4_chars (size value xz : Z) : list Z :=
  map (fun i => if Z.testbit xz i then (if Z.testbit value i then chr "z" else chr "x")
                else (if Z.testbit value i then 49 else 48)) (zrange 0 size).

(** 4-state native [to_string_], util.cc 529-582 *)
Definition to_string4_ (fmt : list Z) (size value xz : Z) (is_negative use_padding : bool)
  : outcome (list Z) :=
  let! p := parse_fmt fmt size in
  let '(base, actual, padding) := p in
  let! ss :=
    (if is_one_of base "bB" then Ok (bin4_chars size value xz)
     else if is_one_of base "oOhHxX" then fmt_value base size value xz
     else if is_one_of base "dD" then fmt_decimal size value xz
     else if is_one_of base "sS" then fmt_char size value
     else Ok []) in
  Ok (if use_padding then pad_result is_negative base actual padding ss else ss).
(** util.cc 584-587 *)
Definition to_string4 (fmt : list Z) (size value xz : Z) (neg : bool) := to_string4_ fmt size value xz neg true.

(** [value[i]] of the raw pointer: reading past the array is undefined *)
Definition ptr_get (ws : list Z) (i : Z) : outcome Z :=
  if (0 <=? i) && (i <? Z.of_nat (List.length ws)) then Ok (word ws i) else UB.

(** one octal chunk, util.cc 604-614, 670-684: the part above a word boundary is not shifted up *)
Definition oct_chunk (ws : list Z) (i : Z) : outcome Z :=
  let start := i * 3 in
  let vi := start / 64 in
  let si := start mod 64 in
  let! w := ptr_get ws vi in
  let v := Z.land (Z.shiftr w si) 7 in
  if 64 - si <? 3 then
    let! w2 := ptr_get ws (vi + 1) in
    Ok (Z.lor v (Z.land w2 (Z.shiftr 7 (64 - si))))
  else Ok v.

(** multi-word 2-state [to_string_], util.cc 589-653 (with padding) *)
Definition to_string2_big (fmt : list Z) (size : Z) (ws : list Z) (is_negative : bool) : outcome (list Z) :=
  let! p := parse_fmt fmt size in
  let '(base, actual, padding) := p in
  let! ss :=
    (if negb (is_one_of base "dD") then
       if is_one_of base "oO" then
         ofold (fun acc i => let! v := oct_chunk ws i in
                             let! t := to_string2 fmt 3 v false in Ok (acc ++ t))
           (zrange 0 (ceil_div size 3)) []
       else
         let! lo := ofold (fun acc i => let! t := to_string2 fmt 64 (word ws i) false in Ok (acc ++ t))
                      (zrange 0 (nwords size - 1)) [] in
         if negb (size mod 64 =? 0) then
           let! t := to_string2 fmt (size mod 64) (word ws (nwords size - 1)) false in Ok (lo ++ t)
         else Ok lo
     else
       digits_lsf 128 10 (if 64 <? size then word ws 1 * 2 ^ 64 + word ws 0 else word ws 0)) in
  Ok (pad_result is_negative base actual padding ss).

(** multi-word 4-state [to_string], util.cc 655-755 *)
Definition to_string4_big (fmt : list Z) (size : Z) (ws xs : list Z) (is_negative : bool) : outcome (list Z) :=
  let! p := parse_fmt fmt size in
  let '(base, actual, padding) := p in
  let! ss :=
    (if negb (is_one_of base "dD") then
       if is_one_of base "oO" then
         ofold (fun acc i => let! v := oct_chunk ws i in
                             let! x := oct_chunk xs i in
                             let! t := to_string4_ fmt 3 v x false false in Ok (acc ++ t))
           (zrange 0 (ceil_div size 3)) []
       else
         let! lo := ofold (fun acc i =>
                             let! t := to_string4_ fmt 64 (word ws i) (word xs i) false false in
                             Ok (acc ++ t))
                      (zrange 0 (nwords size - 1)) [] in
         if negb (size mod 64 =? 0) then
           let! t := to_string4_ fmt (size mod 64) (word ws (nwords size - 1))
                       (word xs (nwords size - 1)) false false in Ok (lo ++ t)
         else Ok lo
     else
       let v := if 64 <? size then word ws 1 * 2 ^ 64 + word ws 0 else word ws 0 in
       let x := if 64 <? size then word xs 1 * 2 ^ 64 + word xs 0 else word xs 0 in
       if negb (x =? 0) then
         if x =? 2 ^ 128 - 1 then
           Ok [if v =? 0 then chr "x" else if v =? 2 ^ 128 - 1 then chr "z" else chr "X"]
         else
           Ok [if existsb (fun i => Z.testbit x i && negb (Z.testbit v i)) (zrange 0 (Z.min 128 size))
               then chr "X" else chr "Z"]
       else digits_lsf 128 10 v) in
  Ok (pad_result is_negative base actual padding ss).

(** [decimal_fmt], util.cc 757-760 *)
Definition decimal_fmt (fmt : list Z) : bool := is_one_of (get_output_base fmt) "dD".

(** [bit::str(fmt)], bit.hh 29-44; [big_num::negative] makes it ill-formed for unsigned multi-word vectors *)
Definition bit_str (b : bit) (fmt : list Z) : outcome (list Z) :=
  match bval b with
  | HN v =>
      if bsgn b && (v <? 0) && decimal_fmt fmt then
        let! n := bit_negate b in to_string2 fmt (bsize b) (bit_to_uint64 n) true
      else to_string2 fmt (bsize b) (u64 v) false
  | HB ws =>
      requires (bsgn b)
        (if bn_negative (bsize b) ws && decimal_fmt fmt then
           to_string2_big fmt (bsize b) (bn_negate (bsize b) ws) true
         else to_string2_big fmt (bsize b) ws false)
  end.

(** [logic::str(fmt)], logic.hh 27-49 *)
Definition logic_str (l : logic) (fmt : list Z) : outcome (list Z) :=
  let n := lsize l in
  match bval (l_val l), bval (l_xz l) with
  | HN v, HN x =>
      if lsgn l && (v <? 0) && decimal_fmt fmt then
        let! neg := bit_negate (l_val l) in to_string4 fmt n (bit_to_uint64 neg) (u64 x) true
      else to_string4 fmt n (u64 v) (u64 x) false
  | HB ws, HB xs =>
      if lsgn l && bn_negative n ws && decimal_fmt fmt then
        to_string4_big fmt n (bn_negate n ws) xs true
      else to_string4_big fmt n ws xs false
  | _, _ => IllFormed
  end.

(** string constructors, bit.hh 1000-1006 and logic.hh 1014-1022 (no masking to the declared width) *)
Definition bit_of_str (msb lsb : Z) (s : bool) (v : list Z) : outcome bit :=
  let n := vsize msb lsb in
  if native_num n then
    let! x := parse_raw_str v in Ok (mkBit msb lsb s (HN (conv (hty n s) x)))
  else
    let! ws := parse_raw_str_big v n in Ok (mkBit msb lsb s (HB ws)).
Definition logic_of_str (msb lsb : Z) (s : bool) (v : list Z) : outcome logic :=
  let n := vsize msb lsb in
  if native_num n then
    let! x := parse_raw_str v in
    let! m := parse_xz_raw_str v in
    Ok (mkLogic (mkBit msb lsb s (HN (conv (hty n s) x))) (mkBit msb lsb false (HN (conv (hty n false) m))))
  else
    let! ws := parse_raw_str_big v n in
    let! xs := parse_xz_raw_str_big v n in
    Ok (mkLogic (mkBit msb lsb s (HB ws)) (mkBit msb lsb false (HB xs))).
