(** Property theorems about reading and writing texts.  A text is the list of its character codes; [literal pre size
    base s] is the text of [pre], an apostrophe, [size], the base character and the digits [s]; [text_sym k s p] is
    the symbol in position [p] of the digits [s] read with [k] positions per digit, underscores skipped;
    [numeral_value b s] the number written [s] in base [b].  See SpecText.v. *)
From Coq Require Import ZArith List Bool String.
From Verif Require Import Cpp BigNum Bit Logic Util Spec SpecText BitMain TextProofs TextBig FmtProofs FmtMain FmtDec FmtRound TextMain.
Import ListNotations.
Open Scope Z_scope.

(** C55: a 34-digit binary literal that begins with x is undefined behaviour; an upper-case X is read as 0 *)
Theorem C55_refuted :
  (exists s, Forall (among "01xz") s /\ len s = 34 /\ logic_of_str 39 0 false (literal [] [] 98 s) = UB) /\
  (exists s l, Forall (among "01X") s /\ logic_of_str 7 0 false (literal [] [] 98 s) = Ok l /\ text_sym 1 s 1 = SX /\ sym_at l 1 = S0).
Proof. exact bin_counter. Qed.
Print Assumptions C55_refuted.
(** Missing: x and z at position 32 and above, upper-case X and Z (both false); more than 64 digits.  With [k] = 3
    and [k] = 4 the same theorem is the 4-state half of C57 and C56. *)
Theorem C55_logic_partial : forall n sg pre size base k s, 1 <= n <= 64 -> prefix_ok pre size -> pow2_base base k -> digits_ok k s -> fits k s -> narrow_ok n k s ->
  (k = 1 -> forall p, 32 <= p -> unknown (text_sym 1 s p) = false) ->
  exists l, logic_of_str (n - 1) 0 sg (literal pre size base s) = Ok l /\ ltyped l n sg /\ (forall p, 0 <= p < n -> sym_at l p = text_sym k s p) /\
    (sg = false -> k * len (clean s) <= n -> ltidy l).
Proof. exact logic_text. Qed.
Print Assumptions C55_logic_partial.
(** 2-state vectors read an x as 0 and a z as 1 *)
Theorem C55_bit_partial : forall n sg pre size base k s, 1 <= n <= 64 -> prefix_ok pre size -> pow2_base base k -> digits_ok k s -> fits k s -> narrow_ok n k s ->
  exists b, bit_of_str (n - 1) 0 sg (literal pre size base s) = Ok b /\ typed b n sg /\ (forall p, 0 <= p < n -> bit_at b p = sym_val (text_sym k s p)) /\
    (sg = false -> k * len (clean s) <= n -> tidy b).
Proof. exact bit_text. Qed.
Print Assumptions C55_bit_partial.
Example C55_ex : pow2_base 98 1 /\ digits_ok 1 (chars "1x_z0") /\ fits 1 (chars "1x_z0") /\ prefix_ok (chars "4") [] /\
  (exists l, logic_of_str 3 0 false (literal (chars "4") [] 98 (chars "1x_z0")) = Ok l /\ sym_at l 2 = SX /\ sym_at l 3 = S1).
Proof.
  split; [left; split; [vm_compute; tauto|reflexivity]|]. split; [unfold digits_ok; cbn [Z.eqb Pos.eqb]; all_among|]. split; [conc|]. split; [split; [vm_compute; intros [E|[]]; discriminate|constructor]|].
  eexists. split; [vm_compute; reflexivity|]. conc.
Qed.

(** C56: 'hff is read as 85 *)
Theorem C56_refuted : exists s b, Forall (among "0123456789abcdef") s /\ bit_of_str 7 0 false (literal [] [] 104 s) = Ok b /\ numeral_value 16 s = 255 /\ num b = 85.
Proof. exact hex_counter. Qed.
Print Assumptions C56_refuted.
(** Missing: lower-case digits (false); texts of more than 16 digits or that begin with an underscore. *)
Theorem C56_partial : forall n sg pre size base s, 1 <= n <= 64 -> prefix_ok pre size -> pow2_base base 4 -> number_ok 4 s -> fits 4 s -> (n = 1 -> numeral_value (2 ^ 4) s < 2) ->
  (exists b, bit_of_str (n - 1) 0 sg (literal pre size base s) = Ok b /\ typed b n sg /\ num b = numeral_value (2 ^ 4) s mod 2 ^ n) /\
  (exists l, logic_of_str (n - 1) 0 sg (literal pre size base s) = Ok l /\ ltyped l n sg /\ known l /\ num (l_val l) = numeral_value (2 ^ 4) s mod 2 ^ n).
Proof. exact (fun n sg pre size base => text_number n sg pre size base 4). Qed.
Print Assumptions C56_partial.
Example C56_ex : pow2_base 104 4 /\ number_ok 4 (chars "BE_EF") /\ fits 4 (chars "BE_EF") /\ numeral_value (2 ^ 4) (chars "BE_EF") = 48879.
Proof. split; [do 2 right; split; [vm_compute; tauto|reflexivity]|]. split; [unfold number_ok; cbn [Z.eqb Pos.eqb]; all_among|]. conc. Qed.

(** C57: an octal 5 written with 23 digits is undefined behaviour; a one-bit vector reads 2 as 1 *)
Theorem C57_refuted :
  (exists s, Forall (among "01234567") s /\ numeral_value 8 s = 5 /\ logic_of_str 63 0 false (literal [] [] 111 s) = UB) /\
  (exists s l, Forall (among "01234567") s /\ numeral_value 8 s mod 2 ^ 1 = 0 /\ logic_of_str 0 0 false (literal [] [] 111 s) = Ok l /\ num (l_val l) = 1).
Proof. exact oct_counter. Qed.
Print Assumptions C57_refuted.
(** Missing: texts of more than 22 digits or that begin with an underscore; too large numbers for one-bit vectors. *)
Theorem C57_partial : forall n sg pre size base s, 1 <= n <= 64 -> prefix_ok pre size -> pow2_base base 3 -> number_ok 3 s -> fits 3 s -> (n = 1 -> numeral_value (2 ^ 3) s < 2) ->
  (exists b, bit_of_str (n - 1) 0 sg (literal pre size base s) = Ok b /\ typed b n sg /\ num b = numeral_value (2 ^ 3) s mod 2 ^ n) /\
  (exists l, logic_of_str (n - 1) 0 sg (literal pre size base s) = Ok l /\ ltyped l n sg /\ known l /\ num (l_val l) = numeral_value (2 ^ 3) s mod 2 ^ n).
Proof. exact (fun n sg pre size base => text_number n sg pre size base 3). Qed.
Print Assumptions C57_partial.
Theorem C57_groups_partial : forall n sg pre size base s, 1 <= n <= 64 -> prefix_ok pre size -> pow2_base base 3 -> digits_ok 3 s -> fits 3 s -> narrow_ok n 3 s -> (3 = 1 -> forall p, 32 <= p -> unknown (text_sym 1 s p) = false) ->
  exists l, logic_of_str (n - 1) 0 sg (literal pre size base s) = Ok l /\ ltyped l n sg /\ (forall p, 0 <= p < n -> sym_at l p = text_sym 3 s p) /\
    (sg = false -> 3 * len (clean s) <= n -> ltidy l).
Proof. exact (fun n sg pre size base => logic_text n sg pre size base 3). Qed.
Print Assumptions C57_groups_partial.
Example C57_ex : pow2_base 111 3 /\ number_ok 3 (chars "17_5") /\ fits 3 (chars "17_5") /\ numeral_value (2 ^ 3) (chars "17_5") = 125 /\ digits_ok 3 (chars "1X_zZ7") /\
  fits 3 (chars "1X_zZ7") /\ text_sym 3 (chars "1X_zZ7") 11 = SX.
Proof.
  split; [right; left; split; [vm_compute; tauto|reflexivity]|]. split; [unfold number_ok; cbn [Z.eqb Pos.eqb]; all_among|]. split; [conc|]. split; [conc|].
  split; [unfold digits_ok; cbn [Z.eqb Pos.eqb]; all_among|]. conc.
Qed.

(** C58: every native width; a number that the vector cannot hold is reduced modulo 2^n *)
Theorem C58_bit : forall n sg pre size base s, 1 <= n <= 64 -> prefix_ok pre size -> among "dD" base -> Forall (among "0123456789_") s -> (n = 1 -> numeral_value 10 s < 2) ->
  exists b, bit_of_str (n - 1) 0 sg (literal pre size base s) = Ok b /\ typed b n sg /\ num b = numeral_value 10 s mod 2 ^ n /\ (sg = false -> numeral_value 10 s < 2 ^ n -> tidy b).
Proof. exact bit_dec. Qed.
Print Assumptions C58_bit.
Theorem C58_logic : forall n sg pre size base s, 1 <= n <= 64 -> prefix_ok pre size -> among "dD" base -> Forall (among "0123456789_") s -> (n = 1 -> numeral_value 10 s < 2) ->
  exists l, logic_of_str (n - 1) 0 sg (literal pre size base s) = Ok l /\ ltyped l n sg /\ known l /\ num (l_val l) = numeral_value 10 s mod 2 ^ n /\ (sg = false -> numeral_value 10 s < 2 ^ n -> ltidy l).
Proof. exact TextProofs.logic_dec. Qed.
Print Assumptions C58_logic.
Theorem C58_multi_word : forall n sg pre size base s, 65 <= n < 2 ^ 31 -> prefix_ok pre size -> among "dD" base -> Forall (among "0123456789_") s -> 1 <= len s <= 64 -> numeral_value 10 s < 2 ^ 64 ->
  (exists b, bit_of_str (n - 1) 0 sg (literal pre size base s) = Ok b /\ typed b n sg /\ num b = numeral_value 10 s /\ tidy b) /\
  (exists l, logic_of_str (n - 1) 0 sg (literal pre size base s) = Ok l /\ ltyped l n sg /\ known l /\ num (l_val l) = numeral_value 10 s /\ ltidy l).
Proof. exact logic_dec_big. Qed.
Print Assumptions C58_multi_word.
Example C58_ex : among "dD" 100 /\ Forall (among "0123456789_") (chars "1_000_042") /\ numeral_value 10 (chars "1_000_042") = 1000042.
Proof. split; [vm_compute; tauto|]. split; [all_among|]. conc. Qed.

(** C59: underscores and octal digits of long literals go to the wrong positions; a long decimal loses its high part *)
Theorem C59_refuted :
  (exists s l, Forall (among "0123456789_") s /\ logic_of_str 69 0 false (literal [] [] 104 s) = Ok l /\ numeral_value 16 s = 2 ^ 64 /\ num (l_val l) = 2 ^ 68) /\
  (exists s l, Forall (among "01234567") s /\ logic_of_str 69 0 false (literal [] [] 111 s) = Ok l /\ numeral_value 8 s = 2 ^ 63 /\ num (l_val l) = 2 ^ 64) /\
  (exists s l, Forall (among "0123456789") s /\ logic_of_str 69 0 false (literal [] [] 100 s) = Ok l /\ numeral_value 10 s = 2 * 10 ^ 19 /\ num (l_val l) = 2 * 10 ^ 19 - 2 ^ 64).
Proof. exact big_text_counter. Qed.
Print Assumptions C59_refuted.
(** Missing: underscores, octal and decimal literals of more than one word (all false); lower-case digits. *)
Theorem C59_number_partial : forall n sg pre size base k s, 65 <= n < 2 ^ 31 -> prefix_ok pre size -> pow2_base base k -> k <> 3 -> number_ok k s -> no_underscore s ->
  (exists b, bit_of_str (n - 1) 0 sg (literal pre size base s) = Ok b /\ typed b n sg /\ num b = numeral_value (2 ^ k) s mod 2 ^ n) /\
  (exists l, logic_of_str (n - 1) 0 sg (literal pre size base s) = Ok l /\ ltyped l n sg /\ known l /\ num (l_val l) = numeral_value (2 ^ k) s mod 2 ^ n).
Proof. exact text_number_big. Qed.
Print Assumptions C59_number_partial.
Theorem C59_symbols_partial : forall n sg pre size base k s, 65 <= n < 2 ^ 31 -> prefix_ok pre size -> pow2_base base k -> k <> 3 -> digits_ok k s -> no_underscore s ->
  (k = 1 -> forall p, 0 <= p -> 32 <= p mod 64 -> unknown (text_sym 1 s p) = false) ->
  exists l, logic_of_str (n - 1) 0 sg (literal pre size base s) = Ok l /\ ltyped l n sg /\ (forall p, 0 <= p < n -> sym_at l p = text_sym k s p) /\ (k * len s <= n -> ltidy l).
Proof. exact logic_text_big. Qed.
Print Assumptions C59_symbols_partial.
(** texts of one word: every base, underscores allowed *)
Theorem C59_short_partial : forall n sg pre size base k s, 65 <= n < 2 ^ 31 -> prefix_ok pre size -> pow2_base base k -> digits_ok k s -> hd 0 s <> 95 -> 1 <= len s <= 64 / k ->
  (k = 1 -> forall p, 32 <= p -> unknown (text_sym 1 s p) = false) ->
  exists l, logic_of_str (n - 1) 0 sg (literal pre size base s) = Ok l /\ ltyped l n sg /\ (forall p, 0 <= p < n -> sym_at l p = text_sym k s p) /\ ltidy l.
Proof. exact logic_short_big. Qed.
Print Assumptions C59_short_partial.
Example C59_ex : number_ok 4 (chars "1234567890ABCDEF0123456789ABC") /\ no_underscore (chars "1234567890ABCDEF0123456789ABC") /\ digits_ok 4 (chars "1XZ4567890ABCDEF0123456789ABC") /\
  no_underscore (chars "1XZ4567890ABCDEF0123456789ABC") /\ digits_ok 3 (chars "17_xX_2z").
Proof.
  split; [unfold number_ok; cbn [Z.eqb Pos.eqb]; all_among|]. split; [apply Forall_forall; intros c H; repeat (destruct H as [<- | H]; [discriminate|]); destruct H|]. split; [unfold digits_ok; cbn [Z.eqb Pos.eqb]; all_among|].
  split; [apply Forall_forall; intros c H; repeat (destruct H as [<- | H]; [discriminate|]); destruct H|]. unfold digits_ok; cbn [Z.eqb Pos.eqb]; all_among.
Qed.

(** C60: the top word of a 128-bit vector is not printed; the bits of a signed 70-bit 2-state vector are printed in
    the wrong order, and str() of an unsigned one does not compile *)
Theorem C60_refuted :
  (exists l s, ltyped l 128 false /\ ltidy l /\ sym_at l 127 = S1 /\ logic_str l (chars "b") = Ok s /\ from_right s 127 = Some 48) /\
  (exists b s, typed b 70 true /\ tidy b /\ bit_at b 0 = true /\ bit_str b (chars "b") = Ok s /\ from_right s 0 = Some 48) /\
  bit_str (big 70 false [5; 3]) (chars "b") = IllFormed.
Proof. exact bin_out_counter. Qed.
Print Assumptions C60_refuted.
(** Missing: 4-state vectors of more than one word whose width is a multiple of 64 (false), 2-state vectors of more
    than one word (false). *)
Theorem C60_logic_partial : forall l base, lvec l -> among "bB" base -> (lw l <= 64 \/ lw l mod 64 <> 0) ->
  exists s, logic_str l [base] = Ok s /\ logic_str l [48; base] = Ok s /\ len s = lw l /\ forall i, 0 <= i < lw l -> from_right s i = Some (sym_char (sym_at l i)).
Proof. exact logic_bin. Qed.
Print Assumptions C60_logic_partial.
Theorem C60_bit_partial : forall b base, vec b -> bw b <= 64 -> among "bB" base ->
  exists s, bit_str b [base] = Ok s /\ bit_str b [48; base] = Ok s /\ len s = bw b /\ forall i, 0 <= i < bw b -> from_right s i = Some (if bit_at b i then 49 else 48).
Proof. exact bit_bin_out. Qed.
Print Assumptions C60_bit_partial.
Example C60_ex : lvec (lbig 70 false [5; 32] [8; 0]) /\ lw (lbig 70 false [5; 32] [8; 0]) mod 64 <> 0 /\ vec (bit_of_native 7 0 true (-3)).
Proof. conc. Qed.

(** C61: 2-state vectors print their digits in the wrong order; a negative 6-bit vector prints eight bits; a digit
    across the word boundary is wrong in octal, and octal of 128 bits is undefined behaviour *)
Theorem C61_refuted :
  (exists b s, typed b 8 false /\ tidy b /\ num b = 18 /\ bit_str b (chars "x") = Ok s /\ numeral_value 16 s = 33) /\
  (exists b s, typed b 8 false /\ tidy b /\ num b = 10 /\ bit_str b (chars "o") = Ok s /\ numeral_value 8 s = 17) /\
  (exists l s, ltyped l 6 true /\ ltidy l /\ known l /\ num (l_val l) = 63 /\ logic_str l (chars "x") = Ok s /\ numeral_value 16 s = 255) /\
  (exists l s, ltyped l 70 false /\ ltidy l /\ known l /\ num (l_val l) = 3 * 2 ^ 63 /\ logic_str l (chars "o") = Ok s /\ numeral_value 8 s = 2 ^ 63) /\
  (exists l, ltyped l 128 false /\ ltidy l /\ known l /\ logic_str l (chars "o") = UB).
Proof. exact hex_out_counter. Qed.
Print Assumptions C61_refuted.
(** Missing: the cases of C61_refuted, hexadecimal of widths that are multiples of 64 and at least 128 (false). *)
Theorem C61_logic_partial : forall l base k, lvec l -> known l -> pow2_fmt base k -> top_ok l k -> (lw l <= 64 \/ (k <> 3 /\ lw l mod 64 <> 0)) ->
  exists s, logic_str l [base] = Ok s /\ logic_str l [48; base] = Ok s /\ usual_width base (lw l) (len s) /\ Forall (among "0123456789abcdef") s /\ numeral_value (2 ^ k) s = num (l_val l).
Proof. exact logic_known_out. Qed.
Print Assumptions C61_logic_partial.
(** 2-state vectors: values of a single digit are right, *)
Theorem C61_digit_partial : forall b base k, vec b -> bw b <= 64 -> clear_top b -> pow2_fmt base k -> k <> 1 -> num b < 2 ^ k ->
  exists s, bit_str b [base] = Ok s /\ usual_width base (bw b) (len s) /\ Forall (among "0123456789abcdef") s /\ numeral_value (2 ^ k) s = num b.
Proof. exact bit_hex_digit. Qed.
Print Assumptions C61_digit_partial.
(** in general the digits are those of the numeral, the least significant first *)
Theorem C61_reversed_partial : forall b base k, vec b -> bw b <= 64 -> clear_top b -> pow2_fmt base k -> k <> 1 ->
  exists t, is_numeral (2 ^ k) (num b) t /\ bit_str b [48; base] = Ok (rev t).
Proof. exact bit_hex_out. Qed.
Print Assumptions C61_reversed_partial.
Example C61_ex : lvec (v4s 7 42 0) /\ known (v4s 7 42 0) /\ pow2_fmt 111 3 /\ top_ok (v4s 7 42 0) 3 /\ pow2_fmt 104 4 /\ top_ok (v4s 7 42 0) 4 /\
  lvec (lbig 70 false [5; 32] [0; 0]) /\ known (lbig 70 false [5; 32] [0; 0]) /\ top_ok (lbig 70 false [5; 32] [0; 0]) 4 /\ vec (bit_of_native 7 0 false 7) /\ clear_top (bit_of_native 7 0 false 7).
Proof. exact hex_out_ex. Qed.

(** C62: the smallest 32-bit number is undefined behaviour; 70-bit zero prints nothing and a negative one a wrong
    number; 128 bits are undefined behaviour; a signed one-bit -1 prints 1 *)
Theorem C62_refuted :
  (exists l, ltyped l 32 true /\ ltidy l /\ known l /\ logic_str l (chars "0d") = UB) /\
  (exists l, ltyped l 70 true /\ ltidy l /\ known l /\ value (l_val l) = 0 /\ logic_str l (chars "0d") = Ok []) /\
  (exists l, ltyped l 128 false /\ ltidy l /\ known l /\ value (l_val l) = 1 /\ logic_str l (chars "0d") = UB) /\
  (exists l s, ltyped l 70 true /\ ltidy l /\ known l /\ value (l_val l) = -1 /\ logic_str l (chars "0d") = Ok s /\ numeral_value 10 (tl s) = 2 ^ 128 - 2 ^ 70 + 1) /\
  (exists b s, typed b 1 true /\ tidy b /\ value b = -1 /\ bit_str b (chars "0d") = Ok s /\ s = chars "1").
Proof. exact dec_out_counter. Qed.
Print Assumptions C62_refuted.
(** Missing: the cases of C62_refuted, values of 2^128 and above.  Padding: C65. *)
Theorem C62_logic_partial : forall l base, lvec l -> lw l <= 64 -> known l -> ltidy l -> prints (l_val l) -> among "dD" base ->
  exists s, logic_str l [48; base] = Ok s /\ decimal_text (value (l_val l)) s.
Proof. exact logic_decimal. Qed.
Print Assumptions C62_logic_partial.
Theorem C62_bit_partial : forall b base, vec b -> bw b <= 64 -> tidy b -> prints b -> among "dD" base ->
  exists s, bit_str b [48; base] = Ok s /\ decimal_text (value b) s.
Proof. exact bit_decimal. Qed.
Print Assumptions C62_bit_partial.
Theorem C62_logic_multi_word_partial : forall l base, lvec l -> 65 <= lw l -> lw l <> 128 -> known l -> ltidy l -> 0 < value (l_val l) < 2 ^ 128 -> among "dD" base ->
  exists s, logic_str l [48; base] = Ok s /\ decimal_text (value (l_val l)) s.
Proof. exact logic_decimal_big. Qed.
Print Assumptions C62_logic_multi_word_partial.
Theorem C62_bit_multi_word_partial : forall b base, vec b -> 65 <= bw b -> bw b <> 128 -> bsgn b = true -> tidy b -> 0 < value b < 2 ^ 128 -> among "dD" base ->
  exists s, bit_str b [48; base] = Ok s /\ decimal_text (value b) s.
Proof. exact bit_decimal_big. Qed.
Print Assumptions C62_bit_multi_word_partial.
Example C62_ex : lvec (v4s 7 (-42) 0) /\ known (v4s 7 (-42) 0) /\ ltidy (v4s 7 (-42) 0) /\ prints (l_val (v4s 7 (-42) 0)) /\ value (l_val (v4s 7 (-42) 0)) = -42 /\
  lvec (lbig 70 true [5; 3] [0; 0]) /\ known (lbig 70 true [5; 3] [0; 0]) /\ ltidy (lbig 70 true [5; 3] [0; 0]) /\ 0 < value (l_val (lbig 70 true [5; 3] [0; 0])) < 2 ^ 128.
Proof. exact dec_out_ex. Qed.

(** C63: an incomplete top digit of x prints X; a signed 6-bit vector of z prints -X; a 70-bit vector of x prints X *)
Theorem C63_refuted :
  (exists l s, ltyped l 6 false /\ ltidy l /\ all_x l /\ logic_str l (chars "x") = Ok s /\ from_right s 1 = Some 88) /\
  (exists l, ltyped l 6 true /\ ltidy l /\ (forall p, 0 <= p < 6 -> sym_at l p = SZ) /\ logic_str l (chars "0d") = Ok (chars "-X")) /\
  (exists l, ltyped l 70 false /\ ltidy l /\ all_x l /\ logic_str l (chars "0d") = Ok (chars "X")).
Proof. exact xz_out_counter. Qed.
Print Assumptions C63_refuted.
(** An incomplete top digit is printed as if the missing positions were 0.
    Missing: octal of more than one word, widths that are multiples of 64 and at least 128. *)
Theorem C63_digits_partial : forall l base k, lvec l -> pow2_fmt base k -> top_ok l k -> (lw l <= 64 \/ (k <> 3 /\ lw l mod 64 <> 0)) ->
  exists s, logic_str l [base] = Ok s /\ logic_str l [48; base] = Ok s /\ usual_width base (lw l) (len s) /\ forall i, 0 <= i < len s -> from_right s i = Some (group_char (group l k i)).
Proof. exact logic_out. Qed.
Print Assumptions C63_digits_partial.
(** Missing: negative signed vectors (false), multi-word vectors without a known position, 128 bits and more. *)
Theorem C63_decimal_partial : forall l base, lvec l -> lw l <= 64 -> ~ known l -> clear_top (l_val l) -> tidy (l_xz l) -> among "dD" base ->
  logic_str l [48; base] = Ok [group_char (map (sym_at l) (zrange 0 (lw l)))].
Proof. exact logic_decimal_x. Qed.
Print Assumptions C63_decimal_partial.
Theorem C63_decimal_multi_word_partial : forall l base, lvec l -> 65 <= lw l < 128 -> ~ known l -> (exists p, 0 <= p < lw l /\ unknown (sym_at l p) = false) -> ltidy l ->
  (lsgn l = true -> bit_at (l_val l) (lw l - 1) = false) -> among "dD" base ->
  logic_str l [48; base] = Ok [group_char (map (sym_at l) (zrange 0 (lw l)))].
Proof. exact logic_decimal_x_big. Qed.
Print Assumptions C63_decimal_multi_word_partial.
Example C63_ex : lvec (v4 7 40 12) /\ ~ known (v4 7 40 12) /\ top_ok (v4 7 40 12) 4 /\ clear_top (l_val (v4 7 40 12)) /\ tidy (l_xz (v4 7 40 12)) /\
  group_char (group (v4 7 40 12) 4 0) = 88 /\ group_char (group (v4 7 40 12) 4 1) = 50 /\
  lvec (lbig 70 true [5; 3] [1; 0]) /\ ~ known (lbig 70 true [5; 3] [1; 0]) /\ ltidy (lbig 70 true [5; 3] [1; 0]) /\ unknown (sym_at (lbig 70 true [5; 3] [1; 0]) 69) = false.
Proof. exact xz_out_ex. Qed.

(** C64: the hexadecimal text of 171 is read back as 1; the binary text of a vector with an x in position 33 is
    undefined behaviour when read back *)
Theorem C64_refuted :
  (exists l s l', ltyped l 8 false /\ ltidy l /\ known l /\ logic_str l (chars "h") = Ok s /\ logic_of_str 7 0 false (chars "'h" ++ s) = Ok l' /\ num (l_val l) = 171 /\ num (l_val l') = 1) /\
  (exists l s, ltyped l 40 false /\ ltidy l /\ logic_str l (chars "b") = Ok s /\ logic_of_str 39 0 false (chars "'b" ++ s) = UB).
Proof. exact round_counter. Qed.
Print Assumptions C64_refuted.
(** Missing: x and z in the upper half of a word; widths that are multiples of 64 and at least 128 (both false). *)
Theorem C64_binary_partial : forall l n sg, 1 <= n -> ltyped l n sg -> (n <= 64 \/ n mod 64 <> 0) -> (forall p, 0 <= p < n -> 32 <= p mod 64 -> unknown (sym_at l p) = false) ->
  exists s l', logic_str l (chars "b") = Ok s /\ logic_of_str (n - 1) 0 sg (chars "'b" ++ s) = Ok l' /\ ltyped l' n sg /\ (forall p, 0 <= p < n -> sym_at l' p = sym_at l p) /\ (sg = false \/ 65 <= n -> ltidy l').
Proof. exact bin_round. Qed.
Print Assumptions C64_binary_partial.
Theorem C64_bit_binary_partial : forall b n sg, 1 <= n <= 64 -> typed b n sg ->
  exists s b', bit_str b (chars "b") = Ok s /\ bit_of_str (n - 1) 0 sg (chars "'b" ++ s) = Ok b' /\ typed b' n sg /\ num b' = num b.
Proof. exact bit_bin_round. Qed.
Print Assumptions C64_bit_binary_partial.
(** Missing: digits a to f, digits that mix known and unknown positions (both false). *)
Theorem C64_hex_partial : forall l n sg, 1 <= n -> ltyped l n sg -> top_ok l 4 -> (n <= 64 \/ n mod 64 <> 0) -> plain_groups l ->
  exists s l', logic_str l (chars "h") = Ok s /\ logic_of_str (n - 1) 0 sg (chars "'h" ++ s) = Ok l' /\ ltyped l' n sg /\ (forall p, 0 <= p < n -> sym_at l' p = sym_at l p).
Proof. exact hex_round. Qed.
Print Assumptions C64_hex_partial.
(** decimals, beyond the property *)
Theorem C64_decimal_partial : forall n, 1 <= n <= 64 ->
  (forall b, typed b n false -> tidy b -> exists s b', bit_str b (chars "0d") = Ok s /\ bit_of_str (n - 1) 0 false (chars "'d" ++ s) = Ok b' /\ typed b' n false /\ num b' = num b) /\
  (forall l, ltyped l n false -> ltidy l -> known l -> exists s l', logic_str l (chars "0d") = Ok s /\ logic_of_str (n - 1) 0 false (chars "'d" ++ s) = Ok l' /\ ltyped l' n false /\ known l' /\ num (l_val l') = num (l_val l)).
Proof. exact dec_round. Qed.
Print Assumptions C64_decimal_partial.
Example C64_ex : ltyped (lbig 70 true [5; 3] [1; 0]) 70 true /\ 70 mod 64 <> 0 /\ ltyped (v4 8 130 0) 8 false /\ ltidy (v4 8 130 0) /\ known (v4 8 130 0) /\ top_ok (v4 8 130 0) 4 /\ plain_groups (v4 8 130 0).
Proof. exact round_ex. Qed.

(** C65: a signed 70-bit 2-state vector is padded in the middle; a width of 2^64 or more throws *)
Theorem C65_refuted :
  (exists b core s, typed b 70 true /\ tidy b /\ bit_str b (chars "0b") = Ok core /\ bit_str b (chars "100b") = Ok s /\ forall n, s <> repeat 48 n ++ core) /\
  (exists b, typed b 8 false /\ tidy b /\ bit_str b (chars "99999999999999999999x") = Exn).
Proof. exact width_counter. Qed.
Print Assumptions C65_refuted.
(** The text is the unpadded text ("0" and the base) filled up on the left to the usual or the larger requested
    width; the sign of a decimal comes on top.  Missing: 2-state vectors of more than one word (false), widths of
    2^64 and more (false), decimals of 128 bits. *)
Theorem C65_logic_partial : forall l fmt width base w core, format fmt width base -> usual_width base (lw l) w -> logic_str l [48; base] = Ok core ->
  exists s, logic_str l fmt = Ok s /\ padded (field_width width w + minus base core) (pad_char base) core s.
Proof. exact logic_padding. Qed.
Print Assumptions C65_logic_partial.
Theorem C65_bit_partial : forall b v fmt width base w core, bval b = HN v -> format fmt width base -> usual_width base (bw b) w -> bit_str b [48; base] = Ok core ->
  exists s, bit_str b fmt = Ok s /\ padded (field_width width w + minus base core) (pad_char base) core s.
Proof. exact bit_padding. Qed.
Print Assumptions C65_bit_partial.
Example C65_ex : format (chars "12x") (Some 12) 120 /\ format (chars "d") None 100 /\ usual_width 120 7 2 /\ usual_width 100 7 3 /\ logic_str (v4 7 42 0) (chars "0x") = Ok (chars "2a") /\
  logic_str (v4 7 42 0) (chars "12x") = Ok (chars "00000000002a") /\ logic_str (v4 7 42 0) (chars "d") = Ok (chars " 42").
Proof. exact width_ex. Qed.
