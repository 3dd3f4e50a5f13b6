(** Exactly when literals of vectors of more than 64 bits are read right (compare [PropsIff.v]). *)
From Coq Require Import ZArith String Ascii List Bool Lia.
From Verif Require Import Cpp BigNum Bit Logic Util Spec SpecText SpecWide SpecRead BitMain TextMain FmtMain Iff28.
Import ListNotations.
Open Scope Z_scope.

(** C59, binary, without underscores: every position is right exactly when no x or z stands in the upper half of a word, and no X or
    Z stands among the [n] lowest digits. *)
Theorem C59_binary_exact : forall n sg pre size base s, 65 <= n < 2 ^ 31 -> prefix_ok pre size -> among "bB" base -> Forall (among "01xXzZ") s ->
  (exists l, logic_of_str (n - 1) 0 sg (literal pre size base s) = Ok l /\ forall p, 0 <= p < n -> sym_at l p = text_sym 1 s p) <->
  (forall i c, nth_error (rev s) i = Some c -> (among "xz" c -> Z.of_nat i / 64 < words_in n -> Z.of_nat i mod 64 < 32) /\ (among "XZ" c -> n <= Z.of_nat i)).
Proof. exact wide_bin_exact. Qed.
Print Assumptions C59_binary_exact.
(** hexadecimal: exactly when only the lowest position of a lower-case digit, if any, lies inside the vector *)
Theorem C59_hexadecimal_exact : forall n sg pre size base s, 65 <= n < 2 ^ 31 -> prefix_ok pre size -> among "hH" base -> Forall (among "0123456789ABCDEFabcdefxXzZ") s ->
  (exists l, logic_of_str (n - 1) 0 sg (literal pre size base s) = Ok l /\ forall p, 0 <= p < n -> sym_at l p = text_sym 4 s p) <->
  (forall i c, nth_error (rev s) i = Some c -> among "abcdef" c -> n <= 4 * Z.of_nat i + 1).
Proof. exact wide_hex_exact. Qed.
Print Assumptions C59_hexadecimal_exact.
(** octal: exactly when every position from 63 up is 0 *)
Theorem C59_octal_exact : forall n sg pre size base s, 65 <= n < 2 ^ 31 -> prefix_ok pre size -> among "oO" base -> Forall (among "01234567xXzZ") s ->
  (exists l, logic_of_str (n - 1) 0 sg (literal pre size base s) = Ok l /\ forall p, 0 <= p < n -> sym_at l p = text_sym 3 s p) <->
  (forall p, 63 <= p < n -> text_sym 3 s p = S0).
Proof. exact wide_oct_exact. Qed.
Print Assumptions C59_octal_exact.
(** 2-state vectors and the number denoted *)
Theorem C59_hexadecimal_number_exact : forall n sg pre size base s, 65 <= n < 2 ^ 31 -> prefix_ok pre size -> among "hH" base -> Forall (among "0123456789ABCDEFabcdef") s ->
  (exists b, bit_of_str (n - 1) 0 sg (literal pre size base s) = Ok b /\ num b = numeral_value 16 s mod 2 ^ n) <->
  (forall i c, nth_error (rev s) i = Some c -> among "abcdef" c -> n <= 4 * Z.of_nat i + 1).
Proof. exact wide_hex_number. Qed.
Print Assumptions C59_hexadecimal_number_exact.
Theorem C59_octal_number_exact : forall n sg pre size base s, 65 <= n < 2 ^ 31 -> prefix_ok pre size -> among "oO" base -> Forall (among "01234567") s ->
  (exists b, bit_of_str (n - 1) 0 sg (literal pre size base s) = Ok b /\ num b = numeral_value 8 s mod 2 ^ n) <-> numeral_value 8 s mod 2 ^ n < 2 ^ 63.
Proof. exact wide_oct_number. Qed.
Print Assumptions C59_octal_number_exact.
(** decimal, up to 64 characters, underscores allowed: exactly when the number fits one word.  For longer texts each 64 characters are
    taken for a word of their own ([C141_bit] says what is read). *)
Theorem C59_decimal_exact : forall n sg pre size base s, 65 <= n < 2 ^ 31 -> prefix_ok pre size -> among "dD" base -> Forall (among "0123456789_") s -> len s <= 64 ->
  (exists b, bit_of_str (n - 1) 0 sg (literal pre size base s) = Ok b /\ num b = numeral_value 10 s mod 2 ^ n) <-> numeral_value 10 s mod 2 ^ n < 2 ^ 64.
Proof. exact wide_dec_exact. Qed.
Print Assumptions C59_decimal_exact.
(** both sides occur: 2^63 in octal is read wrong and 2^62 right; 2^64 in decimal wrong and 2^64 - 1 right; a lower-case digit is
    harmless in digit 17 of a 69-bit vector and harmful in digit 16 *)
Example C59_exact_ex :
  numeral_value 8 (chars "1000000000000000000000") mod 2 ^ 70 = 2 ^ 63 /\ numeral_value 8 (chars "400000000000000000000") mod 2 ^ 70 = 2 ^ 62 /\
  numeral_value 10 (chars "18446744073709551616") mod 2 ^ 70 = 2 ^ 64 /\ numeral_value 10 (chars "18_446_744_073_709_551_615") mod 2 ^ 70 = 2 ^ 64 - 1 /\
  Forall (among "0123456789ABCDEFabcdef") (chars "b0000000000000000F") /\
  omap (fun b => num b =? numeral_value 16 (chars "b0000000000000000F") mod 2 ^ 69) (bit_of_str 68 0 false (chars "69'hb0000000000000000F")) = Ok true /\
  omap (fun b => num b =? numeral_value 16 (chars "b000000000000000F") mod 2 ^ 69) (bit_of_str 68 0 false (chars "69'hb000000000000000F")) = Ok false.
Proof.
  split; [vm_compute; reflexivity|]. split; [vm_compute; reflexivity|]. split; [vm_compute; reflexivity|]. split; [vm_compute; reflexivity|]. split; [all_among|]. split; vm_compute; reflexivity.
Qed.
