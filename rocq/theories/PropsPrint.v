(** Exact behaviour of str(), on every vector and every format.  [SpecPrint.v] gives a reference printer: what a format asks for, which
    characters one piece of at most 64 positions has, how wide vectors are cut into pieces, where signs and fillings go.  The theorems say
    that the library prints every vector as the printer does; from it follows exactly which vectors are printed right. *)
From Coq Require Import ZArith List Bool Lia String.
From Verif Require Import Cpp BigNum Bit Logic Util Spec SpecText SpecExact SpecMachine SpecWide SpecRead SpecPrint BitMain TextMain PrintProofs PrintExact.
Import ListNotations.
Open Scope Z_scope.

(** C142: every format asks for one number of columns and one base *)
Theorem C142_formats : forall fmt, exists req base, asks fmt req base /\ forall req' base', asks fmt req' base' -> req' = req /\ base' = base.
Proof. exact asks_one. Qed.
Print Assumptions C142_formats.
Theorem C142_bit : forall b fmt req base, vec b -> asks fmt req base -> bit_str b fmt = bit_print req base b.
Proof. exact bit_str_print. Qed.
Print Assumptions C142_bit.
Theorem C142_logic : forall l fmt req base, lvec l -> asks fmt req base -> logic_str l fmt = logic_print req base l.
Proof. exact logic_str_print. Qed.
Print Assumptions C142_logic.
Example C142_ex :
  asks (chars "12h rest") (Columns 12) 104 /\ asks (chars "007") (Columns 7) 115 /\ asks (chars "") Bad 115 /\
  logic_print (Columns 12) 104 (v4 9 330 3) = Ok (chars "00000000014X") /\ logic_str (v4 9 330 3) (chars "12h rest") = Ok (chars "00000000014X") /\
  bit_print Natural 120 (bit_of_native 15 0 false 6699) = Ok (chars "b2a1") /\ bit_str (bit_of_native 15 0 false 6699) (chars "x") = Ok (chars "b2a1") /\
  logic_print Natural 100 (lbig 70 true [5; 3] [0; 0]) = Ok (chars "  55340232221128654853") /\ bit_print Bad 115 (bit_of_native 7 0 true (-3)) = Exn.
Proof.
  split. { apply (Sized (chars "12") 104 (chars " rest")); [discriminate|all_among|]. vm_compute. intuition discriminate. }
  split. { apply (Digits (chars "007")). all_among. }
  split. { apply (Digits []). constructor. }
  repeat (split; [vm_compute; reflexivity|]). vm_compute. reflexivity.
Qed.

(** C60: 4-state vectors are printed right in binary iff the last word is not left out or shows only zeros *)
Theorem C60_exact : forall l base, lvec l -> among "bB" base ->
  (exists s, logic_str l [base] = Ok s /\ len s = lw l /\ forall i, 0 <= i < lw l -> from_right s i = Some (sym_char (sym_at l i))) <->
  (lw l <= 64 \/ lw l mod 64 <> 0 \/ forall i, lw l - 64 <= i < lw l -> sym_at l i = S0).
Proof. exact logic_binary_exact. Qed.
Print Assumptions C60_exact.
(** 2-state vectors of more than one word must be signed, and every word its own mirror image *)
Theorem C60_bit_exact : forall b base, vec b -> among "bB" base ->
  (exists s, bit_str b [base] = Ok s /\ len s = bw b /\ forall i, 0 <= i < bw b -> from_right s i = Some (if bit_at b i then 49 else 48)) <->
  (bw b <= 64 \/ bsgn b = true /\ (bw b mod 64 = 0 -> forall i, bw b - 64 <= i < bw b -> bit_at b i = false) /\ forall i, 0 <= i < bw b -> bit_at b i = bit_at b (mirrored (bw b) i)).
Proof. exact bit_binary_exact. Qed.
Print Assumptions C60_bit_exact.
Example C60_exact_ex : lvec (lbig 128 false [5; 0] [1; 0]) /\ lw (lbig 128 false [5; 0] [1; 0]) = 128 /\ sym_at (lbig 128 false [5; 0] [1; 0]) 0 = SZ /\ sym_at (lbig 128 false [5; 0] [1; 0]) 100 = S0 /\
  vec (big 70 true [2 ^ 63 + 1; 33]) /\ map (mirrored 70) [0; 63; 64; 69] = [63; 0; 69; 64] /\ bit_at (big 70 true [2 ^ 63 + 1; 33]) 69 = true.
Proof. conc. Qed.

(** C61: without x and z, numerals are right iff nothing is stored beyond the width in the last digit and the last word is not left out *)
Theorem C61_exact : forall l base k, lvec l -> known l -> pow2_fmt base k -> lw l <= 64 \/ k <> 3 ->
  right_numeral l base k <-> ends_clear l k /\ (lw l <= 64 \/ lw l mod 64 <> 0 \/ forall p, lw l - 64 <= p < lw l -> bit_at (l_val l) p = false).
Proof. exact logic_numeral_exact. Qed.
Print Assumptions C61_exact.
(** octals of more than one word: the digits must not reach beyond the last word (otherwise the call is undefined, C142), and the
    positions of a digit behind a word boundary must be 0 *)
Theorem C61_octal_exact : forall l base, lvec l -> known l -> ltidy l -> among "oO" base -> 65 <= lw l ->
  right_numeral l base 3 <-> 3 * ((lw l + 2) / 3) <= capacity (lw l) /\ forall p, 0 <= p < lw l -> 3 * (p / 3) / 64 < p / 64 -> bit_at (l_val l) p = false.
Proof. exact logic_octal_exact. Qed.
Print Assumptions C61_octal_exact.
Example C61_exact_ex : lvec (v4 7 90 0) /\ known (v4 7 90 0) /\ pow2_fmt 104 4 /\ stored (l_val (v4 7 90 0)) = 90 /\
  lvec (lbig 70 false [2 ^ 63; 32] [0; 0]) /\ known (lbig 70 false [2 ^ 63; 32] [0; 0]) /\ ltidy (lbig 70 false [2 ^ 63; 32] [0; 0]) /\
  3 * ((70 + 2) / 3) <= capacity 70 /\ filter (fun p => 3 * (p / 3) / 64 <? p / 64) (zrange 0 70) = [64; 65] /\ capacity 128 < 3 * ((128 + 2) / 3).
Proof. split; [conc|]. split; [apply known_zero; conc|]. split; [right; right; split; [vm_compute; tauto|reflexivity]|]. split; [conc|]. split; [conc|]. split; [apply known_zero; conc|]. conc. Qed.

(** C62: which decimals are right *)
Theorem C62_exact : forall l base, lvec l -> known l -> ltidy l -> among "dD" base ->
  (exists s, logic_str l [48; base] = Ok s /\ decimal_text (value (l_val l)) s) <-> (if lw l <=? 64 then prints_native (l_val l) else prints_wide (l_val l)).
Proof. exact logic_decimal_exact. Qed.
Print Assumptions C62_exact.
Theorem C62_bit_exact : forall b base, vec b -> tidy b -> among "dD" base ->
  (exists s, bit_str b [48; base] = Ok s /\ decimal_text (value b) s) <-> (if bw b <=? 64 then prints_native b else bsgn b = true /\ prints_wide b).
Proof. exact bit_decimal_exact. Qed.
Print Assumptions C62_bit_exact.
Example C62_exact_ex : lvec (lbig 140 true [2 ^ 64 - 3; 2 ^ 64 - 1; 4095] [0; 0; 0]) /\ known (lbig 140 true [2 ^ 64 - 3; 2 ^ 64 - 1; 4095] [0; 0; 0]) /\
  ltidy (lbig 140 true [2 ^ 64 - 3; 2 ^ 64 - 1; 4095] [0; 0; 0]) /\ value (l_val (lbig 140 true [2 ^ 64 - 3; 2 ^ 64 - 1; 4095] [0; 0; 0])) = -3 /\
  logic_str (lbig 140 true [2 ^ 64 - 3; 2 ^ 64 - 1; 4095] [0; 0; 0]) (chars "0d") = Ok (chars "-3") /\ vec (bit_of_native 31 0 true (-7)) /\ prints_native (bit_of_native 31 0 true (-7)).
Proof. split; [conc|]. split; [apply known_zero; conc|]. split; [conc|]. split; [vm_compute; reflexivity|]. split; [vm_compute; reflexivity|]. split; [conc|]. intros _. vm_compute. split; intros; discriminate. Qed.

(** C64: writing in binary and reading back gives the same symbols iff no x or z is in the upper half of a word and the last word is not
    left out or shows only zeros *)
Theorem C64_exact : forall l n sg, 1 <= n -> ltyped l n sg ->
  (exists s l', logic_str l (chars "b") = Ok s /\ logic_of_str (n - 1) 0 sg (chars "'b" ++ s) = Ok l' /\ forall p, 0 <= p < n -> sym_at l' p = sym_at l p) <->
  (forall p, 0 <= p < n -> 32 <= p mod 64 -> unknown (sym_at l p) = false) /\ (n <= 64 \/ n mod 64 <> 0 \/ forall p, n - 64 <= p < n -> sym_at l p = S0).
Proof. exact binary_round_exact. Qed.
Print Assumptions C64_exact.
Example C64_exact_ex : ltyped (lbig 128 true [5; 0] [1; 0]) 128 true /\ sym_at (lbig 128 true [5; 0] [1; 0]) 0 = SZ /\ sym_at (lbig 128 true [5; 0] [1; 0]) 100 = S0.
Proof. conc. Qed.
