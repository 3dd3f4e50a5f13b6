(** Exactly when element access, conversion, storage invariants, mixed-width and compound bitwise operators behave as promised (compare [PropsIff.v]). *)
From Coq Require Import ZArith List Bool Lia.
From Verif Require Import Cpp BigNum Bit Logic More Rest BigObj Spec SpecBig SpecExact SpecMachine SpecIff SpecIff2 BitExt BitMain BitMain2 LogicMain TextMain Iff11 Iff12 Iff13 Iff14.
Import ListNotations.
Open Scope Z_scope.

(** C02: a bit written is read back, for any declared range.  The lower bound must be 0, but for the top bit of a signed vector of 8 or 16 positions. *)
Theorem C02_exact : forall b i, vec b -> in_range (bmsb b) (blsb b) i ->
  (forall x, exists b', bit_set b i x = Ok b' /\ bit_get b' i = Ok x) <->
  Z.min (bmsb b) (blsb b) = 0 \/ (bsgn b = true /\ (bw b = 8 \/ bw b = 16) /\ blsb b <= bmsb b /\ i = bmsb b /\ bw b <= i < 32).
Proof. exact set_get_iff. Qed.
Print Assumptions C02_exact.
Example C02_exact_ex : vec (bit_of_native 7 0 false 200) /\ in_range 7 0 5 /\ vec (bit_of_native 11 4 true (-3)) /\ in_range 11 4 11 /\ in_range 11 4 7.
Proof. conc. Qed.

(** C03: reading a symbol of a 4-state vector *)
Theorem C03_read_exact : forall l j, lvec l -> Z.min (lmsb l) (llsb l) = 0 -> in_range (lmsb l) (llsb l) j ->
  ((exists r, logic_get l j = Ok r /\ sym_at r 0 = sym_at l (place (lmsb l) (llsb l) j)) <-> (unknown (sym_at l (place (lmsb l) (llsb l) j)) = true -> j < 64)) /\
  (unknown (sym_at l (place (lmsb l) (llsb l) j)) = true -> 64 <= j -> logic_get l j = UB).
Proof. exact read4_iff. Qed.
Print Assumptions C03_read_exact.
(** C03: a symbol written is read back *)
Theorem C03_exact : forall l i s, lvec l -> Z.min (lmsb l) (llsb l) = 0 -> in_range (lmsb l) (llsb l) i ->
  (exists l' r, (match s with S0 => logic_set l i false | S1 => logic_set l i true | SX => logic_set_x l i | SZ => logic_set_z l i end) = Ok l' /\ logic_get l' i = Ok r /\ sym_at r 0 = s) <->
  (unknown s = true -> i < 64).
Proof. exact access4_iff. Qed.
Print Assumptions C03_exact.
Example C03_exact_ex : lvec (lbig 70 false [5; 3] [0; 1]) /\ in_range 69 0 64 /\ unknown (sym_at (lbig 70 false [5; 3] [0; 1]) (place 69 0 64)) = true /\ unknown (sym_at (lbig 70 false [5; 3] [0; 1]) (place 69 0 65)) = false.
Proof. conc. Qed.

(** C13: bitwise operators on vectors of different widths *)
Theorem C13_exact : forall a b na nb sa sb, 1 <= na -> 1 <= nb -> na <> nb -> typed a na sa -> typed b nb sb -> tidy a -> tidy b ->
  let m := Z.max na nb in
  ((exists r, bit_and a b = Ok r /\ num r = Z.land (value a) (value b) mod 2 ^ m) <-> (misread a m -> num b < 2 ^ na) /\ (misread b m -> num a < 2 ^ nb)) /\
  ((exists r, bit_or a b = Ok r /\ num r = Z.lor (value a) (value b) mod 2 ^ m) <-> (misread a m -> 2 ^ m - 2 ^ na <= num b) /\ (misread b m -> 2 ^ m - 2 ^ nb <= num a)) /\
  ((exists r, bit_xor a b = Ok r /\ num r = Z.lxor (value a) (value b) mod 2 ^ m) <-> ~ misread a m /\ ~ misread b m).
Proof. exact bitwise_mixed_iff. Qed.
Print Assumptions C13_exact.
Example C13_exact_ex : typed (bit_of_native 0 0 true 1) 1 true /\ tidy (bit_of_native 0 0 true 1) /\ misread (bit_of_native 0 0 true 1) 8 /\ typed (bit_of_native 7 0 false 200) 8 false /\ tidy (bit_of_native 7 0 false 200) /\ ~ misread (bit_of_native 7 0 false 200) 70.
Proof. do 2 (split; [conc|]). split; [split; [conc|]; split; [conc|]; left; conc|]. do 2 (split; [conc|]). intros (_ & H & _). discriminate H. Qed.

(** C14: the result leaves the storage above the width clean *)
Theorem C14_exact : forall a b n, 2 <= n -> typed a n false -> typed b n false -> tidy a -> tidy b ->
  (forall r, bit_add a b = Ok r -> (tidy r <-> fills n \/ num a + num b < 2 ^ n)) /\
  (forall r, bit_sub a b = Ok r -> (tidy r <-> fills n \/ num b <= num a)) /\
  (tidy (bit_not a) <-> fills n) /\
  (forall r, bit_neg a = Ok r -> (tidy r <-> fills n \/ num a = 0)) /\
  (n <= 64 -> forall r, bit_mul a b = Ok r -> (tidy r <-> (num a * num b) mod 2 ^ storage n < 2 ^ n)) /\
  (n <= 64 -> forall r, num b < n -> bit_shl a b = Ok r -> (tidy r <-> (num a * 2 ^ num b) mod 2 ^ storage n < 2 ^ n)) /\
  (65 <= n -> forall r, bit_shl a b = Ok r -> tidy r).
Proof. exact tidy_iff. Qed.
Print Assumptions C14_exact.
Example C14_exact_ex : typed (bit_of_native 10 0 false 2000) 11 false /\ tidy (bit_of_native 10 0 false 2000) /\ ~ fills 11 /\ 2 ^ 11 <= 2000 + 2000 /\ fills 128.
Proof. do 2 (split; [conc|]). split; [unfold fills; lia|]. split; [conc|]. unfold fills. right; right; right; right. split; [lia|reflexivity]. Qed.

(** C47: to_num of a 2-state vector *)
Theorem C47_exact : forall b, vec b -> bit_to_num b = Ok (value b) <-> bw b <= 64 /\ tidy b /\ (bw b = 1 -> bsgn b = true -> num b = 0).
Proof. exact to_num_iff. Qed.
Print Assumptions C47_exact.
(** to_uint64 of a 2-state vector *)
Theorem C47_uint64_exact : forall b, vec b -> bit_to_uint64 b = value b mod 2 ^ 64 <-> (bw b <= 64 -> tidy b /\ (bw b = 1 -> bsgn b = true -> num b = 0)).
Proof. exact to_uint64_iff. Qed.
Print Assumptions C47_uint64_exact.
(** to_uint64 of a 4-state vector *)
Theorem C47_logic_exact : forall l, lvec l -> tidy (l_xz l) -> tidy (l_val l) ->
  (known l -> (logic_to_uint64 l = value (l_val l) mod 2 ^ 64 <-> ~ (lw l = 1 /\ lsgn l = true /\ num (l_val l) = 1))) /\
  (~ known l -> (logic_to_uint64 l = 0 <-> noticed l \/ num (l_val l) mod 2 ^ 64 = 0)).
Proof. exact lto_num_iff. Qed.
Print Assumptions C47_logic_exact.
Example C47_exact_ex : vec (bit_of_native 10 0 true (-9)) /\ tidy (bit_of_native 10 0 true (-9)) /\ vec (bit_of_native 0 0 true 1) /\ num (bit_of_native 0 0 true 1) = 1 /\ lvec (lbig 70 false [5; 3] [0; 1]) /\ tidy (l_xz (lbig 70 false [5; 3] [0; 1])) /\ tidy (l_val (lbig 70 false [5; 3] [0; 1])).
Proof. conc. Qed.

(** C66: &=, |= and ^= *)
Theorem C66_exact : forall a b na nb, 1 <= na -> 1 <= nb -> typed a na false -> typed b nb false -> tidy a -> tidy b ->
  forall op zop, In (op, zop) [(bit_and_assign, Z.land); (bit_or_assign, Z.lor); (bit_xor_assign, Z.lxor)] ->
  (exists r, op a b = Ok r /\ num r = zop (num a) (num b) mod 2 ^ na) <->
  (na <= 64 -> nb <= 64) /\ (65 <= na -> nb <= na) /\ (na = 1 -> zop (num a) (num b) = 0 \/ Z.odd (zop (num a) (num b)) = true).
Proof. exact compound_iff. Qed.
Print Assumptions C66_exact.
Example C66_exact_ex : In (bit_or_assign, Z.lor) [(bit_and_assign, Z.land); (bit_or_assign, Z.lor); (bit_xor_assign, Z.lxor)] /\ typed (bit_of_native 0 0 false 0) 1 false /\ typed (bit_of_native 7 0 false 200) 8 false /\ tidy (bit_of_native 7 0 false 200) /\ Z.odd (Z.lor 0 200) = false /\ typed (big 70 false [5; 3]) 70 false.
Proof. split; [right; left; reflexivity|conc]. Qed.

(** C68 and C99: the tests whether a number of several words fits in 64 bits and whether it is 1 *)
Theorem C68_exact : forall n ws, 65 <= n -> words_ok n ws = true ->
  (bn_fit_in_64 ws = (words_num ws <? 2 ^ 64) <-> (hollow (words_num ws / 2 ^ 64) -> words_num ws < 2 ^ 64)) /\
  (bn_is_one ws = (words_num ws =? 1) <-> (hollow (words_num ws / 2 ^ 64) -> words_num ws mod 2 ^ 64 = 1 -> words_num ws = 1)).
Proof. exact fit_iff. Qed.
Print Assumptions C68_exact.
Example C68_exact_ex : words_ok 70 [5; 3] = true /\ ~ hollow (words_num [5; 3] / 2 ^ 64) /\ words_ok 128 [1; 2 ^ 32] = true /\ hollow (2 ^ 32) /\ words_num [1; 2 ^ 32] / 2 ^ 64 = 2 ^ 32.
Proof. split; [conc|]. split; [intros H; specialize (H 0 ltac:(lia) ltac:(conc)); discriminate H|]. split; [conc|]. split; [|conc]. intros p Hp Q. rewrite Z.pow2_bits_eqb by lia. apply Z.eqb_neq. intros <-. cbn in Q. lia. Qed.

(** C113: indexing a 4-state vector with a vector *)
Theorem C113_exact : forall l op, lvec l -> Z.min (lmsb l) (llsb l) = 0 -> lw l <= 64 -> vec op -> bw op <= 64 -> tidy op -> (bsgn op = true -> 2 <= bw op) ->
  let v := value op in let j := twos 32 (v mod 2 ^ 32) in
  (exists r, logic_get_at l op = Ok r /\ (in_range (lmsb l) (llsb l) v -> sym_at r 0 = sym_at l (place (lmsb l) (llsb l) v)) /\ (~ in_range (lmsb l) (llsb l) v -> sym_at r 0 = SX)) <->
  in_range (lmsb l) (llsb l) v \/ (in_range (lmsb l) (llsb l) j -> sym_at l (place (lmsb l) (llsb l) j) = SX).
Proof. exact get_at_iff. Qed.
Print Assumptions C113_exact.
Example C113_exact_ex : lvec (v4 8 90 15) /\ vec (big 70 false [5; 3]) /\ vec (bit_of_native 32 0 false (2 ^ 32 + 4)) /\ tidy (bit_of_native 32 0 false (2 ^ 32 + 4)) /\ value (bit_of_native 32 0 false (2 ^ 32 + 4)) = 2 ^ 32 + 4 /\ twos 32 ((2 ^ 32 + 4) mod 2 ^ 32) = 4 /\ sym_at (v4 8 90 15) (place 7 0 4) = S1.
Proof. conc. Qed.

(** C115: a vector made from a big_num *)
Theorem C115_exact : forall msb lsb s x m t, int_ok msb -> int_ok lsb -> is_num x m t ->
  (exists r, bit_of_big msb lsb s (n_ws x) = Ok r /\ num r = raw x mod 2 ^ width msb lsb) <-> width msb lsb <= 64 /\ (width msb lsb = 1 -> raw x mod 2 ^ 64 = 0 \/ Z.odd (raw x) = true).
Proof. exact of_big_iff. Qed.
Print Assumptions C115_exact.
Example C115_exact_ex : int_ok 5 /\ is_num (num_of_native 128 true (-2)) 128 true /\ raw (num_of_native 128 true (-2)) mod 2 ^ 64 <> 0 /\ Z.odd (raw (num_of_native 128 true (-2))) = false.
Proof. split; [unfold int_ok; lia|]. split; [repeat split; try reflexivity; try lia; repeat constructor; vm_compute; try discriminate; try reflexivity|]. split; [vm_compute; discriminate|reflexivity]. Qed.

(** C116: a vector made from a C++ integer *)
Theorem C116_exact : forall msb lsb s v, int_ok msb -> int_ok lsb -> width msb lsb < 2 ^ 31 -> - 2 ^ 63 <= v < 2 ^ 64 ->
  num (bit_of_arith msb lsb s v) = v mod 2 ^ width msb lsb <-> (width msb lsb = 1 -> v = 0 \/ Z.odd v = true) /\ (65 <= width msb lsb -> s = true \/ 0 <= v).
Proof. exact of_arith_iff. Qed.
Print Assumptions C116_exact.
(** assignment of a C++ integer *)
Theorem C116_assign_exact : forall b v, vec b -> (exists r, bit_assign_arith b v = Ok r /\ num r = v mod 2 ^ bw b) <-> bw b <= 64 /\ (bw b = 1 -> v = 0 \/ Z.odd v = true).
Proof. exact assign_arith_iff. Qed.
Print Assumptions C116_assign_exact.
Example C116_exact_ex : int_ok 127 /\ int_ok 0 /\ width 127 0 = 128 /\ num (bit_of_arith 127 0 false (-1)) <> (-1) mod 2 ^ 128 /\ num (bit_of_arith 127 0 true (-1)) = (-1) mod 2 ^ 128.
Proof. unfold int_ok. split; [lia|]. split; [lia|]. split; [reflexivity|]. split; [vm_compute; discriminate|reflexivity]. Qed.

