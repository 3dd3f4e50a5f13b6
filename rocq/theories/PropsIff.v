(** Exactly when each of the partially true properties holds: on the objects named in the hypotheses, the operator gives the result of the
    property if and only if the stated condition is met.  The conditions speak of widths, signs, numbers and symbols only ([Spec.v],
    [SpecIff.v]), so the [_partial] theorems of the other files cannot be improved there. *)
From Coq Require Import ZArith List Bool Lia.
From Verif Require Import Cpp BigNum Bit Logic Spec SpecExact SpecIff BitExt BitMain BitMain2 LogicMain LogicRed TextMain Iff Iff2 Iff3 Iff4 Iff5 Iff6.
Import ListNotations.
Open Scope Z_scope.

(** C06: slices of signed vectors with the bounds as template arguments *)
Theorem C06_exact : forall x n a b, 1 <= n -> typed x n true -> tidy x -> 0 <= a < n -> 0 <= b < n ->
  (exists r, bit_slice_c x a b = Ok r /\ forall p, 0 <= p < Z.abs (a - b) + 1 -> bit_at r p = bit_at x (Z.min a b + p)) <->
  n = 1 \/ (2 <= n <= 64 /\ Z.max a b + 2 <= storage n /\ (a = b -> a = n - 1 \/ bit_at x a = true \/ bit_at x (a + 1) = false)) \/ (65 <= n /\ Z.abs (a - b) + 1 <> 65).
Proof. exact slice_signed_iff. Qed.
Print Assumptions C06_exact.
Example C06_exact_ex : typed (bit_of_native 10 0 true (-300)) 11 true /\ tidy (bit_of_native 10 0 true (-300)) /\ Z.max 9 2 + 2 <= storage 11 /\ storage 8 < Z.max 7 2 + 2 /\
  bit_at (bit_of_native 10 0 true (-300)) 3 = false /\ bit_at (bit_of_native 10 0 true (-300)) 4 = true.
Proof. conc. Qed.

(** C07: slices with the bounds as function arguments *)
Theorem C07_exact : forall x n s a b, 1 <= n -> typed x n s -> 0 <= a < n -> 0 <= b < n ->
  (exists r, bit_slice_r x (Z.abs (a - b) + 1) a b = Ok r /\ forall p, 0 <= p < Z.abs (a - b) + 1 -> bit_at r p = bit_at x (Z.min a b + p)) <-> 2 <= n \/ bit_at x 0 = false.
Proof. exact slice_run_iff. Qed.
Print Assumptions C07_exact.
Example C07_exact_ex : typed (big 70 false [9; 3]) 70 false /\ typed (bit_of_native 0 0 false 1) 1 false /\ bit_at (bit_of_native 0 0 false 1) 0 = true.
Proof. conc. Qed.

(** C08: unsigned vectors keep their number unless something stored above their width becomes visible *)
Theorem C08_exact : forall x n m, 1 <= n <= m -> m < 2 ^ 31 -> typed x n false ->
  (exists r, bit_extend x m = Ok r /\ num r = num x) <-> stored x mod 2 ^ m = num x.
Proof. exact extend_unsigned_iff. Qed.
Print Assumptions C08_exact.
Example C08_exact_ex : typed (mkBit 3 0 false (HN 21)) 4 false /\ num (mkBit 3 0 false (HN 21)) = 5 /\ stored (mkBit 3 0 false (HN 21)) mod 2 ^ 4 = 5 /\ stored (mkBit 3 0 false (HN 21)) mod 2 ^ 5 <> 5.
Proof. conc. Qed.

(** C09: signed vectors *)
Theorem C09_exact : forall x n m, 1 <= n <= m -> m < 2 ^ 31 -> typed x n true -> tidy x ->
  (exists r, bit_extend x m = Ok r /\ snum r = snum x) <-> n = m \/ 2 <= n <= 64 \/ (n = 1 /\ num x = 0) \/ (65 <= n /\ snum x < 0).
Proof. exact extend_signed_iff. Qed.
Print Assumptions C09_exact.
Example C09_exact_ex : typed (big 70 true [9; 63]) 70 true /\ tidy (big 70 true [9; 63]) /\ snum (big 70 true [9; 63]) < 0 /\ typed (big 70 true [9; 3]) 70 true /\ tidy (big 70 true [9; 3]) /\ snum (big 70 true [9; 3]) >= 0.
Proof. conc. Qed.

(** C10: the total must stay below 64 positions, and a left operand of at most 32 positions must not lose bits when shifted as unsigned int *)
Theorem C10_exact : forall a b na nb, 1 <= na -> 1 <= nb -> typed a na false -> typed b nb false -> tidy a -> tidy b ->
  (exists r, bit_concat a b = Ok r /\ num r = num a * 2 ^ nb + num b) <-> na + nb < 64 /\ (33 <= na \/ (nb <= 31 /\ num a * 2 ^ nb < 2 ^ 32)).
Proof. exact concat_iff. Qed.
Print Assumptions C10_exact.
Example C10_exact_ex : typed (bit_of_native 30 0 false 3) 31 false /\ typed (bit_of_native 19 0 false 9) 20 false /\ tidy (bit_of_native 30 0 false 3) /\ tidy (bit_of_native 19 0 false 9) /\
  num (bit_of_native 30 0 false 3) * 2 ^ 20 < 2 ^ 32 /\ 2 ^ 32 <= num (bit_of_native 30 0 false 4096) * 2 ^ 20.
Proof. conc. Qed.

(** C15: 4-state & *)
Theorem C15_exact : forall a b n, lvec a -> lvec b -> lw a = n -> lw b = n -> llsb a <= lmsb a -> llsb b <= lmsb b -> lsgn a && lsgn b = false ->
  (exists r, logic_and a b = Ok r /\ forall p, 0 <= p < n -> sym_at r p = and4 (sym_at a p) (sym_at b p)) <-> (forall p, 0 <= p < n -> ~ bad_and (sym_at a p) (sym_at b p)).
Proof. exact and_iff. Qed.
Print Assumptions C15_exact.
Theorem C15_mixed_exact : forall a b na nb, 1 <= na -> 1 <= nb -> na <> nb -> ltyped a na false -> ltyped b nb false -> ltidy a -> ltidy b ->
  (exists r, logic_and a b = Ok r /\ forall p, 0 <= p < Z.max na nb -> sym_at r p = and4 (padded a na p) (padded b nb p)) <-> (forall p, 0 <= p < Z.max na nb -> ~ bad_and (padded a na p) (padded b nb p)).
Proof. exact and_mixed_iff. Qed.
Print Assumptions C15_mixed_exact.
(** C16: 4-state | *)
Theorem C16_exact : forall a b n, lvec a -> lvec b -> lw a = n -> lw b = n -> llsb a <= lmsb a -> llsb b <= lmsb b -> lsgn a && lsgn b = false ->
  (exists r, logic_or a b = Ok r /\ forall p, 0 <= p < n -> sym_at r p = or4 (sym_at a p) (sym_at b p)) <-> (forall p, 0 <= p < n -> ~ bad_or (sym_at a p) (sym_at b p)).
Proof. exact or_iff. Qed.
Print Assumptions C16_exact.
Theorem C16_mixed_exact : forall a b na nb, 1 <= na -> 1 <= nb -> na <> nb -> ltyped a na false -> ltyped b nb false -> ltidy a -> ltidy b ->
  (exists r, logic_or a b = Ok r /\ forall p, 0 <= p < Z.max na nb -> sym_at r p = or4 (padded a na p) (padded b nb p)) <-> (forall p, 0 <= p < Z.max na nb -> ~ bad_or (padded a na p) (padded b nb p)).
Proof. exact or_mixed_iff. Qed.
Print Assumptions C16_mixed_exact.
(** C18: 4-state ^ of different widths *)
Theorem C18_exact : forall a b na nb, 1 <= na -> 1 <= nb -> na <> nb -> ltyped a na false -> ltyped b nb false -> ltidy a -> ltidy b ->
  (exists r, logic_xor a b = Ok r /\ forall p, 0 <= p < Z.max na nb -> sym_at r p = xor4 (padded a na p) (padded b nb p)) <-> (forall p, 0 <= p < Z.max na nb -> ~ bad_xor (padded a na p) (padded b nb p)).
Proof. exact xor_mixed_iff. Qed.
Print Assumptions C18_exact.
Example C15_exact_ex : lvec (v4 8 90 15) /\ lvec (v4 8 240 3) /\ lsgn (v4 8 90 15) && lsgn (v4 8 240 3) = false /\ ltyped (v4 12 90 15) 12 false /\ ltidy (v4 12 90 15) /\ ltyped (v4 8 240 3) 8 false /\ ltidy (v4 8 240 3) /\
  map (sym_at (v4 12 90 15)) [0; 1; 4; 5] = [SX; SZ; S1; S0] /\ bad_and SX S0 /\ bad_or SZ S1 /\ bad_xor S1 S1 /\ padded (v4 8 240 3) 8 9 = S0.
Proof. do 4 (split; [conc|]). do 4 (split; [conc|]). split; [left; split; reflexivity|]. split; [right; split; reflexivity|]. split; [left; split; [reflexivity|discriminate]|reflexivity]. Qed.

(** C21: & of all symbols is right iff in front of every x or z there is a 0, or there is no 0 at all *)
Theorem C21_exact : forall l n s, 1 <= n -> ltyped l n s ->
  (exists r, logic_r_and l = Ok r /\ sym_at r 0 = reduce and4 S1 l n) <->
  (forall p, 0 <= p < n -> unknown (sym_at l p) = true -> (exists q, 0 <= q < p /\ sym_at l q = S0) \/ (forall q, 0 <= q < n -> sym_at l q <> S0)).
Proof. exact r_and_iff. Qed.
Print Assumptions C21_exact.
(** C22: | of all symbols *)
Theorem C22_exact : forall l n s, 1 <= n -> ltyped l n s ->
  (exists r, logic_r_or l = Ok r /\ sym_at r 0 = reduce or4 S0 l n) <->
  (forall p, 0 <= p < n -> unknown (sym_at l p) = true -> (exists q, 0 <= q < p /\ sym_at l q = S1) \/ (forall q, 0 <= q < n -> sym_at l q <> S1)).
Proof. exact r_or_iff. Qed.
Print Assumptions C22_exact.
(** C23: ^ of all symbols *)
Theorem C23_exact : forall l n s, 1 <= n -> ltyped l n s -> ltidy l ->
  (exists r, logic_r_xor l = Ok r /\ sym_at r 0 = reduce xor4 S0 l n) <-> 2 <= n <= 64 /\ s = false /\ (Z.even n = true \/ ~ known l).
Proof. exact r_xor_iff. Qed.
Print Assumptions C23_exact.
Example C21_exact_ex : ltyped (v4 4 6 8) 4 false /\ ltidy (v4 4 6 8) /\ map (sym_at (v4 4 6 8)) [0; 1; 2; 3] = [S0; S1; S1; SX] /\ reduce and4 S1 (v4 4 6 8) 4 = S0 /\ reduce or4 S0 (v4 4 6 8) 4 = S1 /\ reduce xor4 S0 (v4 4 6 8) 4 = SX /\
  ltyped (lbig 70 true [5; 3] [0; 1]) 70 true /\ ltidy (lbig 70 true [5; 3] [0; 1]).
Proof. conc. Qed.

(** C24: the & reduction of 2-state vectors *)
Theorem C24_exact : forall b n s, 1 <= n -> typed b n s -> tidy b ->
  (bit_r_and b = true <-> forall p, 0 <= p < n -> bit_at b p = true) <->
  (2 <= n <= 64 /\ (s = true -> num b <> 2 ^ n - 1 /\ num b <> 2 ^ (n - 1) - 1)) \/ (65 <= n /\ Z.odd (ones n (num b)) = (num b =? 2 ^ n - 1)).
Proof. exact bit_r_and_iff. Qed.
Print Assumptions C24_exact.
(** any_set *)
Theorem C24_any_exact : forall b, vec b -> tidy b -> bit_any_set b = true <-> exists p, 0 <= p < bw b /\ bit_at b p = true /\ (bw b <= 64 \/ p mod 64 < 32).
Proof. exact any_set_iff. Qed.
Print Assumptions C24_any_exact.
Example C24_exact_ex : typed (big 70 false [7; 3]) 70 false /\ tidy (big 70 false [7; 3]) /\ Z.odd (ones 70 (num (big 70 false [7; 3]))) = true /\ (num (big 70 false [7; 3]) =? 2 ^ 70 - 1) = false /\
  typed (bit_of_native 7 0 true 127) 8 true /\ tidy (bit_of_native 7 0 true 127) /\ num (bit_of_native 7 0 true 127) = 2 ^ (8 - 1) - 1 /\ bit_at (big 70 false [2 ^ 40; 0]) 40 = true.
Proof. conc. Qed.

(** C25: conversion to bool *)
Theorem C25_exact : forall l, lvec l -> ltidy l -> logic_bool l = true <-> ~ noticed l /\ exists p, 0 <= p < lw l /\ sym_at l p = S1 /\ (lw l <= 64 \/ p mod 64 < 32).
Proof. exact bool_iff. Qed.
Print Assumptions C25_exact.
(** and operator! *)
Theorem C25_not_exact : forall l, lvec l -> ltidy l -> (sym_at (logic_lnot l) 0 = SX <-> noticed l) /\ (sym_at (logic_lnot l) 0 = S0 <-> logic_bool l = true) /\ sym_at (logic_lnot l) 0 <> SZ.
Proof. exact lnot_iff. Qed.
Print Assumptions C25_not_exact.
Example C25_exact_ex : lvec (lbig 70 false [2 ^ 40; 0] [0; 8]) /\ ltidy (lbig 70 false [2 ^ 40; 0] [0; 8]) /\ noticed (lbig 70 false [2 ^ 40; 0] [0; 8]) /\ ~ noticed (lbig 70 false [0; 0] [2 ^ 40; 0]).
Proof. do 2 (split; [conc|]). split; [exists 67; split; [conc|split; [reflexivity|right; reflexivity]]|]. apply (zero_mask 70 (lbig 70 false [0; 0] [2 ^ 40; 0]) ltac:(conc)). apply (halves_one 70 40); vm_compute; discriminate. Qed.

(** C26: >> *)
Theorem C26_exact : forall a amt, vec a -> vec amt -> 2 <= bw a -> tidy amt -> 0 <= value amt ->
  (exists r, bit_shr a amt = Ok r /\ num r = num a / 2 ^ value amt) <-> (bw a <= 64 -> bw amt <= 64 /\ value amt < bw a).
Proof. exact shr_iff. Qed.
Print Assumptions C26_exact.
Example C26_exact_ex : vec (bit_of_native 11 0 true (-9)) /\ vec (bit_of_native 3 0 false 5) /\ tidy (bit_of_native 3 0 false 5) /\ value (bit_of_native 3 0 false 5) = 5 /\ 2 <= bw (bit_of_native 11 0 true (-9)).
Proof. conc. Qed.

(** C29: a shift of 4-state vectors is all x iff the library notices an x or z in an operand *)
Theorem C29_exact : forall op, In op shifts4 -> forall a k, lvec a -> lvec k -> tidy (l_xz a) -> tidy (l_xz k) -> op a k <> IllFormed ->
  (exists r, op a k = Ok r /\ all_x r) <-> noticed a \/ noticed k.
Proof. exact shift_x_iff. Qed.
Print Assumptions C29_exact.
(** C35: so is a comparison *)
Theorem C35_exact : forall op, In op compares4 -> forall a b, lvec a -> lvec b -> tidy (l_xz a) -> tidy (l_xz b) -> op a b <> IllFormed ->
  (exists r, op a b = Ok r /\ sym_at r 0 = SX) <-> noticed a \/ noticed b.
Proof. exact compare_x_iff. Qed.
Print Assumptions C35_exact.
(** C42: arithmetic; division also by a number taken for 0 *)
Theorem C42_exact : forall d lop, In (d, lop) arith4 -> forall a b, lvec a -> lvec b -> tidy (l_xz a) -> tidy (l_xz b) -> (d = true -> lsgn b = false /\ tidy (l_val b)) -> lop a b <> IllFormed ->
  (exists r, lop a b = Ok r /\ all_x r) <-> noticed_at (Z.max (lw a) (lw b)) a \/ noticed_at (Z.max (lw a) (lw b)) b \/ d = true /\ zero_at (Z.max (lw a) (lw b)) (num (l_val b)).
Proof. exact arith_x_iff. Qed.
Print Assumptions C42_exact.
(** C44: ++ and -- *)
Theorem C44_logic_exact : forall step, In step [logic_inc; logic_dec] -> forall a, lvec a -> tidy (l_xz a) -> step a <> IllFormed -> (exists r, step a = Ok r /\ all_x r) <-> noticed a.
Proof. exact step_x_iff. Qed.
Print Assumptions C44_logic_exact.
Example C42_exact_ex : In (true, logic_div) arith4 /\ lvec (v4 8 9 48) /\ lvec (lbig 70 false [2 ^ 40; 0] [0; 0]) /\ ltidy (lbig 70 false [2 ^ 40; 0] [0; 0]) /\ tidy (l_xz (v4 8 9 48)) /\ noticed_at 70 (v4 8 9 48) /\
  zero_at 70 (num (l_val (lbig 70 false [2 ^ 40; 0] [0; 0]))) /\ logic_div (v4 8 9 48) (lbig 70 false [2 ^ 40; 0] [0; 0]) <> IllFormed /\ In logic_shl shifts4 /\ logic_shl (v4 8 9 48) (v4 3 5 0) <> IllFormed /\
  In logic_lt compares4 /\ logic_lt (v4 8 9 48) (v4 8 5 0) <> IllFormed /\ logic_inc (v4 8 9 48) <> IllFormed.
Proof. split; [cbn; tauto|]. do 4 (split; [conc|]). split; [exists 4; split; [conc|split; [reflexivity|right; reflexivity]]|]. split; [apply (halves_one 70 40); vm_compute; discriminate|]. split; [vm_compute; discriminate|]. split; [cbn; tauto|]. split; [vm_compute; discriminate|]. split; [cbn; tauto|]. split; vm_compute; discriminate. Qed.

(** C36: match() of equal types *)
Theorem C36_exact : forall a b n s, 1 <= n -> ltyped a n s -> ltyped b n s ->
  (logic_match a b <> IllFormed <-> s = false \/ n <= 64) /\
  (s = false \/ n <= 64 -> exists c, logic_match a b = Ok c /\ (c = true <-> stored (l_val a) = stored (l_val b) /\ stored (l_xz a) = stored (l_xz b))).
Proof. exact match_iff. Qed.
Print Assumptions C36_exact.
Example C36_exact_ex : ltyped (v4s 8 (-90) 48) 8 true /\ ltyped (lbig 70 false [5; 3] [0; 1]) 70 false /\ stored (l_val (v4s 8 (-90) 48)) = -90.
Proof. conc. Qed.

(** C37: + *)
Theorem C37_exact : forall a b n sa sb, 1 <= n -> typed a n sa -> typed b n sb -> tidy a -> tidy b ->
  (exists r, bit_add a b = Ok r /\ num r = (num a + num b) mod 2 ^ n) <-> (n = 1 -> num a = 0 \/ num b = 0) /\ ~ overflows Z.add a b n.
Proof. exact add_iff. Qed.
Print Assumptions C37_exact.
(** C38: - with two operands *)
Theorem C38_exact : forall a b n sa sb, 1 <= n -> typed a n sa -> typed b n sb -> tidy a -> tidy b ->
  (exists r, bit_sub a b = Ok r /\ num r = (num a - num b) mod 2 ^ n) <-> ~ overflows Z.sub a b n.
Proof. exact sub_iff. Qed.
Print Assumptions C38_exact.
(** and with one *)
Theorem C38_neg_exact : forall a n s, 1 <= n -> typed a n s -> tidy a ->
  (exists r, bit_neg a = Ok r /\ num r = (- num a) mod 2 ^ n) <-> n <= 64 /\ ~ (s = true /\ (n = 32 \/ n = 64) /\ value a = - 2 ^ (n - 1)).
Proof. exact neg_iff. Qed.
Print Assumptions C38_neg_exact.
(** C39: * up to 64 positions *)
Theorem C39_exact : forall a b n sa sb, 1 <= n <= 64 -> typed a n sa -> typed b n sb -> tidy a -> tidy b ->
  (exists r, bit_mul a b = Ok r /\ num r = (num a * num b) mod 2 ^ n) <-> (17 <= n /\ sa && sb = false) \/ signed_fits (computing n) (value a * value b).
Proof. exact mul_iff. Qed.
Print Assumptions C39_exact.
Example C37_exact_ex : typed (bit_of_native 31 0 true (2 ^ 31 - 1)) 32 true /\ tidy (bit_of_native 31 0 true (2 ^ 31 - 1)) /\ overflows Z.add (bit_of_native 31 0 true (2 ^ 31 - 1)) (bit_of_native 31 0 true 1) 32 /\
  typed (bit_of_native 15 0 false 65535) 16 false /\ tidy (bit_of_native 15 0 false 65535) /\ computing 16 = 32 /\ ~ signed_fits 32 (65535 * 65535) /\ signed_fits 32 (65535 * 300).
Proof. do 2 (split; [conc|]). split; [repeat split; [left; reflexivity|vm_compute; intros [? H]; discriminate H]|]. do 3 (split; [conc|]). split; [vm_compute; intros [_ H]; discriminate H|split; [discriminate|reflexivity]]. Qed.

(** C46: reading a vector as a signed number *)
Theorem C46_exact : forall x n s, 1 <= n <= 64 -> typed x n s -> tidy x ->
  bit_to_num (bit_to_signed x) = Ok (twos n (num x)) <-> n = 8 \/ n = 16 \/ n = 32 \/ n = 64 \/ (2 <= n /\ s = true) \/ bit_at x (n - 1) = false.
Proof. exact resign_iff. Qed.
Print Assumptions C46_exact.
Example C46_exact_ex : typed (bit_of_native 10 0 false 1500) 11 false /\ tidy (bit_of_native 10 0 false 1500) /\ bit_at (bit_of_native 10 0 false 1500) 10 = true /\ typed (bit_of_native 10 0 false 700) 11 false /\ bit_at (bit_of_native 10 0 false 700) 10 = false.
Proof. conc. Qed.

