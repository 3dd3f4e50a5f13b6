(** Exactly when further partially true properties hold, and exactly when arithmetic is undefined (compare [PropsIff.v]). *)
From Coq Require Import ZArith List Bool Lia.
From Verif Require Import Cpp BigNum Bit Logic More Spec SpecExact SpecMachine BitExt BitMain BitMain2 LogicMain TextMain SpecIff Iff7 Iff8 Iff9 Iff10.
Import ListNotations.
Open Scope Z_scope.

(** C11: concatenation with a 2-state vector *)
Theorem C11_exact : forall a b na nb, 1 <= na -> 1 <= nb -> na + nb < 64 -> (na + nb <= 32 \/ 33 <= na) -> ltyped a na false -> typed b nb false -> ltidy a -> tidy b ->
  (exists r, logic_concat_bit a b = Ok r /\ forall p, 0 <= p < na + nb -> sym_at r p = if p <? nb then sym_of_bool (bit_at b p) else sym_at a (p - nb)) <-> known a.
Proof. exact concat_bit_iff. Qed.
Print Assumptions C11_exact.
Example C11_exact_ex : ltyped (v4 8 90 0) 8 false /\ ltidy (v4 8 90 0) /\ known (v4 8 90 0) /\ ltyped (v4 8 90 15) 8 false /\ ltidy (v4 8 90 15) /\ ~ known (v4 8 90 15) /\ typed (bit_of_native 4 0 false 9) 5 false /\ tidy (bit_of_native 4 0 false 9).
Proof. do 2 (split; [conc|]). split; [apply known_zero; conc|]. do 2 (split; [conc|]). split; [intros K; specialize (K 3 ltac:(conc)); discriminate K|conc]. Qed.

(** C27: <<.  A count held in at most 64 positions is first reduced to the holder type of the left operand; [wrap] is that reduction ([SpecMachine.v]). *)
Theorem C27_exact : forall a k n s, 1 <= n -> typed a n s -> vec k -> tidy k -> 0 <= value k ->
  (exists r, bit_shl a k = Ok r /\ num r = (num a * 2 ^ value k) mod 2 ^ n) <->
  (n = 1 /\ bw k <= 64 /\ (value k = 0 \/ num a = 0)) \/
  (2 <= n <= 64 /\ bw k <= 64 /\ 0 <= wrap s (storage n) (value k) < computing n /\ (wrap s (storage n) (value k) = value k \/ (num a * 2 ^ wrap s (storage n) (value k)) mod 2 ^ n = 0)) \/
  65 <= n.
Proof. exact shl_iff. Qed.
Print Assumptions C27_exact.
Example C27_exact_ex : typed (bit_of_native 7 0 false 200) 8 false /\ vec (bit_of_native 15 0 false 257) /\ tidy (bit_of_native 15 0 false 257) /\ value (bit_of_native 15 0 false 257) = 257 /\ wrap false (storage 8) 257 = 1 /\ (num (bit_of_native 7 0 false 200) * 2 ^ 1) mod 2 ^ 8 <> 0.
Proof. conc. Qed.

(** C28: >>> *)
Theorem C28_exact : forall a k n s, 1 <= n -> typed a n s -> tidy a -> vec k -> tidy k -> 0 <= value k ->
  (exists r, bit_ashr a k = Ok r /\ num r = (value a / 2 ^ value k) mod 2 ^ n) <->
  (n = 1 /\ bw k <= 64 /\ (s = false \/ value k = 0 \/ num a = 0)) \/
  (2 <= n <= 64 /\ bw k <= 64 /\ 0 <= wrap s (storage n) (value k) < computing n /\ (wrap s (storage n) (value k) = value k \/ - 2 ^ wrap s (storage n) (value k) <= value a < 2 ^ wrap s (storage n) (value k))) \/
  (65 <= n /\ (0 <= value a \/ n <= value k)).
Proof. exact ashr_iff. Qed.
Print Assumptions C28_exact.
Example C28_exact_ex : typed (big 70 true [9; 63]) 70 true /\ tidy (big 70 true [9; 63]) /\ value (big 70 true [9; 63]) < 0 /\ vec (bit_of_native 7 0 false 3) /\ tidy (bit_of_native 7 0 false 3) /\ value (bit_of_native 7 0 false 3) = 3 /\ typed (bit_of_native 10 0 true (-9)) 11 true /\ tidy (bit_of_native 10 0 true (-9)).
Proof. conc. Qed.

(** C30: == of unsigned vectors *)
Theorem C30_exact : forall a b, vec a -> vec b -> tidy a -> tidy b -> bsgn a = false -> bsgn b = false ->
  bit_eq a b = Ok (num a =? num b) <-> num a = num b \/ ~ confused a b.
Proof. exact eq_iff. Qed.
Print Assumptions C30_exact.
Example C30_exact_ex : vec (bit_of_native 7 0 false 1) /\ vec (bit_of_native 15 0 false 257) /\ tidy (bit_of_native 15 0 false 257) /\ confused (bit_of_native 7 0 false 1) (bit_of_native 15 0 false 257) /\ ~ confused (bit_of_native 15 0 false 257) (bit_of_native 7 0 false 1) /\ vec (big 70 false [5; 2]) /\ tidy (big 70 false [5; 2]).
Proof. do 3 (split; [conc|]). split; [right; left; conc|]. split; [intros [(H & _)|[(_ & _ & H)|(H & _)]]; vm_compute in H; [discriminate H|discriminate H|apply H; reflexivity]|conc]. Qed.

(** C32: > and < of unsigned vectors *)
Theorem C32_exact : forall a b, vec a -> vec b -> tidy a -> tidy b -> bsgn a = false -> bsgn b = false ->
  (bit_gt a b = Ok (num b <? num a) <-> (bw a <= 64 <-> bw b <= 64)) /\ (bit_lt a b = Ok (num a <? num b) <-> (bw a <= 64 <-> bw b <= 64)).
Proof. exact order_iff. Qed.
Print Assumptions C32_exact.
(** >= and <= of unsigned vectors *)
Theorem C32_equal_exact : forall a b, vec a -> vec b -> tidy a -> tidy b -> bsgn a = false -> bsgn b = false ->
  (bit_ge a b = Ok (num b <=? num a) <-> (bw a <= 64 /\ bw b <= 64) \/ (65 <= bw a /\ 65 <= bw b /\ (num b <= num a \/ ~ confused a b))) /\
  (bit_le a b = Ok (num a <=? num b) <-> (bw a <= 64 /\ bw b <= 64) \/ (65 <= bw a /\ 65 <= bw b /\ (num a <= num b \/ ~ confused b a))).
Proof. exact order_equal_iff. Qed.
Print Assumptions C32_equal_exact.
Example C32_exact_ex : vec (big 200 false [5; 0; 0; 0]) /\ tidy (big 200 false [5; 0; 0; 0]) /\ vec (big 70 false [5; 2]) /\ tidy (big 70 false [5; 2]) /\ num (big 200 false [5; 0; 0; 0]) < num (big 70 false [5; 2]) /\
  ~ confused (big 200 false [5; 0; 0; 0]) (big 70 false [5; 2]).
Proof. do 5 (split; [conc|]). intros [(H & _)|[((H & _) & H2 & _)|(_ & _ & H & _)]]; [discriminate H|apply H2; reflexivity|vm_compute in H; discriminate H]. Qed.

(** C33: > of signed vectors *)
Theorem C33_exact : forall a b, vec a -> vec b -> tidy a -> tidy b -> bsgn a = true -> bsgn b = true -> 2 <= bw a -> 2 <= bw b ->
  bit_gt a b = Ok (snum b <? snum a) <->
  (bw a <= 64 /\ bw b <= 64) \/
  (65 <= bw a /\ 65 <= bw b /\ (0 <= snum a \/ 0 <= snum b \/ (least a /\ ~ least b /\ snum b < snum a) \/ (~ least a /\ least b /\ snum a <= snum b) \/
     (~ least a /\ ~ least b /\ (magnitude a < magnitude b <-> snum b < snum a)))).
Proof. exact signed_order_iff. Qed.
Print Assumptions C33_exact.
Example C33_exact_ex : vec (big 70 true [9; 63]) /\ tidy (big 70 true [9; 63]) /\ vec (big 130 true [2 ^ 64 - 1; 2 ^ 64 - 1; 3]) /\ tidy (big 130 true [2 ^ 64 - 1; 2 ^ 64 - 1; 3]) /\ snum (big 70 true [9; 63]) < snum (big 130 true [2 ^ 64 - 1; 2 ^ 64 - 1; 3]) /\
  magnitude (big 70 true [9; 63]) < magnitude (big 130 true [2 ^ 64 - 1; 2 ^ 64 - 1; 3]).
Proof. conc. Qed.

(** C34: a signed with an unsigned vector of at most 64 positions *)
Theorem C34_exact : forall x y, vec x -> vec y -> tidy x -> tidy y -> bw x <= 64 -> bw y <= 64 -> bsgn x = true -> bsgn y = false ->
  (bit_gt x y = Ok (num y <? num x) <-> bw x = 1 \/ 0 <= value x \/ num y < num x \/ 2 ^ 64 + value x <= num y) /\
  (bit_le x y = Ok (num x <=? num y) <-> bw x = 1 \/ 0 <= value x \/ num y < num x \/ 2 ^ 64 + value x <= num y) /\
  (bit_lt x y = Ok (num x <? num y) <-> bw x = 1 \/ 0 <= value x \/ num y <= num x \/ 2 ^ 64 + value x < num y) /\
  (bit_ge x y = Ok (num y <=? num x) <-> bw x = 1 \/ 0 <= value x \/ num y <= num x \/ 2 ^ 64 + value x < num y) /\
  (bit_lt y x = Ok (num y <? num x) <-> bw x = 1 \/ 0 <= value x \/ num y < num x \/ 2 ^ 64 + value x <= num y) /\
  (bit_ge y x = Ok (num x <=? num y) <-> bw x = 1 \/ 0 <= value x \/ num y < num x \/ 2 ^ 64 + value x <= num y) /\
  (bit_gt y x = Ok (num x <? num y) <-> bw x = 1 \/ 0 <= value x \/ num y <= num x \/ 2 ^ 64 + value x < num y) /\
  (bit_le y x = Ok (num y <=? num x) <-> bw x = 1 \/ 0 <= value x \/ num y <= num x \/ 2 ^ 64 + value x < num y).
Proof. exact mixed_order_iff. Qed.
Print Assumptions C34_exact.
Example C34_exact_ex : vec (bit_of_native 7 0 true (-56)) /\ tidy (bit_of_native 7 0 true (-56)) /\ vec (bit_of_native 7 0 false 200) /\ tidy (bit_of_native 7 0 false 200) /\ value (bit_of_native 7 0 true (-56)) < 0 /\ num (bit_of_native 7 0 true (-56)) = 200.
Proof. conc. Qed.

(** C39: products of unsigned vectors of more than 64 positions *)
Theorem C39_wide_exact : forall a b na nb, 1 <= na -> 1 <= nb -> 65 <= Z.max na nb -> typed a na false -> typed b nb false -> tidy a -> tidy b ->
  (exists r, bit_mul a b = Ok r /\ num r = (num a * num b) mod 2 ^ Z.max na nb) <-> multiplies_right (Z.max na nb) (num a) (num b).
Proof. exact mul_wide_iff. Qed.
Print Assumptions C39_wide_exact.
Example C39_wide_exact_ex : typed (big 130 false [5; 1; 0]) 130 false /\ tidy (big 130 false [5; 1; 0]) /\ typed (bit_of_native 7 0 false 200) 8 false /\ ~ hollow (num (big 130 false [5; 1; 0]) / 2 ^ 64) /\
  Z.log2 (num (big 130 false [5; 1; 0])) / 64 + Z.log2 (num (bit_of_native 7 0 false 200)) / 64 + 1 < (130 + 63) / 64.
Proof. do 3 (split; [conc|]). split; [intros H; specialize (H 0 ltac:(lia) ltac:(conc)); discriminate H|conc]. Qed.

(** C40: / and % of unsigned vectors of any two widths *)
Theorem C40_exact : forall a b na nb, 1 <= na -> 1 <= nb -> typed a na false -> typed b nb false -> tidy a -> tidy b ->
  (exists q r, bit_div a b = Ok q /\ bit_rem a b = Ok r /\ num a = num q * num b + num r /\ 0 <= num r < num b) <-> divides_right (Z.max na nb) (num a) (num b).
Proof. exact div_iff. Qed.
Print Assumptions C40_exact.
Example C40_exact_ex : typed (big 130 false [5; 1; 2]) 130 false /\ tidy (big 130 false [5; 1; 2]) /\ typed (bit_of_native 7 0 false 200) 8 false /\ tidy (bit_of_native 7 0 false 200) /\ divides_right 130 (num (big 130 false [5; 1; 2])) (num (bit_of_native 7 0 false 200)) /\
  ~ divides_right 130 (num (big 130 false [5; 1; 2])) (num (big 130 false [1; 2 ^ 32; 0])).
Proof. do 4 (split; [conc|]). split.
  - split; [discriminate|]. intros _ _. split; [intros H; specialize (H 3 ltac:(lia) ltac:(conc)); discriminate H|]. split; [intros _ H; discriminate H|]. intros _ H. specialize (H 0 ltac:(lia) ltac:(conc)). discriminate H.
  - intros (_ & H). destruct (H ltac:(lia) ltac:(discriminate)) as (_ & K & _). assert (X : num (big 130 false [1; 2 ^ 32; 0]) = 1); [|discriminate X]. apply K; [|reflexivity]. replace (num (big 130 false [1; 2 ^ 32; 0]) / 2 ^ 64) with (2 ^ 32) by reflexivity. intros p Hp Q. rewrite Z.pow2_bits_eqb by lia. apply Z.eqb_neq. intros <-. cbn in Q. lia. Qed.

(** C41: / and % of known 4-state vectors are x iff the divisor is taken for 0 *)
Theorem C41_exact : forall lop, In lop [logic_div; logic_rem] -> forall a b, lvec a -> lvec b -> tidy (l_xz a) -> tidy (l_xz b) -> known a -> known b -> lsgn b = false -> tidy (l_val b) -> lop a b <> IllFormed ->
  (exists r, lop a b = Ok r /\ all_x r) <-> zero_at (Z.max (lw a) (lw b)) (num (l_val b)).
Proof. exact div_zero_iff. Qed.
Print Assumptions C41_exact.
Example C41_exact_ex : In logic_rem [logic_div; logic_rem] /\ lvec (v4 8 9 0) /\ tidy (l_xz (v4 8 9 0)) /\ known (v4 8 9 0) /\ lvec (lbig 70 false [2 ^ 40; 0] [0; 0]) /\ tidy (l_xz (lbig 70 false [2 ^ 40; 0] [0; 0])) /\ known (lbig 70 false [2 ^ 40; 0] [0; 0]) /\ tidy (l_val (lbig 70 false [2 ^ 40; 0] [0; 0])) /\
  logic_rem (v4 8 9 0) (lbig 70 false [2 ^ 40; 0] [0; 0]) <> IllFormed.
Proof. split; [cbn; tauto|]. do 2 (split; [conc|]). split; [apply known_zero; conc|]. do 2 (split; [conc|]). split; [apply known_zero; conc|]. split; [conc|]. vm_compute. discriminate. Qed.

(** C43: exactly when arithmetic on vectors of one width is undefined *)
Theorem C43_exact : forall a b n sa sb, 1 <= n -> typed a n sa -> typed b n sb -> tidy a -> tidy b ->
  (bit_add a b = UB <-> overflows Z.add a b n) /\ (bit_sub a b = UB <-> overflows Z.sub a b n) /\
  (n <= 64 -> bit_mul a b = UB <-> (n <= 16 \/ bsgn a && bsgn b = true) /\ ~ signed_fits (computing n) (value a * value b)) /\
  (n <= 64 -> bit_div a b = UB <-> num b = 0 \/ (bsgn a && bsgn b = true /\ (n = 32 \/ n = 64) /\ value a = - 2 ^ (n - 1) /\ value b = - 1)) /\
  (n <= 64 -> bit_rem a b = UB <-> num b = 0 \/ (bsgn a && bsgn b = true /\ (n = 32 \/ n = 64) /\ value a = - 2 ^ (n - 1) /\ value b = - 1)) /\
  (65 <= n -> bit_mul a b = UB <-> ~ (hollow (num a / 2 ^ 64) /\ hollow (num b / 2 ^ 64)) /\ num a <> 0 /\ num b <> 0 /\ (n + 63) / 64 <= Z.log2 (num a) / 64 + Z.log2 (num b) / 64 + 1) /\
  (65 <= n -> bit_div a b <> UB /\ bit_rem a b <> UB).
Proof. exact undefined_iff. Qed.
Print Assumptions C43_exact.
Example C43_exact_ex : typed (bit_of_native 15 0 false 65535) 16 false /\ tidy (bit_of_native 15 0 false 65535) /\ ~ signed_fits (computing 16) (value (bit_of_native 15 0 false 65535) * value (bit_of_native 15 0 false 65535)) /\ typed (bit_of_native 31 0 true (- 2 ^ 31)) 32 true /\ tidy (bit_of_native 31 0 true (- 2 ^ 31)) /\
  value (bit_of_native 31 0 true (-1)) = -1.
Proof. do 2 (split; [conc|]). split; [vm_compute; intros [_ H]; discriminate H|conc]. Qed.

(** C48: assignment *)
Theorem C48_exact : forall dst src n m s s2, 1 <= n -> 1 <= m -> typed dst n s -> typed src m s2 -> tidy src ->
  (exists r, bit_assign dst src = Ok r /\ num r = value src mod 2 ^ n) <->
  ((n <= 64 /\ m <= 64) \/ n = m) /\ (n = 1 -> num src = 0 \/ Z.odd (num src) = true) /\ (2 <= n -> m = 1 -> s2 = true -> num src = 0).
Proof. exact assign_iff. Qed.
Print Assumptions C48_exact.
Example C48_exact_ex : typed (bit_of_native 0 0 false 0) 1 false /\ typed (bit_of_native 7 0 true (-2)) 8 true /\ tidy (bit_of_native 7 0 true (-2)) /\ num (bit_of_native 7 0 true (-2)) = 254 /\ Z.odd 254 = false /\ typed (bit_of_native 12 0 false 0) 13 false.
Proof. conc. Qed.

(** C49: part-select update of a logic vector *)
Theorem C49_exact : forall x n s op k so a b, 1 <= n -> 1 <= k -> ltyped x n s -> ltyped op k so -> 0 <= a < n -> 0 <= b < n ->
  ((exists r, logic_update_r x a b op = Ok r /\ forall p, 0 <= p < n -> sym_at r p =
      if (Z.min a b <=? p) && (p <=? Z.max a b) then (if p - Z.min a b <? k then sym_at op (p - Z.min a b) else S0) else sym_at x p) <->
   forall q, 64 <= q < k -> q <= Z.abs (a - b) -> unknown (sym_at op q) = false) /\
  (logic_update_r x a b op = UB <-> exists q, 64 <= q < k /\ q <= Z.abs (a - b) /\ unknown (sym_at op q) = true).
Proof. exact update_iff. Qed.
Print Assumptions C49_exact.
Example C49_exact_ex : ltyped (lbig 70 false [5; 3] [0; 1]) 70 false /\ ltyped (lbig 100 false [9; 7] [0; 4]) 100 false /\ unknown (sym_at (lbig 100 false [9; 7] [0; 4]) 66) = true /\ unknown (sym_at (lbig 70 false [5; 3] [0; 1]) 64) = true.
Proof. conc. Qed.

(** C91: ! of a 2-state vector *)
Theorem C91_not_exact : forall b, vec b -> tidy b -> bit_lnot b = (num b =? 0) <-> bw b <= 64 \/ num b = 0 \/ ~ hollow (num b).
Proof. exact bit_not_iff. Qed.
Print Assumptions C91_not_exact.
(** match and nmatch *)
Theorem C91_match_exact : forall a b, vec a -> vec b -> tidy a -> tidy b -> bsgn a = false -> bsgn b = false ->
  (bit_match a b = Ok (num a =? num b) <-> num a = num b \/ ~ confused a b) /\ (bit_nmatch a b = Ok (negb (num a =? num b)) <-> num a = num b \/ ~ confused a b).
Proof. exact bit_match_iff. Qed.
Print Assumptions C91_match_exact.
Example C91_exact_ex : vec (big 70 false [5; 3]) /\ tidy (big 70 false [5; 3]) /\ ~ hollow (num (big 70 false [5; 3])) /\ hollow (2 ^ 32).
Proof. do 2 (split; [conc|]). split; [intros H; specialize (H 0 ltac:(lia) ltac:(conc)); discriminate H|]. intros p Hp Q. rewrite Z.pow2_bits_eqb by lia. apply Z.eqb_neq. intros <-. cbn in Q. lia. Qed.

