(** Property theorems about [big_num] used directly (C94-C100).  Objects, numbers and positions are those of
    SpecBig.v; every theorem ranges over all sizes below 2^32, both signednesses and all contents. *)
From Coq Require Import ZArith List Bool.
From Verif Require Import Cpp BigNum Util Spec SpecText BigObj SpecBig BigObjProofs BigObjProofs2 BigObjProofs3.
Import ListNotations.
Open Scope Z_scope.

Definition n70 := mkNum 70 false [2 ^ 63 + 9; 5].
Definition n128 := mkNum 128 false [77; 2 ^ 40 + 3].
Definition i70 := mkNum 70 true [u64max - 4; 63].
Definition i128 := mkNum 128 true [12; 0].
Definition n40 := mkNum 40 false [1000].

(** C94: reading *)
Theorem C94_read : forall x n s i, is_num x n s -> 0 <= i -> num_get x i = pos x i.
Proof. exact get_pos. Qed.
Print Assumptions C94_read.
(** writing one position; a constant index outside the number is rejected *)
Theorem C94_write : forall x n s i v, is_num x n s -> 0 <= i ->
  is_num (num_set x i v) n s /\
  (forall p, 0 <= p -> pos (num_set x i v) p = if (p =? i) && (i <? n) then v else pos x p) /\
  (inwidth x -> inwidth (num_set x i v)) /\
  (i < n -> num_set_c x i v = Ok (num_set x i v)) /\ (n <= i -> num_set_c x i v = IllFormed).
Proof. exact set_all. Qed.
Print Assumptions C94_write.
(** any sequence of writes: the last write of a position wins *)
Theorem C94_writes : forall ws x n s, is_num x n s -> Forall (fun w => 0 <= fst w < n) ws ->
  let y := fold_left (fun x w => num_set x (fst w) (snd w)) ws x in
  is_num y n s /\ forall p, 0 <= p -> pos y p = after_writes x ws p.
Proof. exact writes_pos. Qed.
Print Assumptions C94_writes.
Theorem C94_slice : forall x n s a b, is_num x n s -> 0 <= a < n -> 0 <= b < n ->
  exists r, num_slice_c x a b = Ok r /\ is_num r (Z.abs (a - b) + 1) false /\ inwidth r /\
    magn r = (magn x / 2 ^ Z.min a b) mod 2 ^ (Z.abs (a - b) + 1).
Proof. exact slice_c_num. Qed.
Print Assumptions C94_slice.
Theorem C94_slice_rejected : forall x n s a b, is_num x n s -> n <= Z.max a b -> num_slice_c x a b = IllFormed.
Proof. exact slice_c_bad. Qed.
Print Assumptions C94_slice_rejected.
Theorem C94_slice_runtime : forall x n s ts a b, is_num x n s -> 1 <= ts < 2 ^ 32 -> 0 <= a < u64max -> 0 <= b < u64max ->
  exists r, num_slice_r x ts a b = Ok r /\ is_num r ts false /\ inwidth r /\
    magn r = (magn x / 2 ^ Z.min a b) mod 2 ^ Z.min ts (Z.abs (a - b) + 1).
Proof. exact slice_r_num. Qed.
Print Assumptions C94_slice_runtime.
(** a runtime slice up to position 2^64-1 never ends *)
Theorem C94_slice_refuted : forall x ts a b, Z.max a b = 2 ^ 64 - 1 -> num_slice_r x ts a b = Fuel.
Proof. exact slice_r_endless. Qed.
Print Assumptions C94_slice_refuted.
Theorem C94_concat : forall x y n s m t, is_num x n s -> is_num y m t -> n + m < 2 ^ 32 ->
  is_num (num_concat x y) (n + m) false /\ magn (num_concat x y) = magn y + 2 ^ m * magn x.
Proof. exact concat_num. Qed.
Print Assumptions C94_concat.
(** extending a non-negative signed number changes its value *)
Theorem C94_extend_refuted : exists x r, is_num x 70 true /\ inwidth x /\ ival x = 1 /\ num_extend x 128 = Ok r /\ ival r <> 1.
Proof. exact extend_counter. Qed.
Print Assumptions C94_extend_refuted.
(** Missing: non-negative signed numbers, numbers with garbage above their width (both false). *)
Theorem C94_extend_partial : forall x n s m, is_num x n s -> n <= m < 2 ^ 32 -> widens x m s ->
  exists r, num_extend x m = Ok r /\ is_num r m s /\ magn r = ival x mod 2 ^ m /\ (inwidth x -> inwidth r).
Proof. exact extend_num. Qed.
Print Assumptions C94_extend_partial.
Theorem C94_narrow_rejected : forall x n s m, is_num x n s -> m < n -> num_extend x m = IllFormed.
Proof. exact extend_bad. Qed.
Print Assumptions C94_narrow_rejected.
Example C94_ex : is_num n70 70 false /\ is_num i70 70 true /\ inwidth n70 /\ inwidth i70 /\ ival i70 = -5 /\ pos n70 63 = true /\ pos n70 65 = false /\
  n_sgn n70 = false.
Proof. cnum. Qed.
Example C94_writes_ex : Forall (fun w => 0 <= fst w < 70) [(69, true); (3, false); (69, false)].
Proof. repeat constructor; vm_compute; congruence. Qed.

(** C95 *)
Theorem C95_not : forall x n s, is_num x n s -> is_num (num_not x) n s /\ magn (num_not x) = 2 ^ n - 1 - magn x.
Proof. exact not_num. Qed.
Print Assumptions C95_not.
(** a narrower signed operand is filled with ones; ~ leaves ones above the width *)
Theorem C95_refuted :
  (exists x y r, is_num x 70 true /\ is_num y 128 false /\ inwidth x /\ inwidth y /\ magn x = 1 /\ magn y = 0 /\ num_or x y = Ok r /\ magn r <> 1) /\
  (exists x, is_num x 70 false /\ inwidth x /\ ~ inwidth (num_not x)).
Proof. exact bitwise_counter. Qed.
Print Assumptions C95_refuted.
(** Missing: a narrower operand that does not widen (see [widens]; false). *)
Theorem C95_and_partial : forall x y n s m t, is_num x n s -> is_num y m t -> widens x (Z.max n m) (s && t) -> widens y (Z.max n m) (s && t) ->
  exists r, num_and x y = Ok r /\ is_num r (Z.max n m) (s && t) /\ inwidth r /\
    magn r = Z.land (oper x (s && t)) (oper y (s && t)) mod 2 ^ Z.max n m.
Proof. exact and_num. Qed.
Print Assumptions C95_and_partial.
Theorem C95_or_partial : forall x y n s m t, is_num x n s -> is_num y m t -> widens x (Z.max n m) (s && t) -> widens y (Z.max n m) (s && t) ->
  exists r, num_or x y = Ok r /\ is_num r (Z.max n m) (s && t) /\
    magn r = Z.lor (oper x (s && t)) (oper y (s && t)) mod 2 ^ Z.max n m.
Proof. exact or_num. Qed.
Print Assumptions C95_or_partial.
Theorem C95_xor_partial : forall x y n s m t, is_num x n s -> is_num y m t -> widens x (Z.max n m) (s && t) -> widens y (Z.max n m) (s && t) ->
  exists r, num_xor x y = Ok r /\ is_num r (Z.max n m) (s && t) /\
    magn r = Z.lxor (oper x (s && t)) (oper y (s && t)) mod 2 ^ Z.max n m.
Proof. exact xor_num. Qed.
Print Assumptions C95_xor_partial.
(** compound assignment keeps the type of the object *)
Theorem C95_and_assign_partial : forall x y n s m t, is_num x n s -> is_num y m t -> m <= n -> (s = true -> t = true) -> widens y n s ->
  exists r, num_and_assign x y = Ok r /\ is_num r n s /\ inwidth r /\ magn r = Z.land (oper x s) (oper y s) mod 2 ^ n.
Proof. exact and_assign_num. Qed.
Print Assumptions C95_and_assign_partial.
Theorem C95_xor_assign_partial : forall x y n s m t, is_num x n s -> is_num y m t -> m <= n -> (s = true -> t = true) -> widens y n s ->
  exists r, num_xor_assign x y = Ok r /\ is_num r n s /\ inwidth r /\ magn r = Z.lxor (oper x s) (oper y s) mod 2 ^ n.
Proof. exact xor_assign_num. Qed.
Print Assumptions C95_xor_assign_partial.
Theorem C95_assign_rejected : forall op x y n s m t, is_num x n s -> is_num y m t -> n < m \/ (s = true /\ t = false) -> num_assign_op op x y = IllFormed.
Proof. exact assign_bad. Qed.
Print Assumptions C95_assign_rejected.
Theorem C95_parity : forall x n s, is_num x n s -> num_r_xor x = Z.odd (ones n (magn x)).
Proof. exact r_xor_num. Qed.
Print Assumptions C95_parity.
Theorem C95_mask : forall x n s, is_num x n s -> is_num (num_mask x) n s /\ inwidth (num_mask x) /\ magn (num_mask x) = 2 ^ n - 1.
Proof. exact mask_num. Qed.
Print Assumptions C95_mask.
Theorem C95_mask_off : forall x n s, is_num x n s -> is_num (num_mask_off x) n s /\ magn (num_mask_off x) = magn x /\ inwidth (num_mask_off x).
Proof. exact mask_off_num. Qed.
Print Assumptions C95_mask_off.
Example C95_ex : is_num n70 70 false /\ is_num n128 128 false /\ is_num i70 70 true /\ is_num i128 128 true /\
  widens n70 128 false /\ widens i70 128 true /\ widens n128 128 false /\ widens i128 128 true.
Proof.
  split; [cnum|]. split; [cnum|]. split; [cnum|]. split; [cnum|].
  split; [right; cnum|]. split; [right; cnum|]. split; left; reflexivity.
Qed.

(** C96 *)
Theorem C96_shr : forall x n s k, is_num x n s -> 0 <= k ->
  is_num (num_shr x k) n s /\ inwidth (num_shr x k) /\ magn (num_shr x k) = magn x / 2 ^ k.
Proof. exact shr_num. Qed.
Print Assumptions C96_shr.
Theorem C96_shl : forall x n s k, is_num x n s -> 0 <= k ->
  is_num (num_shl x k) n s /\ inwidth (num_shl x k) /\ magn (num_shl x k) = (magn x * 2 ^ k) mod 2 ^ n /\ num_ashl x k = num_shl x k.
Proof. exact shl_all. Qed.
Print Assumptions C96_shl.
(** the amount may be a number of any size *)
Theorem C96_shr_by_number : forall x k n s m t, is_num x n s -> is_num k m t -> inwidth k ->
  is_num (num_shr_n x k) n (s && t) /\ inwidth (num_shr_n x k) /\ magn (num_shr_n x k) = magn x / 2 ^ magn k.
Proof. exact shr_n_num. Qed.
Print Assumptions C96_shr_by_number.
Theorem C96_shl_by_number : forall x k n s m t, is_num x n s -> is_num k m t -> inwidth k ->
  is_num (num_shl_n x k) n (s && t) /\ inwidth (num_shl_n x k) /\ magn (num_shl_n x k) = (magn x * 2 ^ magn k) mod 2 ^ n /\ num_ashl_n x k = num_shl_n x k.
Proof. exact shl_n_all. Qed.
Print Assumptions C96_shl_by_number.
Theorem C96_ashr_unsigned : forall x n k, is_num x n false -> 0 <= k -> magn (num_ashr x k) = magn x / 2 ^ k.
Proof. exact ashr_unsigned_all. Qed.
Print Assumptions C96_ashr_unsigned.
(** the arithmetic shift of a negative number loses a sign bit *)
Theorem C96_ashr_refuted : exists x, is_num x 128 true /\ inwidth x /\ ival x = -4 /\ ival (num_ashr x 0) <> -4 /\ ival (num_ashr x 1) <> -2.
Proof. exact ashr_counter. Qed.
Print Assumptions C96_ashr_refuted.
(** exactly: the position n-1-k of the quotient is cleared *)
Theorem C96_ashr_exact : forall x n k, is_num x n true -> 0 <= k ->
  is_num (num_ashr x k) n true /\
  forall p, 0 <= p < n -> pos (num_ashr x k) p = (negb ((p =? n - 1 - k) && (k <? n))) && Z.testbit (ival x / 2 ^ k) p.
Proof. exact ashr_num. Qed.
Print Assumptions C96_ashr_exact.
(** Missing: negative numbers shifted by less than their width (false). *)
Theorem C96_ashr_partial : forall x k n m t, is_num x n true -> is_num k m t -> inwidth k -> 0 <= ival x \/ n <= magn k ->
  is_num (num_ashr_n x k) n t /\ magn (num_ashr_n x k) = (ival x / 2 ^ magn k) mod 2 ^ n.
Proof. exact ashr_all. Qed.
Print Assumptions C96_ashr_partial.
Example C96_ex : is_num i70 70 true /\ is_num n128 128 false /\ inwidth n128 /\ 70 <= magn n128 /\ is_num i128 128 true /\ 0 <= ival i128.
Proof. cnum. Qed.

(** C97: a wider operand with ones only in upper halves of words above the other one's compares equal; signed operands
    of different sizes compare wrong; > of two signed minimal values never ends *)
Theorem C97_refuted :
  (exists x y, is_num x 128 false /\ is_num y 64 false /\ inwidth x /\ inwidth y /\ magn x <> magn y /\ num_eq x y = Ok true) /\
  (exists x y, is_num x 70 true /\ is_num y 128 true /\ inwidth x /\ inwidth y /\ ival x = 1 /\ ival y = 1 /\ num_eq x y = Ok false) /\
  (exists x, is_num x 70 true /\ inwidth x /\ num_gt x x = Fuel /\ num_lt x x = Fuel) /\
  (exists x y, is_num x 70 true /\ is_num y 128 true /\ inwidth x /\ inwidth y /\ ival x = -1 /\ ival y = -2 /\ num_gt x y = Ok false).
Proof. exact cmp_counter. Qed.
Print Assumptions C97_refuted.
(** not both signed; Missing: different numbers of words with an invisible excess (false) *)
Theorem C97_eq_partial : forall x y n s m t, is_num x n s -> is_num y m t -> inwidth x -> inwidth y -> s && t = false ->
  ((n + 63) / 64 = (m + 63) / 64 \/ visible (magn x / 2 ^ (64 * ((m + 63) / 64))) /\ visible (magn y / 2 ^ (64 * ((n + 63) / 64)))) ->
  num_eq x y = Ok (magn x =? magn y) /\ num_ne x y = Ok (negb (magn x =? magn y)).
Proof. exact eq_num. Qed.
Print Assumptions C97_eq_partial.
Theorem C97_eq_complete : forall x y n s m t, is_num x n s -> is_num y m t -> inwidth x -> inwidth y -> s && t = false ->
  exists e, num_eq x y = Ok e /\ (magn x = magn y -> e = true).
Proof. exact eq_complete. Qed.
Print Assumptions C97_eq_complete.
Theorem C97_order : forall x y n s m t, is_num x n s -> is_num y m t -> inwidth x -> inwidth y -> s && t = false ->
  num_gt x y = Ok (magn y <? magn x) /\ num_lt x y = Ok (magn x <? magn y).
Proof. exact gt_num. Qed.
Print Assumptions C97_order.
Theorem C97_order_eq_partial : forall x y n s m t, is_num x n s -> is_num y m t -> inwidth x -> inwidth y -> s && t = false ->
  ((n + 63) / 64 = (m + 63) / 64 \/ visible (magn x / 2 ^ (64 * ((m + 63) / 64))) /\ visible (magn y / 2 ^ (64 * ((n + 63) / 64)))) ->
  num_ge x y = Ok (magn y <=? magn x) /\ num_le x y = Ok (magn x <=? magn y).
Proof. exact ge_num. Qed.
Print Assumptions C97_order_eq_partial.
(** both signed.  Missing: two negative numbers of different sizes, and the smallest number (false) *)
Theorem C97_signed_partial : forall x y n m, is_num x n true -> is_num y m true -> inwidth x -> inwidth y ->
  0 <= ival x \/ 0 <= ival y \/ n = m /\ ival x <> - 2 ^ (n - 1) /\ ival y <> - 2 ^ (n - 1) ->
  num_gt x y = Ok (ival y <? ival x) /\ num_lt y x = Ok (ival y <? ival x).
Proof. exact gt_signed. Qed.
Print Assumptions C97_signed_partial.
Theorem C97_signed_eq_partial : forall x y n m, is_num x n true -> is_num y m true -> n < m -> inwidth x -> inwidth y -> ival x < 0 ->
  num_eq x y = Ok (ival x =? ival y).
Proof. exact eq_signed. Qed.
Print Assumptions C97_signed_eq_partial.
Theorem C97_signed_rejected : forall x y n m, is_num x n true -> is_num y m true -> m <= n ->
  num_eq x y = IllFormed /\ num_ne x y = IllFormed /\ num_ge x y = IllFormed /\ num_le y x = IllFormed.
Proof. exact eq_signed_bad. Qed.
Print Assumptions C97_signed_rejected.
Theorem C97_native : forall x n s v, is_num x n s -> inwidth x -> 0 <= v < 2 ^ 64 -> num_eq_t x v = (magn x =? v).
Proof. exact eq_t_num. Qed.
Print Assumptions C97_native.
Example C97_ex : is_num n70 70 false /\ is_num n128 128 false /\ inwidth n70 /\ inwidth n128 /\ (70 + 63) / 64 = (128 + 63) / 64 /\
  is_num i70 70 true /\ inwidth i70 /\ ival i70 < 0 /\ is_num i128 128 true /\ inwidth i128 /\ 0 <= ival i128.
Proof. cnum. Qed.

(** C98: arithmetic *)
Theorem C98_refuted :
  (exists x y r, is_num x 70 true /\ is_num y 128 true /\ inwidth x /\ inwidth y /\ ival x = 1 /\ ival y = 1 /\ num_add x y = Ok r /\ ival r <> 2) /\
  (exists x, is_num x 128 false /\ inwidth x /\ num_mul x x = UB) /\
  (exists x y q, is_num x 128 false /\ is_num y 128 false /\ inwidth x /\ inwidth y /\ magn y <> 0 /\ num_div x y = Ok q /\ magn q <> magn x / magn y) /\
  (forall x y n s m t, is_num x n s -> is_num y m t -> Z.max n m <= 64 -> num_mul x y = UB).
Proof. exact arith_counter. Qed.
Print Assumptions C98_refuted.
(** Missing: a narrower operand that does not widen (false). *)
Theorem C98_add_partial : forall x y n s m t, is_num x n s -> is_num y m t -> widens x (Z.max n m) (s && t) -> widens y (Z.max n m) (s && t) ->
  exists r, num_add x y = Ok r /\ is_num r (Z.max n m) (s && t) /\
    magn r = (oper x (s && t) + oper y (s && t)) mod 2 ^ Z.max n m.
Proof. exact add_num. Qed.
Print Assumptions C98_add_partial.
Theorem C98_sub_partial : forall x y n s m t, is_num x n s -> is_num y m t -> widens x (Z.max n m) (s && t) -> widens y (Z.max n m) (s && t) ->
  exists r, num_sub x y = Ok r /\ is_num r (Z.max n m) (s && t) /\
    magn r = (oper x (s && t) - oper y (s && t)) mod 2 ^ Z.max n m.
Proof. exact sub_num. Qed.
Print Assumptions C98_sub_partial.
Theorem C98_negate : forall x n s, is_num x n s -> is_num (num_negate x) n s /\ magn (num_negate x) = (- magn x) mod 2 ^ n.
Proof. exact negate_num. Qed.
Print Assumptions C98_negate.
(** the product is right exactly as long as the operands' groups of 64 positions fit side by side;
    otherwise the multiplication writes outside the number.  Missing: operands that do not widen, and operands whose
    upper groups are invisible (false). *)
Theorem C98_mul_partial : forall x y n s m t, is_num x n s -> is_num y m t -> widens x (Z.max n m) (s && t) -> widens y (Z.max n m) (s && t) ->
  inwidth x -> inwidth y -> 65 <= Z.max n m ->
  visible (opnd x (Z.max n m) (s && t) / 2 ^ 64) -> visible (opnd y (Z.max n m) (s && t) / 2 ^ 64) ->
  let a := opnd x (Z.max n m) (s && t) in let b := opnd y (Z.max n m) (s && t) in
  (groups a + groups b <= (Z.max n m + 63) / 64 ->
   exists r, num_mul x y = Ok r /\ is_num r (Z.max n m) (s && t) /\ magn r = (oper x (s && t) * oper y (s && t)) mod 2 ^ Z.max n m) /\
  (a <> 0 -> b <> 0 -> (Z.max n m + 63) / 64 < groups a + groups b -> num_mul x y = UB).
Proof. exact mul_num. Qed.
Print Assumptions C98_mul_partial.
(** Missing: signed dividends (rejected), invisible operands (next theorem). *)
Theorem C98_div_partial : forall x y n m t, is_num x n false -> is_num y m t -> inwidth x -> inwidth y -> (m = Z.max n m \/ t = false) ->
  magn y <> 0 -> visible (magn y) -> visible (magn y / 2 ^ 64) -> visible (magn x / 2 ^ 64) ->
  exists q r, num_div x y = Ok q /\ num_rem x y = Ok r /\ is_num q (Z.max n m) false /\ is_num r (Z.max n m) false /\
    inwidth q /\ inwidth r /\ magn q = magn x / magn y /\ magn r = magn x mod magn y.
Proof. exact div_num. Qed.
Print Assumptions C98_div_partial.
(** division by zero, and by a number the library takes for zero, gives 0 and 0 *)
Theorem C98_div_zero : forall x y n m t, is_num x n false -> is_num y m t -> inwidth x -> inwidth y -> (m = Z.max n m \/ t = false) ->
  low_halves_zero (magn y) ->
  exists q r, num_div x y = Ok q /\ num_rem x y = Ok r /\ is_num q (Z.max n m) false /\ is_num r (Z.max n m) false /\ magn q = 0 /\ magn r = 0.
Proof. exact div_unseen. Qed.
Print Assumptions C98_div_zero.
Theorem C98_div_rejected : forall x y n m t, is_num x n true -> is_num y m t -> num_div x y = IllFormed /\ num_rem x y = IllFormed.
Proof. exact div_signed_bad. Qed.
Print Assumptions C98_div_rejected.
Example C98_ex : is_num n40 40 false /\ is_num n128 128 false /\ inwidth n40 /\ inwidth n128 /\ magn n40 <> 0 /\
  groups (opnd n40 128 false) + groups (opnd (num_of_native 128 false 5) 128 false) <= (128 + 63) / 64 /\
  (128 + 63) / 64 < groups (opnd n40 128 false) + groups (opnd n128 128 false).
Proof. cnum. Qed.
Example C98_visible_ex : visible (magn n40) /\ visible (magn n40 / 2 ^ 64) /\ visible (magn n128 / 2 ^ 64) /\ low_halves_zero 0.
Proof.
  split; [apply visible_odd; vm_compute; discriminate|]. split; [exact visible_zero|].
  split; [apply visible_odd; vm_compute; discriminate|exact zero_halves].
Qed.

(** C99: queries *)
Theorem C99_refuted :
  (exists x, is_num x 64 false /\ inwidth x /\ magn x <> 0 /\ num_any_set x = false) /\
  (exists x, is_num x 128 false /\ inwidth x /\ magn x = 2 ^ 128 - 1 /\ num_all_set x = false) /\
  (exists x, is_num x 128 false /\ inwidth x /\ magn x <> 1 /\ 2 ^ 64 <= magn x /\ num_is_one x = true /\ num_fit_in_64 x = true) /\
  (exists x, is_num x 128 false /\ magn x = 0 /\ num_highest_bit x = 2).
Proof. exact query_counter. Qed.
Print Assumptions C99_refuted.
(** exactly: [any_set] and the conversion to bool see only the low half of every 64-bit group *)
Theorem C99_any_partial : forall x n s, is_num x n s -> inwidth x -> (num_any_set x = true <-> ~ low_halves_zero (magn x)) /\
  (visible (magn x) -> num_any_set x = negb (magn x =? 0) /\ num_bool x = negb (magn x =? 0)).
Proof. exact any_num. Qed.
Print Assumptions C99_any_partial.
Theorem C99_all_partial : forall x n s, is_num x n s -> inwidth x -> n <= 64 -> num_all_set x = (magn x =? 2 ^ n - 1).
Proof. exact all_num. Qed.
Print Assumptions C99_all_partial.
Theorem C99_all_multi_refuted : forall x n s, is_num x n s -> 65 <= n -> num_all_set x = false.
Proof. exact all_multi. Qed.
Print Assumptions C99_all_multi_refuted.
Theorem C99_one_partial : forall x n s, is_num x n s -> inwidth x -> visible (magn x / 2 ^ 64) ->
  num_is_one x = (magn x =? 1) /\ num_fit_in_64 x = (magn x <? 2 ^ 64).
Proof. exact one_num. Qed.
Print Assumptions C99_one_partial.
Theorem C99_highest_partial : forall x n s, is_num x n s -> inwidth x -> magn x <> 0 -> num_highest_bit x = Z.log2 (magn x).
Proof. exact high_num. Qed.
Print Assumptions C99_highest_partial.
Theorem C99_negative : forall x n, is_num x n true -> inwidth x -> num_negative x = Ok (ival x <? 0).
Proof. exact negative_num. Qed.
Print Assumptions C99_negative.
Theorem C99_negative_rejected : forall x n, is_num x n false -> num_negative x = IllFormed.
Proof. exact negative_bad. Qed.
Print Assumptions C99_negative_rejected.
Theorem C99_to_uint64 : forall x n s, is_num x n s -> inwidth x -> num_to_uint64 x = magn x mod 2 ^ 64.
Proof. exact to_u64_magn. Qed.
Print Assumptions C99_to_uint64.
(** members that can never be instantiated: popcount, |=, comparisons > >= <= with native numbers, power *)
Theorem C99_rejected : forall x y v ts, num_popcount x = IllFormed /\ num_or_assign x y = IllFormed /\ num_gt_t x v = IllFormed /\ num_ge_t x v = IllFormed /\
  num_le_t x v = IllFormed /\ num_power x y ts = IllFormed.
Proof. exact rejected_members. Qed.
Print Assumptions C99_rejected.
Example C99_ex : is_num n40 40 false /\ inwidth n40 /\ magn n40 <> 0 /\ is_num i70 70 true /\ inwidth i70.
Proof. cnum. Qed.

(** C100: construction and conversion *)
Theorem C100_default : forall n s, 1 <= n < 2 ^ 32 -> is_num (num_zero n s) n s /\ inwidth (num_zero n s) /\ magn (num_zero n s) = 0.
Proof. exact zero_num. Qed.
Print Assumptions C100_default.
Theorem C100_clear : forall x n s, is_num x n s -> is_num (num_clear x) n s /\ inwidth (num_clear x) /\ magn (num_clear x) = 0.
Proof. exact clear_num. Qed.
Print Assumptions C100_clear.
Theorem C100_convert : forall x n s t, is_num x n s -> is_num (num_convert x t) n t /\ is_num (num_to_signed x) n true /\
  (forall p, pos (num_convert x t) p = pos x p) /\ (forall p, pos (num_to_signed x) p = pos x p) /\
  (inwidth x -> inwidth (num_convert x t)) /\ num_plus x = x.
Proof. exact convert_num. Qed.
Print Assumptions C100_convert.
(** a negative native number in an unsigned object is extended with zeros above 64 positions *)
Theorem C100_native_refuted : magn (num_of_native 128 false (-1)) <> (-1) mod 2 ^ 128.
Proof. exact of_native_counter. Qed.
Print Assumptions C100_native_refuted.
(** Missing: negative numbers in unsigned objects (false for multi-word ones). *)
Theorem C100_native_partial : forall n s v, 1 <= n < 2 ^ 32 -> - 2 ^ 63 <= v < 2 ^ 64 -> (s = true \/ 0 <= v) ->
  is_num (num_of_native n s v) n s /\ magn (num_of_native n s v) = v mod 2 ^ n.
Proof. exact of_native_num. Qed.
Print Assumptions C100_native_partial.
(** a text shorter than the number leaves the upper words as they were in memory *)
Theorem C100_text_refuted : exists x y, num_of_str 128 false [0; 0] (literal [] [] 104 [49]) = Ok x /\ num_of_str 128 false [0; 7] (literal [] [] 104 [49]) = Ok y /\
  magn x = 1 /\ magn y <> 1.
Proof. exact of_str_counter. Qed.
Print Assumptions C100_text_refuted.
(** a binary or hexadecimal text that reaches into the top word is read right whatever the memory held.
    Missing: shorter texts (false), underscores, other bases. *)
Theorem C100_text_partial : forall n sg mem pre size base k s, 65 <= n < 2 ^ 31 -> prefix_ok pre size -> pow2_base base k -> k <> 3 -> digits_ok k s -> no_underscore s ->
  Z.of_nat (List.length mem) = (n + 63) / 64 -> (n + 63) / 64 * 64 - 64 < k * len s ->
  exists x, num_of_str n sg mem (literal pre size base s) = Ok x /\ is_num x n sg /\ (forall p, 0 <= p < n -> pos x p = sym_val (text_sym k s p)) /\
    (k * len s <= n -> inwidth x).
Proof. exact of_str_num. Qed.
Print Assumptions C100_text_partial.
Example C100_ex : Z.of_nat (List.length [3; 9]) = (70 + 63) / 64 /\ (70 + 63) / 64 * 64 - 64 < 4 * len [65; 66; 48; 49; 50; 51; 52; 53; 54; 55; 56; 57; 65; 66; 67; 68; 69].
Proof. cnum. Qed.
