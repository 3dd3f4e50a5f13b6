(** Exactly when write sequences, counters, updates, fields and the members of [big_num] behave as promised (compare [PropsIff.v]),
    and the reference machine of [big_num] (C143). *)
From Coq Require Import ZArith List Bool Lia.
From Verif Require Import Cpp BigNum Bit Logic More Rest Client Client4 Program BigObj Spec SpecBig SpecExact SpecMachine SpecWide SpecBigRef SpecIff SpecIff2 SpecIff3 BitExt BitMain BitMain2 LogicMain TextMain Iff15 BigObjProofs BigRef Iff8 Iff16 Iff17 PropsBig.
Import ListNotations.
Open Scope Z_scope.

(** C72: any sequence of symbol and range writes to a 4-state vector leaves every position as the last write to it, iff no source has an x or z beyond position 63 to be copied; otherwise undefined *)
Theorem C72_exact : forall n s ws l, 1 <= n -> ltyped l n s -> Forall (in_place n) ws ->
  ((exists r, ofold run4 ws l = Ok r /\ forall p, 0 <= p < n -> last_write covers4 puts4 ws p (sym_at l p) (sym_at r p)) <-> ~ Exists lost4 ws) /\
  (ofold run4 ws l = UB <-> Exists lost4 ws).
Proof. exact writes4_iff. Qed.
Print Assumptions C72_exact.
Example C72_exact_ex : ltyped (v4 8 90 15) 8 false /\ Forall (in_place 8) [Set4 3 SX; Range4 6 2 (v4 5 9 4)] /\ ~ Exists lost4 [Set4 3 SX; Range4 6 2 (v4 5 9 4)] /\ lost4 (Range4 69 0 (lbig 70 false [5; 3] [0; 1])).
Proof. split; [conc|]. split; [repeat constructor; try lia; conc|]. split; [|exists 64; conc]. intros H. inversion H as [? ? A|? ? A]; [exact A|]. inversion A as [? ? B|? ? B]; [|inversion B]. destruct B as (q & B & _). change (lw (v4 5 9 4)) with 5 in B. lia. Qed.

(** C74: k steps of ++ or -- on a 4-state vector of at least 2 positions: all x as soon as the library notices an x or z, otherwise k is added modulo the width *)
Theorem C74_exact : forall n s k, forall up : bool, 2 <= n -> forall a, ltyped a n s -> tidy (l_xz a) -> k <> 0%nat ->
  exists r, ofold (fun x (_ : unit) => if up then logic_inc x else logic_dec x) (repeat tt k) a = Ok r /\ ltyped r n s /\
    (noticed a -> all_x r) /\
    (~ noticed a -> known r /\ num (l_val r) = (num (l_val a) + (if up then 1 else -1) * Z.of_nat k) mod 2 ^ n).
Proof. exact counted4. Qed.
Print Assumptions C74_exact.
Example C74_exact_ex : ltyped (v4 8 250 0) 8 false /\ tidy (l_xz (v4 8 250 0)) /\ ~ noticed (v4 8 250 0) /\ noticed (v4 8 90 15).
Proof. do 2 (split; [conc|]). split; [intros (p & A & B & _); revert B; assert (C : In p (zrange 0 8)) by (apply ZBits.in_zrange; exact A); clear A; vm_compute in C; intuition subst; discriminate|]. exists 0. split; [conc|]. split; [conc|]. left; vm_compute; discriminate. Qed.

(** C86: a slice updated is read back *)
Theorem C86_exact : forall x n v a b, 1 <= n -> ltyped x n false -> ltidy x -> 0 <= a < n -> 0 <= b < n -> ltyped v (Z.abs (a - b) + 1) false ->
  ((exists r, logic_update_r x a b v = Ok r /\ forall c d, 0 <= c < n -> 0 <= d < n -> (n <= 64 \/ Z.abs (c - d) + 1 <> 65) ->
      exists s, logic_slice_c r c d = Ok s /\
      (Z.min a b <= c <= Z.max a b -> Z.min a b <= d <= Z.max a b -> logic_slice_c v (c - Z.min a b) (d - Z.min a b) = Ok s) /\
      (Z.max c d < Z.min a b \/ Z.max a b < Z.min c d -> logic_slice_c x c d = Ok s)) <-> ~ lost v (Z.abs (a - b) + 1)) /\
  (logic_update_r x a b v = UB <-> lost v (Z.abs (a - b) + 1)).
Proof. exact update_read_iff. Qed.
Print Assumptions C86_exact.
(** two updates of the same slice leave the second *)
Theorem C86_two_writes_exact : forall x n v w a b c d, 1 <= n -> ltyped x n false -> ltidy x -> 0 <= a < n -> 0 <= b < n -> 0 <= c < n -> 0 <= d < n ->
  ltyped v (Z.abs (a - b) + 1) false -> ltyped w (Z.abs (c - d) + 1) false ->
  (exists r s u t, logic_update_r x a b v = Ok r /\ logic_update_r r c d w = Ok s /\ logic_update_r x c d w = Ok u /\ logic_update_r u a b v = Ok t /\
    (Z.max c d < Z.min a b \/ Z.max a b < Z.min c d -> s = t) /\
    (Z.min c d <= Z.min a b -> Z.max a b <= Z.max c d -> s = u)) <-> ~ lost v (Z.abs (a - b) + 1) /\ ~ lost w (Z.abs (c - d) + 1).
Proof. exact two_writes_iff. Qed.
Print Assumptions C86_two_writes_exact.
(** C88: writes to the fields of a packed 4-state structure *)
Theorem C88_exact : forall n fs s ws, 1 <= n -> ltyped s n false -> ltidy s -> Forall (field_ok n) fs ->
  (forall f g, In f fs -> In g fs -> f = g \/ apart f g) -> Forall (field_value fs) ws ->
  ((exists r, run_fields s ws = Ok r /\ forall f, In f fs ->
    (forall pre v post, ws = pre ++ (f, v) :: post -> (forall v', ~ In (f, v') post) -> field_read r (f_hi f) (f_lo f) = Ok v) /\
    ((forall v, ~ In (f, v) ws) -> field_read r (f_hi f) (f_lo f) = field_read s (f_hi f) (f_lo f))) <->
   ~ Exists (fun w => lost (snd w) (f_width (fst w))) ws) /\
  (run_fields s ws = UB <-> Exists (fun w => lost (snd w) (f_width (fst w))) ws).
Proof. exact fields_iff. Qed.
Print Assumptions C88_exact.
Example C86_exact_ex : ltyped (lbig 100 false [5; 3] [0; 1]) 100 false /\ ltidy (lbig 100 false [5; 3] [0; 1]) /\ ltyped (v4 8 90 15) (Z.abs (70 - 63) + 1) false /\ ~ lost (v4 8 90 15) (Z.abs (70 - 63) + 1) /\
  ltyped (lbig 70 false [5; 3] [0; 1]) (Z.abs (20 - 89) + 1) false /\ lost (lbig 70 false [5; 3] [0; 1]) (Z.abs (20 - 89) + 1).
Proof. do 3 (split; [conc|]). split; [intros (q & Q & _); cbn in Q; lia|]. split; [conc|]. exists 64. conc. Qed.

Example C88_exact_ex : Forall (field_ok 100) [mkField 99 30; mkField 7 0] /\ apart (mkField 99 30) (mkField 7 0) /\ Forall (field_value [mkField 99 30; mkField 7 0]) [(mkField 7 0, v4 8 90 15); (mkField 99 30, lbig 70 false [5; 3] [0; 0])].
Proof. split; [repeat constructor; cbn; lia|]. split; [unfold apart; cbn; lia|]. constructor; [split; [right; left; reflexivity|split; conc]|]. constructor; [split; [left; reflexivity|split; conc]|]. constructor. Qed.

(** C94: widening a big_num *)
Theorem C94_extend_exact : forall x n s m, is_num x n s -> inwidth x -> n <= m -> (exists r, num_extend x m = Ok r /\ magn r = ival x mod 2 ^ m) <-> widens x m s.
Proof. exact num_extend_iff. Qed.
Print Assumptions C94_extend_exact.
(** C95: &, | and ^ of big_nums.  An operand that is widened wrongly gets ones above its size. *)
Theorem C95_exact : forall x y n s m t, is_num x n s -> is_num y m t -> inwidth x -> inwidth y ->
  let M := Z.max n m in
  ((exists r, num_and x y = Ok r /\ magn r = Z.land (oper x (s && t)) (oper y (s && t)) mod 2 ^ M) <->
     (~ widens x M (s && t) -> magn y < 2 ^ n) /\ (~ widens y M (s && t) -> magn x < 2 ^ m)) /\
  ((exists r, num_or x y = Ok r /\ magn r = Z.lor (oper x (s && t)) (oper y (s && t)) mod 2 ^ M) <->
     (~ widens x M (s && t) -> 2 ^ M - 2 ^ n <= magn y) /\ (~ widens y M (s && t) -> 2 ^ M - 2 ^ m <= magn x)) /\
  ((exists r, num_xor x y = Ok r /\ magn r = Z.lxor (oper x (s && t)) (oper y (s && t)) mod 2 ^ M) <-> widens x M (s && t) /\ widens y M (s && t)).
Proof. exact num_bitwise_iff. Qed.
Print Assumptions C95_exact.
(** C97: ==, != and >= of big_nums that are not both signed *)
Theorem C97_exact : forall x y n s m t, is_num x n s -> is_num y m t -> inwidth x -> inwidth y -> s && t = false ->
  (num_eq x y = Ok (magn x =? magn y) <-> magn x = magn y \/ ~ num_confused x y) /\ (num_ne x y = Ok (negb (magn x =? magn y)) <-> magn x = magn y \/ ~ num_confused x y) /\
  (num_ge x y = Ok (magn y <=? magn x) <-> magn y <= magn x \/ ~ num_confused x y).
Proof. exact num_eq_iff. Qed.
Print Assumptions C97_exact.
(** == of signed big_nums *)
Theorem C97_signed_eq_exact : forall x y n m, is_num x n true -> is_num y m true -> inwidth x -> inwidth y -> n < m ->
  num_eq x y = Ok (ival x =? ival y) <-> (0 <= ival x -> ival y <> ival x /\ ival y <> ival x - 2 ^ n).
Proof. exact num_eq_signed_iff. Qed.
Print Assumptions C97_signed_eq_exact.
(** > of signed big_nums; two smallest numbers are compared forever *)
Theorem C97_signed_exact : forall x y n m, is_num x n true -> is_num y m true -> inwidth x -> inwidth y ->
  (num_gt x y = Ok (ival y <? ival x) <->
    0 <= ival x \/ 0 <= ival y \/ (num_least x /\ ~ num_least y /\ ival y < ival x) \/ (~ num_least x /\ num_least y /\ ival x <= ival y) \/
    (~ num_least x /\ ~ num_least y /\ (num_magnitude x < num_magnitude y <-> ival y < ival x))) /\
  (num_gt x y = Fuel <-> num_least x /\ num_least y).
Proof. exact num_gt_signed_iff. Qed.
Print Assumptions C97_signed_exact.
(** C98: + and - of big_nums *)
Theorem C98_exact : forall x y n s m t, is_num x n s -> is_num y m t -> inwidth x -> inwidth y ->
  let M := Z.max n m in
  ((exists r, num_add x y = Ok r /\ magn r = (oper x (s && t) + oper y (s && t)) mod 2 ^ M) <-> widens x M (s && t) /\ widens y M (s && t)) /\
  ((exists r, num_sub x y = Ok r /\ magn r = (oper x (s && t) - oper y (s && t)) mod 2 ^ M) <-> widens x M (s && t) /\ widens y M (s && t)).
Proof. exact num_sum_iff. Qed.
Print Assumptions C98_exact.
(** products of big_nums, for operands that are widened correctly *)
Theorem C98_mul_exact : forall x y n s m t, is_num x n s -> is_num y m t -> inwidth x -> inwidth y -> n < 2 ^ 31 -> m < 2 ^ 31 ->
  let M := Z.max n m in widens x M (s && t) -> widens y M (s && t) ->
  ((exists r, num_mul x y = Ok r /\ magn r = (oper x (s && t) * oper y (s && t)) mod 2 ^ M) <-> 65 <= M /\ multiplies_right M (opnd x M (s && t)) (opnd y M (s && t))).
Proof. exact num_mul_iff. Qed.
Print Assumptions C98_mul_exact.
(** quotients and remainders of unsigned big_nums *)
Theorem C98_div_exact : forall x y n m t, is_num x n false -> is_num y m t -> inwidth x -> inwidth y -> n < 2 ^ 31 -> m < 2 ^ 31 -> widens y (Z.max n m) false ->
  (exists q r, num_div x y = Ok q /\ num_rem x y = Ok r /\ magn x = magn q * magn y + magn r /\ magn r < magn y) <-> num_divides (magn x) (magn y).
Proof. exact num_div_iff. Qed.
Print Assumptions C98_div_exact.
(** C99: any_set, fit_in_64, is_one, all_set and the highest set bit *)
Theorem C99_exact : forall x n s, is_num x n s -> inwidth x ->
  (num_any_set x = negb (magn x =? 0) <-> magn x = 0 \/ ~ hollow (magn x)) /\
  (num_fit_in_64 x = (magn x <? 2 ^ 64) <-> magn x < 2 ^ 64 \/ ~ hollow (magn x / 2 ^ 64)) /\
  (num_is_one x = (magn x =? 1) <-> magn x = 1 \/ magn x mod 2 ^ 64 <> 1 \/ ~ hollow (magn x / 2 ^ 64)) /\
  (num_all_set x = (magn x =? 2 ^ n - 1) <-> n <= 64 \/ magn x <> 2 ^ n - 1) /\
  (num_highest_bit x = Z.log2 (magn x) <-> magn x <> 0).
Proof. exact num_queries_iff. Qed.
Print Assumptions C99_exact.
Example C97_exact_ex : is_num n70 70 false /\ is_num n128 128 false /\ inwidth n70 /\ inwidth n128 /\ is_num i70 70 true /\ inwidth i70 /\ ival i70 < 0 /\ is_num i128 128 true /\ inwidth i128 /\ 0 <= ival i128 /\
  num_confused (mkNum 128 false [77; 2 ^ 40]) (mkNum 40 false [77]) /\ magn (mkNum 128 false [77; 2 ^ 40]) <> 77.
Proof. do 10 (split; [cnum|]). split; [|cnum]. split; [reflexivity|]. split; [|exact hollow_0]. intros p Hp Q. change (Z.testbit (2 ^ 40) p = false). rewrite Z.pow2_bits_eqb by lia. apply Z.eqb_neq. intros <-. cbn in Q. lia. Qed.

Example C98_exact_ex : widens n70 128 false /\ widens n128 128 false /\ ~ widens i128 200 true /\ opnd n70 128 false = 5 * 2 ^ 64 + 2 ^ 63 + 9 /\ multiplies_right 200 3 5 /\ num_divides 10 3.
Proof. split; [right; split; cnum|]. split; [left; reflexivity|]. split; [intros [A|[_ A]]; [discriminate A|revert A; vm_compute; discriminate]|]. split; [reflexivity|]. split; [left; split; [exact hollow_0|]; split; [exact hollow_0|reflexivity]|].
  split; [lia|]. intros _. split; [intros H; specialize (H 0 ltac:(lia) ltac:(reflexivity)); discriminate H|]. split; [intros _ H; discriminate H|]. intros _ _ _ _. reflexivity. Qed.

(** C143: every member of [big_num] computes what the reference machine of SpecBigRef.v computes, for every size, signedness and contents (also above the declared positions) *)
Theorem C143_bitwise_and_sums : forall x y n s m t, is_num x n s -> is_num y m t ->
  num_and x y = ref_and x y /\ num_or x y = ref_or x y /\ num_xor x y = ref_xor x y /\
  num_and_assign x y = ref_assign (ref_and x y) x y /\ num_xor_assign x y = ref_assign (ref_xor x y) x y /\
  num_add x y = ref_add x y /\ num_sub x y = ref_sub x y.
Proof. exact ref_two. Qed.
Print Assumptions C143_bitwise_and_sums.
Theorem C143_products : forall x y n s m t, is_num x n s -> is_num y m t -> n < 2 ^ 31 -> m < 2 ^ 31 ->
  num_mul x y = ref_mul x y /\ num_div x y = ref_div x y /\ num_rem x y = ref_rem x y.
Proof. exact ref_product. Qed.
Print Assumptions C143_products.
Theorem C143_comparisons : forall x y n s m t, is_num x n s -> is_num y m t ->
  num_eq x y = ref_eq x y /\ num_ne x y = omap negb (ref_eq x y) /\ num_gt x y = ref_gt x y /\ num_lt x y = ref_gt y x /\ num_ge x y = ref_ge x y /\ num_le x y = ref_ge y x.
Proof. exact ref_compare. Qed.
Print Assumptions C143_comparisons.
Theorem C143_shifts : forall x k n s m t, is_num x n s -> is_num k m t ->
  (forall j, 0 <= j -> num_shl x j = ref_shl x s j /\ num_shr x j = ref_shr x s j /\ num_ashr x j = ref_ashr x s j /\ num_ashl x j = ref_shl x s j) /\
  num_shl_n x k = ref_shl x (s && t) (raw k) /\ num_shr_n x k = ref_shr x (s && t) (raw k) /\ num_ashr_n x k = ref_ashr x (s && t) (raw k) /\ num_ashl_n x k = ref_shl x (s && t) (raw k).
Proof. exact ref_shift. Qed.
Print Assumptions C143_shifts.
Theorem C143_one_operand : forall x n s, is_num x n s ->
  num_not x = ref_not x /\ num_negate x = ref_negate x /\ num_mask_off x = ref_mask_off x /\ (forall m, 1 <= m -> num_extend x m = ref_extend x m) /\
  (forall i v, 0 <= i -> num_set x i v = ref_set x i v) /\ num_any_set x = ref_any x /\ num_fit_in_64 x = seems_small n (raw x) /\ num_is_one x = ref_one x /\
  num_all_set x = ref_all x /\ num_highest_bit x = ref_highest x.
Proof. exact ref_one_operand. Qed.
Print Assumptions C143_one_operand.
Example C143_ex : is_num (mkNum 70 true [u64max - 4; 2 ^ 40 + 63]) 70 true /\ ~ inwidth (mkNum 70 true [u64max - 4; 2 ^ 40 + 63]) /\ is_num n128 128 false /\ is_num n40 40 false /\
  ref_sub n70 n128 = Ok (num_obj 128 false (raw n70 - raw n128)) /\ raw (again n40 12345) = 12345.
Proof. split; [cnum|]. split; [vm_compute; discriminate|]. split; [cnum|]. split; [cnum|]. split; reflexivity. Qed.

