(** Properties of the members modelled in Rest.v: negate, comparison of 4-state with 2-state vectors, change of bounds, indexing by a
    vector, copying, construction from numbers, packed array constructors, field width prefix. *)
From Coq Require Import ZArith List Bool String.
From Verif Require Import Cpp BigNum Bit Logic Arr Util Rest BigObj Spec SpecArr SpecBig SpecText BitMain BigObjProofs RestProofs RestProofs2.
Import ListNotations.
Open Scope Z_scope.

Definition m8 := bit_of_native 7 0 true (-5).
Definition m32 := bit_of_native 31 0 true (- 2 ^ 31).
Definition u6 := bit_of_native 5 0 false 44.
Definition l6 := mkLogic (bit_of_native 5 0 false 44) (bit_of_native 5 0 false 0).
Definition x6 := mkLogic (bit_of_native 5 0 false 44) (bit_of_native 5 0 false 9).

(** C110: [negate()] replaces a vector by its two's complement *)
Theorem C110_negate : forall b n s, 1 <= n <= 64 -> typed b n s -> tidy b -> ~ (s = true /\ (n = 32 \/ n = 64) /\ snum b = - 2 ^ (n - 1)) ->
  exists r, bit_negate_in b = Ok r /\ typed r n s /\ num r = (- num b) mod 2 ^ n /\ (s = false -> tidy r).
Proof. exact negate_in_tidy. Qed.
Print Assumptions C110_negate.
(** the smallest 32- or 64-bit number has no negation, and computing it is undefined behaviour *)
Theorem C110_undefined : forall b n, n = 32 \/ n = 64 -> typed b n true -> tidy b -> snum b = - 2 ^ (n - 1) -> bit_negate_in b = UB.
Proof. exact negate_in_min. Qed.
Print Assumptions C110_undefined.
(** the same number as unary minus, for every vector, defined in the same cases *)
Theorem C110_minus : forall b, vec b -> bit_negate_in b = omap bit_mask_off (bit_neg b).
Proof. exact negate_in_neg. Qed.
Print Assumptions C110_minus.
Theorem C110_rejected : forall b, vec b -> 65 <= bw b -> bit_negate_in b = IllFormed.
Proof. exact negate_in_big. Qed.
Print Assumptions C110_rejected.
Example C110_ex : typed m8 8 true /\ tidy m8 /\ (exists r, bit_negate_in m8 = Ok r /\ num r = 5) /\ typed m32 32 true /\ tidy m32 /\ snum m32 = - 2 ^ 31.
Proof. split; [conc|]. split; [conc|]. split; [eexists; split; reflexivity|]. conc. Qed.

(** C111: an unsigned logic and a signed bit with the same positions can compare different *)
Theorem C111_refuted : exists a b r, ltyped a 5 false /\ typed b 5 true /\ ltidy a /\ tidy b /\ known a /\ num (l_val a) = num b /\
  logic_cmp_bit logic_eq a b = Ok r /\ sym_at r 0 = S0.
Proof. exact cmp_bit_counter. Qed.
Print Assumptions C111_refuted.
(** Missing: a signed bit operand of an unsigned vector (false by [C111_refuted]); multi-word signed vectors; vectors whose x and z
    positions the library does not see (false, C35). *)
Theorem C111_compare_partial : forall a b n s, 1 <= n -> ltyped a n s -> typed b n s -> ltidy a -> tidy b -> seen a -> (s = true -> 2 <= n <= 64) ->
  forall lop (z : Z -> Z -> bool), In (lop, z) [(logic_eq, Z.eqb); (logic_ne, fun x y => negb (x =? y)); (logic_lt, Z.ltb); (logic_gt, Z.gtb); (logic_le, Z.leb); (logic_ge, Z.geb)] ->
  exists r, logic_cmp_bit lop a b = Ok r /\ ltyped r 1 false /\
    (~ known a -> sym_at r 0 = SX) /\ (known a -> sym_at r 0 = sym_of_bool (z (value (l_val a)) (value b))).
Proof. exact cmp_bit_spec. Qed.
Print Assumptions C111_compare_partial.
Theorem C111_match_partial : forall a b n s, 1 <= n -> ltyped a n s -> typed b n s -> ltidy a -> tidy b -> (s = true -> 2 <= n <= 64) ->
  exists c, logic_match_bit a b = Ok c /\ logic_nmatch_bit a b = Ok (negb c) /\
    (c = true <-> forall p, 0 <= p < n -> sym_at a p = sym_of_bool (bit_at b p)).
Proof. exact match_bit_spec. Qed.
Print Assumptions C111_match_partial.
Theorem C111_rejected : forall a b op, bmsb b <> lmsb a \/ blsb b <> llsb a \/ (bsgn b = false /\ lsgn a = true) ->
  logic_cmp_bit op a b = IllFormed /\ logic_match_bit a b = IllFormed /\ logic_nmatch_bit a b = IllFormed.
Proof. exact cmp_bit_rejected. Qed.
Print Assumptions C111_rejected.
Example C111_ex : ltyped l6 6 false /\ ltyped x6 6 false /\ typed u6 6 false /\ ltidy l6 /\ ltidy x6 /\ tidy u6 /\ seen l6 /\ seen x6 /\
  logic_match_bit l6 u6 = Ok true /\ logic_match_bit x6 u6 = Ok false.
Proof. split; [conc|]. split; [conc|]. split; [conc|]. split; [conc|]. split; [conc|]. split; [conc|]. split; [left; vm_compute; discriminate|]. split; [left; vm_compute; discriminate|]. split; reflexivity. Qed.

(** C112: the constructor that is meant to change the declared bounds compiles for no other bounds *)
Theorem C112_rejected : forall msb lsb s l, lvec l -> lmsb l <> msb \/ llsb l <> lsb -> logic_rebound msb lsb s l = IllFormed.
Proof. exact rebound_rejected. Qed.
Print Assumptions C112_rejected.
Theorem C112_same : forall l, logic_rebound (lmsb l) (llsb l) (lsgn l) l = Ok l.
Proof. exact rebound_same. Qed.
Print Assumptions C112_same.
Example C112_ex : lvec l6 /\ lmsb l6 <> 6.
Proof. conc. Qed.

(** C113: an index of 2^32 reads position 0; in a range [5:2] index 2 reads x *)
Theorem C113_refuted : (exists l op r, ltyped l 8 false /\ typed op 64 false /\ tidy op /\ value op = 2 ^ 32 /\ logic_get_at l op = Ok r /\ sym_at r 0 = S1) /\
  (exists l op r, lvec l /\ lmsb l = 5 /\ llsb l = 2 /\ typed op 8 false /\ tidy op /\ value op = 2 /\ sym_at l (place 5 2 2) = S1 /\ logic_get_at l op = Ok r /\ sym_at r 0 = SX).
Proof. exact get_at_counter. Qed.
Print Assumptions C113_refuted.
(** Missing: ranges that do not start at 0 and indices of 2^32 and more (both false). *)
Theorem C113_partial : forall l op, lvec l -> Z.min (lmsb l) (llsb l) = 0 -> lw l <= 64 -> vec op -> bw op <= 64 -> tidy op -> (bsgn op = true -> 2 <= bw op) ->
  - 2 ^ 31 <= value op < 2 ^ 32 ->
  exists r, logic_get_at l op = Ok r /\ ltyped r 1 false /\
    (in_range (lmsb l) (llsb l) (value op) -> sym_at r 0 = sym_at l (place (lmsb l) (llsb l) (value op))) /\
    (~ in_range (lmsb l) (llsb l) (value op) -> sym_at r 0 = SX).
Proof. exact get_at_spec. Qed.
Print Assumptions C113_partial.
Theorem C113_rejected : forall l op, lvec l -> vec op -> 65 <= lw l \/ 65 <= bw op -> logic_get_at l op = IllFormed.
Proof. exact get_at_rejected. Qed.
Print Assumptions C113_rejected.
Example C113_ex : lvec x6 /\ Z.min (lmsb x6) (llsb x6) = 0 /\ lw x6 <= 64 /\ vec u6 /\ bw u6 <= 64 /\ tidy u6 /\ value (bit_of_native 5 0 false 3) = 3 /\
  (exists r, logic_get_at x6 (bit_of_native 5 0 false 3) = Ok r /\ sym_at r 0 = SZ) /\ (exists r, logic_get_at x6 u6 = Ok r /\ sym_at r 0 = SX).
Proof. split; [conc|]. split; [conc|]. split; [conc|]. split; [conc|]. split; [conc|]. split; [conc|]. split; [reflexivity|]. split; eexists; split; reflexivity. Qed.

(** C114 *)
Theorem C114_copy : forall dst src start e, vec dst -> vec src -> Z.min (bmsb dst) (blsb dst) = 0 -> Z.min (bmsb src) (blsb src) = 0 ->
  0 <= start <= e -> in_range (bmsb src) (blsb src) e -> in_range (bmsb dst) (blsb dst) (e - start) ->
  exists r, bit_copy dst src start e = Ok r /\ vec r /\ bmsb r = bmsb dst /\ blsb r = blsb dst /\ bsgn r = bsgn dst /\ (bsgn dst = false -> tidy dst -> tidy r) /\
    forall i, in_range (bmsb dst) (blsb dst) i -> bit_at r (place (bmsb dst) (blsb dst) i) =
      if i <=? e - start then bit_at src (place (bmsb src) (blsb src) (start + i)) else bit_at dst (place (bmsb dst) (blsb dst) i).
Proof. exact copy_spec2. Qed.
Print Assumptions C114_copy.
(** an x or z at an index of 64 and more cannot be read (C03) *)
Theorem C114_copy_logic : forall dst src start e, lvec dst -> lvec src -> Z.min (lmsb dst) (llsb dst) = 0 -> Z.min (lmsb src) (llsb src) = 0 ->
  0 <= start <= e -> in_range (lmsb src) (llsb src) e -> in_range (lmsb dst) (llsb dst) (e - start) ->
  (forall i, start <= i <= e -> 64 <= i -> unknown (sym_at src (place (lmsb src) (llsb src) i)) = false) ->
  exists r, logic_copy dst src start e = Ok r /\ lvec r /\ lmsb r = lmsb dst /\ llsb r = llsb dst /\ lsgn r = lsgn dst /\ (lsgn dst = false -> ltidy dst -> ltidy r) /\
    forall i, in_range (lmsb dst) (llsb dst) i -> sym_at r (place (lmsb dst) (llsb dst) i) =
      if i <=? e - start then sym_at src (place (lmsb src) (llsb src) (start + i)) else sym_at dst (place (lmsb dst) (llsb dst) i).
Proof. exact copy_spec4. Qed.
Print Assumptions C114_copy_logic.
(** a range given the wrong way round never completes *)
Theorem C114_reversed : forall dst src start e r, 0 <= e < start -> start < 2 ^ 63 -> bit_copy dst src start e <> Ok r.
Proof. exact copy_reversed_bit. Qed.
Print Assumptions C114_reversed.
Example C114_ex : vec m8 /\ vec u6 /\ Z.min (bmsb m8) (blsb m8) = 0 /\ Z.min (bmsb u6) (blsb u6) = 0 /\ in_range (bmsb u6) (blsb u6) 5 /\ in_range (bmsb m8) (blsb m8) (5 - 2) /\
  (exists r, bit_copy m8 u6 2 5 = Ok r /\ num r = 16 * 15 + 11) /\ lvec l6 /\ lvec x6 /\ (exists r, logic_copy l6 x6 3 5 = Ok r /\ sym_at r 0 = SZ /\ sym_at r 3 = S1).
Proof. split; [conc|]. split; [conc|]. split; [conc|]. split; [conc|]. split; [conc|]. split; [conc|]. split; [eexists; split; reflexivity|]. split; [conc|]. split; [conc|]. eexists; split; [reflexivity|]. split; reflexivity. Qed.

(** C115: a one-position vector built from a [big_num] holding 2 is 1 *)
Theorem C115_refuted : exists x, is_num x 70 false /\ raw x mod 2 ^ 1 = 0 /\ exists r, bit_of_big 0 0 false (n_ws x) = Ok r /\ num r = 1.
Proof. exact of_big_counter. Qed.
Print Assumptions C115_refuted.
(** Missing: one-position vectors (see [C115_one]). *)
Theorem C115_partial : forall msb lsb s x m t, int_ok msb -> int_ok lsb -> 2 <= width msb lsb <= 64 -> is_num x m t ->
  exists r, bit_of_big msb lsb s (n_ws x) = Ok r /\ vec r /\ bmsb r = msb /\ blsb r = lsb /\ bsgn r = s /\ num r = raw x mod 2 ^ width msb lsb.
Proof. exact of_big_spec. Qed.
Print Assumptions C115_partial.
Theorem C115_one : forall msb s x m t, int_ok msb -> is_num x m t ->
  exists r, bit_of_big msb msb s (n_ws x) = Ok r /\ vec r /\ num r = if raw x mod 2 ^ 64 =? 0 then 0 else 1.
Proof. exact of_big_one. Qed.
Print Assumptions C115_one.
Theorem C115_rejected : forall msb lsb s ws, 65 <= width msb lsb -> bit_of_big msb lsb s ws = IllFormed.
Proof. exact of_big_rejected. Qed.
Print Assumptions C115_rejected.
Example C115_ex : is_num (num_of_native 128 true (-2)) 128 true /\ (exists r, bit_of_big 5 0 false (n_ws (num_of_native 128 true (-2))) = Ok r /\ num r = 62).
Proof. split; [cnum|]. eexists. split; reflexivity. Qed.

(** C116: one position takes 2 as 1; an unsigned 128-bit vector takes -1 as 2^64-1 *)
Theorem C116_refuted : num (bit_of_arith 0 0 false 2) = 1 /\ num (bit_of_arith 127 0 false (-1)) = 2 ^ 64 - 1 /\ (-1) mod 2 ^ 128 = 2 ^ 128 - 1.
Proof. exact of_arith_counter. Qed.
Print Assumptions C116_refuted.
(** Missing: other numbers in one position ([C116_one]), negative numbers in unsigned multi-word vectors ([C116_negative]). *)
Theorem C116_bit_partial : forall msb lsb s v, int_ok msb -> int_ok lsb -> width msb lsb < 2 ^ 31 -> - 2 ^ 63 <= v < 2 ^ 64 ->
  (width msb lsb = 1 -> 0 <= v <= 1) -> (65 <= width msb lsb -> s = true \/ 0 <= v) ->
  let b := bit_of_arith msb lsb s v in vec b /\ bmsb b = msb /\ blsb b = lsb /\ bsgn b = s /\ num b = v mod 2 ^ width msb lsb.
Proof. exact of_arith_spec. Qed.
Print Assumptions C116_bit_partial.
Theorem C116_one : forall msb s v, int_ok msb -> num (bit_of_arith msb msb s v) = if v =? 0 then 0 else 1.
Proof. exact of_arith_one. Qed.
Print Assumptions C116_one.
Theorem C116_negative : forall msb lsb v, 65 <= width msb lsb < 2 ^ 31 -> num (bit_of_arith msb lsb false v) = v mod 2 ^ 64.
Proof. exact of_arith_unsigned. Qed.
Print Assumptions C116_negative.
(** a number the type can represent is represented *)
Theorem C116_value : forall msb lsb (s : bool) v, int_ok msb -> int_ok lsb -> 2 <= width msb lsb < 2 ^ 31 -> - 2 ^ 63 <= v < 2 ^ 64 ->
  (if s then - 2 ^ (width msb lsb - 1) <= v < 2 ^ (width msb lsb - 1) else 0 <= v < 2 ^ width msb lsb) -> value (bit_of_arith msb lsb s v) = v.
Proof. exact of_arith_value. Qed.
Print Assumptions C116_value.
Theorem C116_logic_partial : forall msb lsb s v, int_ok msb -> int_ok lsb -> width msb lsb < 2 ^ 31 -> - 2 ^ 63 <= v < 2 ^ 64 ->
  (width msb lsb = 1 -> 0 <= v <= 1) -> (65 <= width msb lsb -> s = true \/ 0 <= v) ->
  let l := logic_of_arith msb lsb s v in lvec l /\ lmsb l = msb /\ llsb l = lsb /\ lsgn l = s /\ known l /\
    (forall p, 0 <= p < width msb lsb -> sym_at l p = sym_of_bool (Z.testbit v p)).
Proof. exact of_arith4. Qed.
Print Assumptions C116_logic_partial.
(** assigning a number to a vector *)
Theorem C116_assign_partial : forall b v, vec b -> bw b <= 64 -> (bw b = 1 -> 0 <= v <= 1) ->
  exists r, bit_assign_arith b v = Ok r /\ vec r /\ bmsb r = bmsb b /\ blsb r = blsb b /\ bsgn r = bsgn b /\ num r = v mod 2 ^ bw b.
Proof. exact assign_arith. Qed.
Print Assumptions C116_assign_partial.
Theorem C116_assign_logic_partial : forall l v, lvec l -> lw l <= 64 -> (lw l = 1 -> 0 <= v <= 1) ->
  exists r, logic_assign_arith l v = Ok r /\ lvec r /\ lmsb r = lmsb l /\ llsb r = llsb l /\ lsgn r = lsgn l /\ known r /\
    (forall p, 0 <= p < lw l -> sym_at r p = sym_of_bool (Z.testbit v p)).
Proof. exact assign_arith4. Qed.
Print Assumptions C116_assign_logic_partial.
Theorem C116_assign_rejected : forall b l v, (vec b -> 65 <= bw b -> bit_assign_arith b v = IllFormed) /\ (lvec l -> 65 <= lw l -> logic_assign_arith l v = IllFormed).
Proof. exact assign_arith_rejected. Qed.
Print Assumptions C116_assign_rejected.
(** the elements of a packed array built from a number *)
Theorem C116_array_partial : forall t v, 1 <= pa_base t -> pa_base t * elems t < 2 ^ 31 -> int_ok (pa_msb t) -> int_ok (pa_lsb t) -> - 2 ^ 63 <= v < 2 ^ 64 -> (pa_base t * elems t = 1 -> 0 <= v <= 1) ->
  (65 <= pa_base t * elems t -> pa_sgn t = true \/ 0 <= v) ->
  arr4 t (pa_of_arith t v) /\ arr2 t (pa_of_arith_bit t v) /\
  forall i p, element t i -> 0 <= p < pa_base t ->
    sym_at (pa_of_arith t v) (start t i + p) = sym_of_bool (Z.testbit v (start t i + p)) /\
    bit_at (pa_of_arith_bit t v) (start t i + p) = Z.testbit v (start t i + p).
Proof. exact pa_construct. Qed.
Print Assumptions C116_array_partial.
Theorem C116_array_default : forall t, 1 <= pa_base t -> pa_base t * elems t < 2 ^ 31 ->
  arr4 t (pa_default t) /\ all_x (pa_default t) /\ arr2 t (pa_default_bit t) /\ num (pa_default_bit t) = 0.
Proof. exact pa_defaults. Qed.
Print Assumptions C116_array_default.
Example C116_ex : num (bit_of_arith 69 0 true (-9)) = 2 ^ 70 - 9 /\ value (bit_of_arith 69 0 true (-9)) = -9 /\ num (bit_of_arith 4 0 false 100) = 4 /\ width 9 2 = 8 /\
  elems (mkParrTy 8 false 3 0) = 4 /\ element (mkParrTy 8 false 3 0) 2 /\ start (mkParrTy 8 false 3 0) 2 = 16.
Proof. repeat (split; [conc|]). conc. Qed.

(** C117: the width asked for by the leading digits of a format *)
Theorem C117_digits : forall ds rest size, Forall (among "0123456789"%string) ds -> ds <> [] -> (rest = [] \/ ~ among "0123456789"%string (hd 0 rest)) ->
  str_len size (ds ++ rest) = if numeral_value 10 ds <? 2 ^ 64 then Ok (Z.max size (numeral_value 10 ds)) else Exn.
Proof. exact str_len_digits. Qed.
Print Assumptions C117_digits.
Theorem C117_none : forall c rest size, ~ among "0123456789"%string c -> str_len size (c :: rest) = Ok size.
Proof. exact str_len_none. Qed.
Print Assumptions C117_none.
Theorem C117_empty : forall size, str_len size [] = Exn.
Proof. exact str_len_empty. Qed.
Print Assumptions C117_empty.
Example C117_ex : Forall (among "0123456789"%string) [49; 50] /\ numeral_value 10 [49; 50] = 12 /\ str_len 8 [49; 50; 120] = Ok 12 /\ ~ among "0123456789"%string 120.
Proof. split; [repeat constructor; vm_compute; tauto|]. split; [reflexivity|]. split; [reflexivity|]. vm_compute. intuition discriminate. Qed.
