(** Property theorems about arrays.  [arr4 t a] ([arr2 t a]) says that [a] is the storage of a 4-state (2-state)
    packed array of type [t] (element width [pa_base t], index range [pa_msb t], [pa_lsb t]); [element t i] that [i]
    is the index of an element and [start t i] is its lowest position; [index op i] that the index argument [op] is
    known with value [i], [bad_index op] that it holds an x or z.  See SpecArr.v. *)
From Coq Require Import ZArith List Bool.
From Verif Require Import Cpp BigNum Bit Logic Arr Spec SpecArr BitMain LogicMain ArrProofs CounterProofs.
Import ListNotations.
Open Scope Z_scope.

(** C51: reading the last of four 8-bit elements is undefined behaviour; an element of a range that does not start
    at 0 reads as x; a nonexistent element reads as known bits; one-bit elements are mixed with their neighbour *)
Theorem C51_refuted :
  (exists t a op, arr4 t a /\ index op 3 /\ element t 3 /\ pa_get t a op = UB) /\
  (exists t a op r, arr4 t a /\ index op 12 /\ element t 12 /\ pa_get t a op = Ok r /\ all_x r /\ ~ all_x a /\ known a) /\
  (exists t a op r, arr4 t a /\ index op 7 /\ ~ element t 7 /\ pa_get t a op = Ok r /\ known r) /\
  (exists t a op r, arr4 t a /\ pa_base t = 1 /\ index op 2 /\ element t 2 /\ pa_get t a op = Ok r /\ sym_at a (start t 2) = S0 /\ sym_at r 0 = S1).
Proof. exact packed_read_counter. Qed.
Print Assumptions C51_refuted.
(** Missing: indices that are not smaller than the number of bits of the array; one-bit elements of native arrays
    and the element that ends at the storage width of a native array. *)
Theorem C51_element_partial : forall t a op i, arr4 t a -> index op i -> 0 <= i < pa_base t * elems t -> element t i ->
  (pa_base t * elems t <= 64 -> 2 <= pa_base t /\ start t i + pa_base t < iwidth (hty (pa_base t * elems t) (pa_sgn t))) ->
  exists r, pa_get t a op = Ok r /\ ltyped r (pa_base t) false /\ forall p, 0 <= p < pa_base t -> sym_at r p = sym_at a (start t i + p).
Proof. exact packed_read. Qed.
Print Assumptions C51_element_partial.
(** Missing: indices that are smaller than the number of bits but not elements (false). *)
Theorem C51_no_element_partial : forall t a op, arr4 t a -> (bad_index op \/ exists i, index op i /\ pa_base t * elems t <= i) ->
  exists r, pa_get t a op = Ok r /\ ltyped r (pa_base t) false /\ all_x r.
Proof. exact packed_read_x. Qed.
Print Assumptions C51_no_element_partial.
(** the same for 2-state arrays *)
Theorem C51_bit_element_partial : forall t a op i, arr2 t a -> index op i -> 0 <= i < pa_base t * elems t -> element t i ->
  (pa_base t * elems t <= 64 -> 2 <= pa_base t /\ start t i + pa_base t < iwidth (hty (pa_base t * elems t) (pa_sgn t))) ->
  exists r, pa_get_bit t a op = Ok r /\ typed r (pa_base t) false /\ forall p, 0 <= p < pa_base t -> bit_at r p = bit_at a (start t i + p).
Proof. exact packed_read2. Qed.
Print Assumptions C51_bit_element_partial.
Theorem C51_bit_no_element_partial : forall t a op, arr2 t a -> (bad_index op \/ exists i, index op i /\ pa_base t * elems t <= i) ->
  exists r, pa_get_bit t a op = Ok r /\ typed r (pa_base t) false /\ num r = 0.
Proof. exact packed_read2_zero. Qed.
Print Assumptions C51_bit_no_element_partial.
(** an index of more than 64 bits does not compile *)
Theorem C51_rejected : forall t a b op v w, 65 <= lw op ->
  pa_get t a op = IllFormed /\ pa_update t a op v = IllFormed /\ pa_get_bit t b op = IllFormed /\ pa_update_bit t b op w = IllFormed.
Proof. exact packed_rejected. Qed.
Print Assumptions C51_rejected.
Example C51_ex : let t := mkParrTy 16 false 4 0 in
  arr4 t (k80 5 9) /\ arr2 t (l_val (k80 5 9)) /\ index (k4 8 3) 3 /\ 0 <= 3 < pa_base t * elems t /\ element t 3 /\ index (k4 8 100) 100 /\
  bad_index (mkLogic (bit_of_native 7 0 false 3) (bit_of_native 7 0 false 4)) /\
  (let t := mkParrTy 2 true 2 0 in arr4 t (mkLogic (bit_of_native 5 0 true 7) (bit_of_native 5 0 false 16)) /\ start t 2 + pa_base t < iwidth (hty 6 true)).
Proof. exact packed_ex. Qed.

(** C52: writing element 1 clears the lowest position of element 2; writing the last element of a 64-bit array is
    undefined behaviour *)
Theorem C52_refuted :
  (exists t a op v r, arr4 t a /\ index op 1 /\ element t 1 /\ element t 2 /\ ltyped v (pa_base t) false /\ ltidy v /\ pa_update t a op v = Ok r /\
     sym_at a (start t 2) = S1 /\ sym_at r (start t 2) = S0) /\
  (exists t a op v, arr4 t a /\ index op 3 /\ element t 3 /\ ltyped v (pa_base t) false /\ ltidy v /\ pa_update t a op v = UB).
Proof. exact packed_write_counter. Qed.
Print Assumptions C52_refuted.
Theorem C52_bit_refuted :
  (exists t a op v r, arr2 t a /\ index op 1 /\ element t 1 /\ element t 2 /\ typed v (pa_base t) false /\ tidy v /\ pa_update_bit t a op v = Ok r /\
     bit_at a (start t 2) = true /\ bit_at r (start t 2) = false) /\
  (exists t a op v, arr2 t a /\ index op 1 /\ element t 1 /\ typed v (pa_base t) false /\ tidy v /\ pa_update_bit t a op v = UB).
Proof. exact packed_write_counter2. Qed.
Print Assumptions C52_bit_refuted.
(** What holds: the element gets the value, the lowest position of the next element gets the position of the value
    above the element (0 for a value of the element width), and nothing else changes.  Missing: the neighbour
    (false); the element that ends at position 64 of a 64-bit array (undefined behaviour); values with x or z at
    position 64 or above; indices not smaller than the number of bits. *)
Theorem C52_element_partial : forall t a op i v k sv, arr4 t a -> index op i -> 0 <= i < pa_base t * elems t -> element t i -> 2 <= pa_base t * elems t ->
  1 <= k -> ltyped v k sv -> (start t i + pa_base t = 64 -> pa_base t * elems t <> 64) -> (forall q, 64 <= q < k -> q <= pa_base t -> unknown (sym_at v q) = false) ->
  exists r, pa_update t a op v = Ok r /\ arr4 t r /\ forall q, 0 <= q < pa_base t * elems t -> sym_at r q =
    if (start t i <=? q) && (q <=? start t i + pa_base t) then (if q - start t i <? k then sym_at v (q - start t i) else S0) else sym_at a q.
Proof. exact packed_write. Qed.
Print Assumptions C52_element_partial.
(** Missing: indices that are smaller than the number of bits but not elements. *)
Theorem C52_no_element_partial : forall t a op v, 1 <= pa_base t -> pa_size t < 2 ^ 31 ->
  (bad_index op \/ exists i, index op i /\ pa_base t * elems t <= i) -> pa_update t a op v = Ok a.
Proof. exact packed_write_none. Qed.
Print Assumptions C52_no_element_partial.
Theorem C52_bit_element_partial : forall t a op i v k, arr2 t a -> index op i -> 0 <= i < pa_base t * elems t -> element t i -> 2 <= pa_base t * elems t ->
  1 <= k -> typed v k false -> tidy v -> (start t i + pa_base t = 64 -> pa_base t * elems t <> 64) -> (k <= 32 -> pa_base t < 32) -> (k <= 64 -> pa_base t < 64) ->
  exists r, pa_update_bit t a op v = Ok r /\ arr2 t r /\ forall q, 0 <= q < pa_base t * elems t -> bit_at r q =
    if (start t i <=? q) && (q <=? start t i + pa_base t) then (q - start t i <? k) && bit_at v (q - start t i) else bit_at a q.
Proof. exact packed_write2. Qed.
Print Assumptions C52_bit_element_partial.
Theorem C52_bit_no_element_partial : forall t a op v, 1 <= pa_base t -> pa_size t < 2 ^ 31 ->
  (bad_index op \/ exists i, index op i /\ pa_base t * elems t <= i) -> pa_update_bit t a op v = Ok a.
Proof. exact packed_write2_none. Qed.
Print Assumptions C52_bit_no_element_partial.
Example C52_ex : let t := mkParrTy 16 false 4 0 in arr4 t (k80 5 9) /\ index (k4 8 3) 3 /\ element t 3 /\ ltyped (k4 16 7) 16 false /\ typed (l_val (k4 16 7)) 16 false /\
  (forall q, 64 <= q < 16 -> q <= pa_base t -> unknown (sym_at (k4 16 7) q) = false).
Proof. split; [apply packed_ex|]. split; [apply packed_ex|]. split; [conc|]. split; [conc|]. split; [conc|]. intros q H. exfalso. Lia.lia. Qed.

(** C53: reading all of a signed 32-bit array is undefined, and so is writing a range with an x or z at position 64 or above *)
Theorem C53_refuted : 
  (exists t a, arr4 t a /\ pa_sgn t = true /\ element t 1 /\ element t 0 /\ pa_slice_array t a 1 0 = UB) /\
  (exists t a v, arr4 t a /\ element t 9 /\ element t 0 /\ ltyped v 80 false /\ pa_update_c t a 9 0 v = UB).
Proof. exact range_counter. Qed.
Print Assumptions C53_refuted.
(** C53.  [w] is the number of positions of elements [lo] to [hi]. *)
Theorem C53_read : forall t a hi lo w, arr4 t a -> pa_sgn t = false -> element t hi -> element t lo -> w = (Z.abs (hi - lo) + 1) * pa_base t ->
  (pa_base t * elems t <= 64 \/ w <> 65) ->
  exists r, pa_slice_array t a hi lo = Ok r /\ ltyped r w false /\ ltidy r /\ forall p, 0 <= p < w -> sym_at r p = sym_at a (start t (Z.min hi lo) + p).
Proof. exact range_read. Qed.
Print Assumptions C53_read.
(** Missing: signed native arrays when the range reaches the storage width less one (see C06). *)
Theorem C53_read_signed_partial : forall t a hi lo w, arr4 t a -> pa_sgn t = true -> element t hi -> element t lo -> w = (Z.abs (hi - lo) + 1) * pa_base t ->
  (2 <= pa_base t * elems t <= 64 /\ 2 <= w /\ start t (Z.min hi lo) + w + 1 <= iwidth (hty (pa_base t * elems t) true)) \/ (65 <= pa_base t * elems t /\ w <> 65) ->
  exists r, pa_slice_array t a hi lo = Ok r /\ ltyped r w false /\ forall p, 0 <= p < w -> sym_at r p = sym_at a (start t (Z.min hi lo) + p).
Proof. exact range_read_signed. Qed.
Print Assumptions C53_read_signed_partial.
Theorem C53_bit_read : forall t a hi lo w, arr2 t a -> pa_sgn t = false -> element t hi -> element t lo -> w = (Z.abs (hi - lo) + 1) * pa_base t ->
  pa_base t * elems t <= 64 ->
  exists r, pa_slice_array_bit t a hi lo = Ok r /\ typed r w false /\ tidy r /\ forall p, 0 <= p < w -> bit_at r p = bit_at a (start t (Z.min hi lo) + p).
Proof. exact range_read2. Qed.
Print Assumptions C53_bit_read.
(** a 2-state array of more than 64 bits has no [slice_array] *)
Theorem C53_bit_rejected : forall t a hi lo, arr2 t a -> 65 <= pa_base t * elems t -> pa_slice_array_bit t a hi lo = IllFormed.
Proof. exact range_read2_rejected. Qed.
Print Assumptions C53_bit_rejected.
(** Missing: values with an x or z at position 64 or above (see C49). *)
Theorem C53_write_partial : forall t a hi lo v k sv w, arr4 t a -> element t hi -> element t lo -> w = (Z.abs (hi - lo) + 1) * pa_base t -> 1 <= k -> ltyped v k sv ->
  (forall q, 64 <= q < k -> q < w -> unknown (sym_at v q) = false) ->
  exists r, pa_update_c t a hi lo v = Ok r /\ arr4 t r /\ forall q, 0 <= q < pa_base t * elems t -> sym_at r q =
    if (start t (Z.min hi lo) <=? q) && (q <? start t (Z.min hi lo) + w) then (if q - start t (Z.min hi lo) <? k then sym_at v (q - start t (Z.min hi lo)) else S0) else sym_at a q.
Proof. exact range_write. Qed.
Print Assumptions C53_write_partial.
Example C53_ex : let t := mkParrTy 16 false 14 10 in arr4 t (k80 5 9) /\ element t 13 /\ element t 12 /\ 32 = (Z.abs (13 - 12) + 1) * pa_base t /\ start t 12 = 32.
Proof. cbv zeta. split; [split; [vm_compute; discriminate|conc]|]. conc. Qed.

(** C54: elements 5 down to 2 hold 4, 3, 2, 1; element 4 cannot be written; writing element 1, which does not
    exist, is undefined behaviour, and so is reading element - 2 ^ 31 *)
Theorem C54_refuted : let dflt := bit_zero 7 0 false in let a := four 1 2 3 4 in let v := bit_of_native 7 0 false 9 in
  (in_range 5 2 4 /\ (let! e := ua_get dflt 5 2 a 4 in bit_assign e v) = Ok v /\ ua_update bit_assign dflt 5 2 a 4 v = Ok a /\ ua_get dflt 5 2 a 4 = Ok (bit_of_native 7 0 false 3)) /\
  (~ in_range 5 2 1 /\ ua_update bit_assign dflt 5 2 a 1 v = UB) /\
  (~ in_range 5 2 (- 2 ^ 31) /\ ua_get dflt 5 2 a (- 2 ^ 31) = UB).
Proof. exact unpacked_counter. Qed.
Print Assumptions C54_refuted.
(** Reading an element is right for every range.  [T] is any element type, [assign] its assignment. *)
Theorem C54_read : forall (T : Type) (dflt : T) msb lsb, int_ok msb /\ int_ok lsb /\ width msb lsb < 2 ^ 31 -> forall a i, in_range msb lsb i ->
  ua_get dflt msb lsb a i = Ok (nth (Z.to_nat (i - Z.min msb lsb)) a dflt).
Proof. exact @ua_get_in. Qed.
Print Assumptions C54_read.
(** every other [int] gives the default element unless its distance to the lowest index is not an [int] *)
Theorem C54_read_exact : forall (T : Type) (dflt : T) msb lsb, int_ok msb /\ int_ok lsb /\ width msb lsb < 2 ^ 31 -> forall a i, int_ok i ->
  (~ in_range msb lsb i -> ua_get dflt msb lsb a i = Ok dflt <-> int_ok (i - Z.min msb lsb)) /\ (ua_get dflt msb lsb a i = UB <-> ~ int_ok (i - Z.min msb lsb)).
Proof. exact @ua_get_exact. Qed.
Print Assumptions C54_read_exact.
(** Missing: ranges that do not start at 0, for indices that are not smaller than the number of elements (false). *)
Theorem C54_write_partial : forall (T V : Type) (assign : T -> V -> outcome T) (dflt : T) msb lsb, int_ok msb /\ int_ok lsb /\ width msb lsb < 2 ^ 31 ->
  forall a i v x, Z.of_nat (length a) = width msb lsb -> in_range msb lsb i -> 0 <= i < width msb lsb -> assign (nth (Z.to_nat (i - Z.min msb lsb)) a dflt) v = Ok x ->
  exists a', ua_update assign dflt msb lsb a i v = Ok a' /\ length a' = length a /\ ua_get dflt msb lsb a' i = Ok x /\
    forall j, int_ok j -> j <> i -> ua_get dflt msb lsb a' j = ua_get dflt msb lsb a j.
Proof. exact @ua_write. Qed.
Print Assumptions C54_write_partial.
(** Missing: ranges that do not start at 0, for indices below the range (false). *)
Theorem C54_write_outside_partial : forall (T V : Type) (assign : T -> V -> outcome T) (dflt : T) msb lsb, int_ok msb /\ int_ok lsb /\ width msb lsb < 2 ^ 31 ->
  forall a i v, int_ok i -> ~ 0 <= i < width msb lsb -> int_ok (i - Z.min msb lsb) -> ua_update assign dflt msb lsb a i v = Ok a.
Proof. exact @ua_write_out. Qed.
Print Assumptions C54_write_outside_partial.
(** writing an element is right exactly if its index is smaller than the number of elements or the element already holds what is written *)
Theorem C54_write_exact : forall (T V : Type) (assign : T -> V -> outcome T) (dflt : T) msb lsb, int_ok msb /\ int_ok lsb /\ width msb lsb < 2 ^ 31 ->
  forall a i v x, Z.of_nat (length a) = width msb lsb -> in_range msb lsb i -> assign (nth (Z.to_nat (i - Z.min msb lsb)) a dflt) v = Ok x ->
  (exists a', ua_update assign dflt msb lsb a i v = Ok a' /\ ua_get dflt msb lsb a' i = Ok x /\ forall j, int_ok j -> j <> i -> ua_get dflt msb lsb a' j = ua_get dflt msb lsb a j) <->
  0 <= i < width msb lsb \/ nth (Z.to_nat (i - Z.min msb lsb)) a dflt = x.
Proof. exact @ua_write_exact. Qed.
Print Assumptions C54_write_exact.
(** writing outside the range: ignored, undefined or rejected by the compiler *)
Theorem C54_write_outside_exact : forall (T V : Type) (assign : T -> V -> outcome T) (dflt : T) msb lsb, int_ok msb /\ int_ok lsb /\ width msb lsb < 2 ^ 31 ->
  forall a i v, Z.of_nat (length a) = width msb lsb -> int_ok i -> ~ in_range msb lsb i ->
  (ua_update assign dflt msb lsb a i v = Ok a <-> int_ok (i - Z.min msb lsb) /\ ~ 0 <= i < width msb lsb) /\
  (ua_update assign dflt msb lsb a i v = UB <-> int_ok (i - Z.min msb lsb) /\ 0 <= i < width msb lsb) /\
  (ua_update assign dflt msb lsb a i v = IllFormed <-> ~ int_ok (i - Z.min msb lsb)).
Proof. exact @ua_write_out_exact. Qed.
Print Assumptions C54_write_outside_exact.
Example C54_ex : int_ok 3 /\ int_ok 0 /\ Z.of_nat (length (four 1 2 3 4)) = width 3 0 /\ in_range 3 0 2 /\
  bit_assign (nth (Z.to_nat (2 - 0)) (four 1 2 3 4) (bit_zero 7 0 false)) (bit_of_native 7 0 false 9) = Ok (bit_of_native 7 0 false 9).
Proof. conc. Qed.
