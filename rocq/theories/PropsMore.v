(** Property theorems about compositions of calls, packed structs, references to slices, and imperative programs.
    The programs and what they should do are in Program.v; [typed b n s] says that [b] is a bit<n-1, 0, s>, [ltyped] the same
    of logic, [tidy] / [ltidy] that nothing is stored above the positions, [num b] is the unsigned number. *)
From Coq Require Import ZArith List Bool Lia.
From Verif Require Import Cpp BigNum Bit Logic Spec BitMain BitMain2 BitMain5 LogicProofs LogicOps LogicRed LogicArith LogicArith2
  LogicConv LogicConv2 LogicMain Client ClientProofs LawProofs More Program MoreProofs ProgramProofs MoreExamples.
Import ListNotations.
Open Scope Z_scope.

(** C84 *)
Theorem C84_bit_slice_of_slice : forall x n a b c d, 1 <= n -> typed x n false -> 0 <= a < n -> 0 <= b < n ->
  0 <= c < Z.abs (a - b) + 1 -> 0 <= d < Z.abs (a - b) + 1 -> (n <= 64 \/ (Z.abs (a - b) + 1 <> 65 /\ Z.abs (c - d) + 1 <> 65)) ->
  exists r t, bit_slice_c x a b = Ok r /\ bit_slice_c r c d = Ok t /\ bit_slice_c x (Z.min a b + c) (Z.min a b + d) = Ok t.
Proof. exact bit_slice_slice. Qed.
Print Assumptions C84_bit_slice_of_slice.
Theorem C84_logic_slice_of_slice : forall x n a b c d, 1 <= n -> ltyped x n false -> 0 <= a < n -> 0 <= b < n ->
  0 <= c < Z.abs (a - b) + 1 -> 0 <= d < Z.abs (a - b) + 1 -> (n <= 64 \/ (Z.abs (a - b) + 1 <> 65 /\ Z.abs (c - d) + 1 <> 65)) ->
  exists r t, logic_slice_c x a b = Ok r /\ logic_slice_c r c d = Ok t /\ logic_slice_c x (Z.min a b + c) (Z.min a b + d) = Ok t.
Proof. exact logic_slice_slice. Qed.
Print Assumptions C84_logic_slice_of_slice.
Theorem C84_bit_slice_of_extension : forall x n m, 1 <= n <= m -> m < 2 ^ 31 -> (m <= 64 \/ n <> 65) -> typed x n false -> tidy x ->
  exists r, bit_extend x m = Ok r /\ bit_slice_c r (n - 1) 0 = Ok x.
Proof. exact bit_extend_slice. Qed.
Print Assumptions C84_bit_slice_of_extension.
Theorem C84_logic_slice_of_extension : forall x n m, 1 <= n <= m -> m < 2 ^ 31 -> (m <= 64 \/ n <> 65) -> ltyped x n false -> ltidy x ->
  exists r, logic_extend x m = Ok r /\ logic_slice_c r (n - 1) 0 = Ok x.
Proof. exact logic_extend_slice. Qed.
Print Assumptions C84_logic_slice_of_extension.
Theorem C84_bit_extension_twice : forall x n m k, 1 <= n <= m -> m <= k -> k < 2 ^ 31 -> typed x n false -> tidy x ->
  exists r s, bit_extend x m = Ok r /\ bit_extend r k = Ok s /\ bit_extend x k = Ok s.
Proof. exact bit_extend_extend. Qed.
Print Assumptions C84_bit_extension_twice.
Theorem C84_logic_extension_twice : forall x n m k, 1 <= n <= m -> m <= k -> k < 2 ^ 31 -> ltyped x n false -> ltidy x ->
  exists r s, logic_extend x m = Ok r /\ logic_extend r k = Ok s /\ logic_extend x k = Ok s.
Proof. exact logic_extend_extend. Qed.
Print Assumptions C84_logic_extension_twice.
Example C84_ex : typed u70_9 70 false /\ tidy u70_9 /\ ltyped e70 70 false /\ ltidy e70 /\ ltyped e8 8 false /\ ltidy e8.
Proof. repeat split; conc. Qed.

(** C85: totals of 33 to 63 bits are wrong when the left operand has at most 32 bits (C11) *)
Theorem C85_refuted : exists a b r, typed a 31 false /\ typed b 2 false /\ tidy a /\ tidy b /\
  bit_concat a b = Ok r /\ num r <> num a * 2 ^ 2 + num b.
Proof. exact concat_counter. Qed.
Print Assumptions C85_refuted.
(** Missing here and in the other C85 theorems: totals of 33 to 63 bits with a left operand of at most 32 bits (wrong),
    totals from 64 bits on (rejected), signed operands. *)
Theorem C85_bit_slices_of_concat_partial : forall a b na nb, 1 <= na -> 1 <= nb -> na + nb < 64 -> (na + nb <= 32 \/ 33 <= na) ->
  typed a na false -> typed b nb false -> tidy a -> tidy b ->
  exists r, bit_concat a b = Ok r /\ bit_slice_c r (nb - 1) 0 = Ok b /\ bit_slice_c r (na + nb - 1) nb = Ok a.
Proof. exact bit_slice_concat. Qed.
Print Assumptions C85_bit_slices_of_concat_partial.
Theorem C85_logic_slices_of_concat_partial : forall a b na nb, 1 <= na -> 1 <= nb -> na + nb < 64 -> (na + nb <= 32 \/ 33 <= na) ->
  ltyped a na false -> ltyped b nb false -> ltidy a -> ltidy b ->
  exists r, logic_concat a b = Ok r /\ logic_slice_c r (nb - 1) 0 = Ok b /\ logic_slice_c r (na + nb - 1) nb = Ok a.
Proof. exact logic_slice_concat. Qed.
Print Assumptions C85_logic_slices_of_concat_partial.
Theorem C85_bit_concat_of_slices_partial : forall x n k, 1 <= k < n -> n < 64 -> (n <= 32 \/ 33 <= n - k) -> typed x n false -> tidy x ->
  exists hi lo, bit_slice_c x (n - 1) k = Ok hi /\ bit_slice_c x (k - 1) 0 = Ok lo /\ bit_concat hi lo = Ok x.
Proof. exact bit_concat_slices. Qed.
Print Assumptions C85_bit_concat_of_slices_partial.
Theorem C85_logic_concat_of_slices_partial : forall x n k, 1 <= k < n -> n < 64 -> (n <= 32 \/ 33 <= n - k) -> ltyped x n false -> ltidy x ->
  exists hi lo, logic_slice_c x (n - 1) k = Ok hi /\ logic_slice_c x (k - 1) 0 = Ok lo /\ logic_concat hi lo = Ok x.
Proof. exact logic_concat_slices. Qed.
Print Assumptions C85_logic_concat_of_slices_partial.
Theorem C85_bit_concat_assoc_partial : forall a b c na nb nc, 1 <= na -> 1 <= nb -> 1 <= nc -> na + nb + nc < 64 -> (na + nb + nc <= 32 \/ 33 <= na) ->
  typed a na false -> typed b nb false -> typed c nc false -> tidy a -> tidy b -> tidy c ->
  exists ab bc r, bit_concat a b = Ok ab /\ bit_concat b c = Ok bc /\ bit_concat ab c = Ok r /\ bit_concat a bc = Ok r.
Proof. exact bit_concat_assoc. Qed.
Print Assumptions C85_bit_concat_assoc_partial.
Theorem C85_logic_concat_assoc_partial : forall a b c na nb nc, 1 <= na -> 1 <= nb -> 1 <= nc -> na + nb + nc < 64 -> (na + nb + nc <= 32 \/ 33 <= na) ->
  ltyped a na false -> ltyped b nb false -> ltyped c nc false -> ltidy a -> ltidy b -> ltidy c ->
  exists ab bc r, logic_concat a b = Ok ab /\ logic_concat b c = Ok bc /\ logic_concat ab c = Ok r /\ logic_concat a bc = Ok r.
Proof. exact logic_concat_assoc. Qed.
Print Assumptions C85_logic_concat_assoc_partial.
(** concat with any number of arguments: every argument sits above the ones that follow it *)
Theorem C85_logic_concat_many_partial : forall args a na, 1 <= na -> ltyped a na false -> ltidy a ->
  Forall (fun t => ltyped t (lw t) false /\ ltidy t) args ->
  na + total (map lw args) < 64 -> (na + total (map lw args) <= 32 \/ 33 <= na) ->
  exists r, logic_concat_all a args = Ok r /\ ltyped r (na + total (map lw args)) false /\ ltidy r /\
    forall pre t post, a :: args = pre ++ t :: post -> forall p, 0 <= p < lw t -> sym_at r (total (map lw post) + p) = sym_at t p.
Proof. exact logic_concat_many. Qed.
Print Assumptions C85_logic_concat_many_partial.
Theorem C85_bit_concat_many_partial : forall args a na, 1 <= na -> typed a na false -> tidy a ->
  Forall (fun t => typed t (bw t) false /\ tidy t) args ->
  na + total (map bw args) < 64 -> (na + total (map bw args) <= 32 \/ 33 <= na) ->
  exists r, bit_concat_all a args = Ok r /\ typed r (na + total (map bw args)) false /\ tidy r /\
    num r = fold_left (fun z t => z * 2 ^ bw t + num t) args (num a).
Proof. exact bit_concat_many. Qed.
Print Assumptions C85_bit_concat_many_partial.
Example C85_ex : typed u8_200 8 false /\ tidy u8_200 /\ typed u4_5 4 false /\ tidy u4_5 /\ ltyped e8 8 false /\ ltidy e8 /\
  Forall (fun t => ltyped t (lw t) false /\ ltidy t) [e4; e8; e4] /\ 8 + total (map lw [e4; e8; e4]) <= 32 /\
  Forall (fun t => typed t (bw t) false /\ tidy t) [u4_5; u8_77; u4_6] /\ 8 + total (map bw [u4_5; u8_77; u4_6]) <= 32.
Proof. repeat split; try (repeat constructor); try (vm_compute; discriminate); conc. Qed.

(** C86 *)
Theorem C86_bit_write_then_read : forall x n v a b c d, 1 <= n -> typed x n false -> tidy x -> 0 <= a < n -> 0 <= b < n ->
  typed v (Z.abs (a - b) + 1) false -> 0 <= c < n -> 0 <= d < n -> (n <= 64 \/ Z.abs (c - d) + 1 <> 65) ->
  exists r, bit_update_r x a b v = Ok r /\ typed r n false /\ tidy r /\ exists s, bit_slice_c r c d = Ok s /\
    (Z.min a b <= c <= Z.max a b -> Z.min a b <= d <= Z.max a b -> bit_slice_c v (c - Z.min a b) (d - Z.min a b) = Ok s) /\
    (Z.max c d < Z.min a b \/ Z.max a b < Z.min c d -> bit_slice_c x c d = Ok s).
Proof. exact bit_update_read. Qed.
Print Assumptions C86_bit_write_then_read.
Theorem C86_bit_two_writes : forall x n v w a b c d, 1 <= n -> typed x n false -> tidy x -> 0 <= a < n -> 0 <= b < n -> 0 <= c < n -> 0 <= d < n ->
  typed v (Z.abs (a - b) + 1) false -> typed w (Z.abs (c - d) + 1) false ->
  exists r s u t, bit_update_r x a b v = Ok r /\ bit_update_r r c d w = Ok s /\ bit_update_r x c d w = Ok u /\ bit_update_r u a b v = Ok t /\
    (Z.max c d < Z.min a b \/ Z.max a b < Z.min c d -> s = t) /\
    (Z.min c d <= Z.min a b -> Z.max a b <= Z.max c d -> s = u).
Proof. exact bit_update_update. Qed.
Print Assumptions C86_bit_two_writes.
Theorem C86_refuted : exists x op, ltyped x 70 false /\ ltidy x /\ ltyped op 70 false /\ ltidy op /\ logic_update_r x 69 0 op = UB.
Proof. exact update_counter. Qed.
Print Assumptions C86_refuted.
(** Missing here and below: 4-state sources with an x or z in the positions from 64 on ([clean]). *)
Theorem C86_logic_write_then_read_partial : forall x n v a b c d, 1 <= n -> ltyped x n false -> ltidy x -> 0 <= a < n -> 0 <= b < n ->
  ltyped v (Z.abs (a - b) + 1) false -> clean v (Z.abs (a - b) + 1) -> 0 <= c < n -> 0 <= d < n -> (n <= 64 \/ Z.abs (c - d) + 1 <> 65) ->
  exists r, logic_update_r x a b v = Ok r /\ ltyped r n false /\ ltidy r /\ exists s, logic_slice_c r c d = Ok s /\
    (Z.min a b <= c <= Z.max a b -> Z.min a b <= d <= Z.max a b -> logic_slice_c v (c - Z.min a b) (d - Z.min a b) = Ok s) /\
    (Z.max c d < Z.min a b \/ Z.max a b < Z.min c d -> logic_slice_c x c d = Ok s).
Proof. exact logic_update_read. Qed.
Print Assumptions C86_logic_write_then_read_partial.
Theorem C86_logic_two_writes_partial : forall x n v w a b c d, 1 <= n -> ltyped x n false -> ltidy x -> 0 <= a < n -> 0 <= b < n -> 0 <= c < n -> 0 <= d < n ->
  ltyped v (Z.abs (a - b) + 1) false -> clean v (Z.abs (a - b) + 1) -> ltyped w (Z.abs (c - d) + 1) false -> clean w (Z.abs (c - d) + 1) ->
  exists r s u t, logic_update_r x a b v = Ok r /\ logic_update_r r c d w = Ok s /\ logic_update_r x c d w = Ok u /\ logic_update_r u a b v = Ok t /\
    (Z.max c d < Z.min a b \/ Z.max a b < Z.min c d -> s = t) /\
    (Z.min c d <= Z.min a b -> Z.max a b <= Z.max c d -> s = u).
Proof. exact logic_update_update. Qed.
Print Assumptions C86_logic_two_writes_partial.
Example C86_ex : typed u70_9 70 false /\ tidy u70_9 /\ typed u8_200 8 false /\ typed u4_5 4 false /\ ltyped e70 70 false /\ ltidy e70 /\
  ltyped e8 8 false /\ clean e8 8 /\ ltyped e4 4 false /\ clean e4 4.
Proof. repeat split; try conc; intros q Hq; lia. Qed.

(** C87: [slice_ref<a, b>() = v] of 2-state vectors is [update<a, b>(v)], which is wrong unless the range starts at 0 (C50);
    the runtime forms are [update(a, b, v)], with the range of the indexed form spelled out *)
Theorem C87_bit_forms_partial : forall x n s v a b k base (up : bool), 1 <= n -> typed x n s ->
  bit_slice_ref_r x a b v = bit_update_r x a b v /\
  (Z.max a b < n -> bit_slice_ref_c x a b v = bit_update_c x a b v) /\
  (n <= Z.max a b -> bit_slice_ref_c x a b v = IllFormed) /\
  (0 <= base < n -> bit_slice_ref_idx x k up base v = bit_update_r x base (if up then base + k - 1 else base - k + 1) v).
Proof. exact bit_slice_ref_forms. Qed.
Print Assumptions C87_bit_forms_partial.
Theorem C87_logic_forms : forall x n s v a b k base (up : bool), 1 <= n -> ltyped x n s ->
  logic_slice_ref_r x a b v = logic_update_r x a b v /\
  (0 <= b <= a -> a < n -> logic_slice_ref_c x a b v = logic_update_r x a b v) /\
  (n <= Z.max a b -> logic_slice_ref_c x a b v = IllFormed) /\
  (0 <= base < n -> logic_slice_ref_idx x k up base v = logic_update_r x base (if up then base + k - 1 else base - k + 1) v).
Proof. exact slice_ref_forms. Qed.
Print Assumptions C87_logic_forms.
Theorem C87_refuted : exists s v r w, typed s 8 false /\ tidy s /\ typed v 4 false /\ tidy v /\
  bit_slice_ref_c s 7 4 v = Ok r /\ bit_slice_c r 7 4 = Ok w /\ num v = 5 /\ num w <> 5.
Proof. exact slice_ref_counter. Qed.
Print Assumptions C87_refuted.
Example C87_ex : typed u8_200 8 false /\ ltyped e8 8 false.
Proof. repeat split; conc. Qed.

(** C88: 2-state structs written with [update<hi, lo>] lose fields that do not start at 0 (C50) *)
Theorem C88_refuted : exists s v r w, typed s 8 false /\ tidy s /\ typed v 4 false /\ tidy v /\
  field_write2 s 7 4 v = Ok r /\ field_read2 r 7 4 = Ok w /\ num v = 5 /\ num w <> 5.
Proof. exact struct2_counter. Qed.
Print Assumptions C88_refuted.
(** Missing: 2-state structs (wrong), values with an x or z in the positions from 64 on ([clean]), fields of 65 bits in wider structs. *)
Theorem C88_struct_partial : forall n fs s ws, 1 <= n -> ltyped s n false -> ltidy s -> Forall (field_ok n) fs ->
  (forall f g, In f fs -> In g fs -> f = g \/ apart f g) -> Forall (write_ok fs) ws ->
  exists r, run_fields s ws = Ok r /\ ltyped r n false /\ ltidy r /\ forall f, In f fs ->
    (forall pre v post, ws = pre ++ (f, v) :: post -> (forall v', ~ In (f, v') post) -> field_read r (f_hi f) (f_lo f) = Ok v) /\
    ((forall v, ~ In (f, v) ws) -> field_read r (f_hi f) (f_lo f) = field_read s (f_hi f) (f_lo f)).
Proof. exact fields_program. Qed.
Print Assumptions C88_struct_partial.
(** every field of a fresh struct reads x *)
Theorem C88_default : forall n hi lo, 1 <= n < 2 ^ 31 -> 0 <= lo <= hi -> hi < n -> n <= 64 \/ hi - lo + 1 <> 65 ->
  exists r, field_read (packed_default4 n) hi lo = Ok r /\ ltyped r (hi - lo + 1) false /\ forall p, 0 <= p < hi - lo + 1 -> sym_at r p = SX.
Proof. exact struct_default. Qed.
Print Assumptions C88_default.
(** union members share the positions from 0 on *)
Theorem C88_union_partial : forall n x w w' v, 1 <= w' <= w -> w <= n -> ltyped x n false -> ltidy x -> ltyped v w false -> ltidy v -> clean v w -> w' <> 65 ->
  exists r u, field_write x (w - 1) 0 v = Ok r /\ ltyped r n false /\ field_read r (w' - 1) 0 = Ok u /\ field_read v (w' - 1) 0 = Ok u.
Proof. exact union_members. Qed.
Print Assumptions C88_union_partial.
Example C88_ex : ltyped e70 70 false /\ ltidy e70 /\ Forall (field_ok 70) flds /\ (forall f g, In f flds -> In g flds -> f = g \/ apart f g) /\
  Forall (write_ok flds) [(mkField 69 62, e8); (mkField 11 8, e4); (mkField 69 62, e8)].
Proof. exact fields_ex. Qed.

(** C89 *)
Theorem C89_unpack : forall l n ts, 1 <= n -> typed l n false -> (2 <= length ts)%nat -> Forall (fun t => ltyped t (lw t) (lsgn t)) ts ->
  (n <= 64 \/ Forall (fun t => lw t <> 65) ts) -> total (map lw ts) <= n ->
  exists rs, bit_unpack l ts = Ok rs /\ length rs = length ts /\
    forall pre t post, ts = pre ++ t :: post -> exists r, nth_error rs (length pre) = Some r /\ ltyped r (lw t) (lsgn t) /\ (lsgn t = false -> ltidy r) /\
      forall p, 0 <= p < lw t -> sym_at r p = sym_of_bool (bit_at l (total (map lw post) + p)).
Proof. exact bunpack. Qed.
Print Assumptions C89_unpack.
Theorem C89_rejected : forall l ts, (length ts < 2)%nat -> bit_unpack l ts = IllFormed.
Proof. exact bunpack_rejected. Qed.
Print Assumptions C89_rejected.
Example C89_ex : typed u70_9 70 false /\ Forall (fun t => ltyped t (lw t) (lsgn t)) [e4; e8; e8] /\ Forall (fun t => lw t <> 65) [e4; e8; e8] /\
  total (map lw [e4; e8; e8]) <= 70.
Proof. repeat split; try (repeat constructor); try (vm_compute; discriminate); conc. Qed.

(** C90 *)
Theorem C90_rejected : forall op a b, logic_op_bit op a b = IllFormed.
Proof. exact op_bit_rejected. Qed.
Print Assumptions C90_rejected.

(** C91 *)
Theorem C91_refuted : (exists b, typed b 128 false /\ tidy b /\ bit_at b 32 = true /\ bit_lnot b = true) /\
  (exists a b, typed a 8 false /\ typed b 16 false /\ tidy a /\ tidy b /\ bit_match a b = Ok true /\ num a <> num b /\ bit_match b a = Ok false).
Proof. exact lnot_counter. Qed.
Print Assumptions C91_refuted.
(** Missing: multi-word vectors whose ones all lie in upper halves of 64-bit groups (wrong). *)
Theorem C91_not_partial : forall b, vec b -> tidy b -> bw b <= 64 \/ visible (num b) -> bit_lnot b = (num b =? 0).
Proof. exact lnot_bit. Qed.
Print Assumptions C91_not_partial.
(** Missing: the operand pairs on which [==] is wrong (C30). *)
Theorem C91_match_partial : forall a b, vec a -> vec b ->
  (bsgn a = bsgn b /\ extendable a /\ extendable b /\
  (bw a <= 64 /\ bw b <= 64 /\ iwidth (hty (bw b) (bsgn b)) <= iwidth (hty (bw a) (bsgn a)) \/
   bsgn a = false /\ (bw a <= 64 < bw b \/ bw b <= 64 < bw a) \/
   bsgn a = false /\ 65 <= bw a /\ 65 <= bw b /\
     (nwords (bw a) = nwords (bw b) \/
      visible (num a / 2 ^ (64 * nwords (bw b))) /\ visible (num b / 2 ^ (64 * nwords (bw a)))))) ->
  bit_match a b = Ok (value a =? value b) /\ bit_nmatch a b = Ok (negb (value a =? value b)).
Proof. exact match_bit. Qed.
Print Assumptions C91_match_partial.
Example C91_ex : vec u70_9 /\ tidy u70_9 /\ visible (num u70_9) /\ vec u8_200 /\ vec u8_77 /\ 
  extendable u8_200 /\ extendable u8_77 /\ iwidth (hty (bw u8_77) false) <= iwidth (hty (bw u8_200) false).
Proof. exact lnot_ex. Qed.

(** C92: products of 16-bit variables overflow int *)
Theorem C92_refuted : exists a, typed a 16 false /\ tidy a /\ bit_mul a a = UB.
Proof. exact (proj1 mul_counter). Qed.
Print Assumptions C92_refuted.
(** Missing: widths without full storage (C73, C74: comparison and division see what is stored above the width), products of
    16-bit variables (wrong), [-], [*], [/], [%] on multi-word variables, signed variables. *)
Theorem C92_lockstep_partial : forall n c, full_width n -> usable_cmd n c -> forall fuel env st, good n env -> (forall k, num (env k) = st k) ->
  same_outcome n (exec fuel env c) (exec_of n fuel st c).
Proof. exact lockstep. Qed.
Print Assumptions C92_lockstep_partial.
(** a finished run stays the same with more fuel *)
Theorem C92_fuel : forall c fuel env, exec fuel env c <> Fuel -> exec (S fuel) env c = exec fuel env c.
Proof. exact exec_fuel. Qed.
Print Assumptions C92_fuel.
Example C92_ex : full_width 8 /\ usable_cmd 8 prog8 /\ good 8 env8.
Proof. exact prog_ex. Qed.

(** C93: greatest common divisors by Euclid's algorithm, for all arguments of 8, 16, 32, 64 bits *)
Theorem C93_euclid : forall n env, full_width n -> n <= 64 -> good n env -> num (env 3%nat) = 0 ->
  exists fuel env', (forall fuel', (fuel <= fuel')%nat -> exec fuel' env euclid = Ok env') /\ good n env' /\
    num (env' 0%nat) = Z.gcd (num (env 0%nat)) (num (env 1%nat)).
Proof. exact euclid_gcd. Qed.
Print Assumptions C93_euclid.
Example C93_ex : full_width 8 /\ good 8 env8 /\ num (env8 3%nat) = 0.
Proof. exact euclid_ex. Qed.
