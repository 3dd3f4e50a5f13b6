(** Exactly which conversions between vector types exist and what they give (C145), and exactly when positions outside the range, split and
    joined vectors, comparisons of 4-state with 2-state vectors and comparisons of results behave as promised (compare [PropsIff.v]). *)
From Coq Require Import ZArith List Bool Lia.
From Verif Require Import Cpp BigNum Bit Logic More Rest Spec SpecExact SpecMachine SpecWide SpecIff4 Reach BitExt BitMain BitMain2 LogicProofs LogicMain LogicRed LogicArith TextMain ArrProofs Iff18 Iff19 Iff20 Iff21 Iff22.
Import ListNotations.
Open Scope Z_scope.

(** C145: an object where a vector of another type is expected, 2-state *)
Theorem C145_exact : forall msb lsb s a, declarable msb lsb -> vec a -> tidy a ->
  ((exists r, bit_convert msb lsb s a = Ok r) <-> acceptable msb lsb s (bmsb a) (blsb a) (bsgn a)) /\
  (~ acceptable msb lsb s (bmsb a) (blsb a) (bsgn a) -> bit_convert msb lsb s a = IllFormed) /\
  (forall r, bit_convert msb lsb s a = Ok r ->
     vec r /\ bmsb r = msb /\ blsb r = lsb /\ bsgn r = s /\
     (bmsb a = msb -> blsb a = lsb -> bsgn a = s -> r = a) /\
     num r = if width msb lsb =? 1 then (if amount a =? 0 then 0 else 1) else (amount a) mod 2 ^ width msb lsb).
Proof. exact convert_exact. Qed.
Print Assumptions C145_exact.
Example C145_exact_ex : declarable 15 0 /\ vec (bit_of_native 7 0 true (-3)) /\ tidy (bit_of_native 7 0 true (-3)) /\ acceptable 15 0 false 7 0 true /\ ~ acceptable 15 0 false 7 0 false /\ acceptable 7 0 false 7 0 false /\ ~ acceptable 99 0 true 7 0 true /\
  omap num (bit_convert 15 0 false (bit_of_native 7 0 true (-3))) = Ok 65533 /\ bit_convert 99 0 true (bit_of_native 7 0 true (-3)) = IllFormed.
Proof. split; [conc|]. split; [conc|]. split; [conc|]. split; [right; split; [reflexivity|left; vm_compute; split; discriminate]|].
  split; [intros [(A & _)|(A & _)]; discriminate A|]. split; [left; repeat split|]. split; [intros [(A & _)|(_ & [(_ & A)|(A & _)])]; [discriminate A|revert A; vm_compute; congruence|revert A; vm_compute; congruence]|]. split; vm_compute; reflexivity. Qed.

(** and 4-state: x and z positions are copied, the position of the sign is repeated as a known bit *)
Theorem C145_logic_exact : forall msb lsb s l, declarable msb lsb -> lvec l -> ltidy l ->
  ((exists r, logic_convert msb lsb s l = Ok r) <-> acceptable msb lsb s (lmsb l) (llsb l) (lsgn l)) /\
  (~ acceptable msb lsb s (lmsb l) (llsb l) (lsgn l) -> logic_convert msb lsb s l = IllFormed) /\
  (forall r, logic_convert msb lsb s l = Ok r ->
     lvec r /\ lmsb r = msb /\ llsb r = lsb /\ lsgn r = s /\
     (lmsb l = msb -> llsb l = lsb -> lsgn l = s -> r = l) /\
     (2 <= width msb lsb -> forall p, 0 <= p < width msb lsb -> sym_at r p = if p <? lw l then sym_at l p else sym_of_bool ((1 <? lw l) && bit_at (l_val l) (lw l - 1))) /\
     (width msb lsb = 1 -> sym_at r 0 = sym_of (negb (num (l_val l) =? 0)) (negb (num (l_xz l) =? 0)))).
Proof. exact lconvert_exact. Qed.
Print Assumptions C145_logic_exact.
Example C145_logic_exact_ex : let l := mkLogic (bit_of_native 3 0 true (-6)) (bit_of_native 3 0 false 1) in
  declarable 5 0 /\ lvec l /\ ltidy l /\ acceptable 5 0 true 3 0 true /\ sym_at l 0 = SX /\ omap (fun r => (sym_at r 0, sym_at r 1, sym_at r 5)) (logic_convert 5 0 true l) = Ok (SX, S1, S1).
Proof. cbv zeta. split; [conc|]. split; [conc|]. split; [conc|]. split; [right; split; [reflexivity|left; vm_compute; split; discriminate]|]. split; vm_compute; reflexivity. Qed.

(** C101: reading a position outside the declared range *)
Theorem C101_exact : forall a n s i, 1 <= n -> typed a n s -> tidy a -> int_ok i -> ~ (0 <= i < n) ->
  (bit_get a i = Ok false <-> 65 <= n \/ (0 <= i < computing n /\ (n = 1 \/ 0 <= value a))) /\
  (bit_get a i = UB <-> n <= 64 /\ ~ (0 <= i < computing n)).
Proof. exact outside_iff. Qed.
Print Assumptions C101_exact.
Example C101_exact_ex : typed (bit_of_native 4 0 true 9) 5 true /\ tidy (bit_of_native 4 0 true 9) /\ 0 <= value (bit_of_native 4 0 true 9) /\ bit_get (bit_of_native 4 0 true 9) 20 = Ok false /\ value (bit_of_native 4 0 true (-9)) < 0 /\ bit_get (bit_of_native 4 0 true (-9)) 20 = Ok true /\
  bit_get (bit_of_native 4 0 true 9) 32 = UB /\ computing 5 = 32.
Proof. conc. Qed.

(** C10: concatenation of 4-state vectors *)
Theorem C10_logic_exact : forall a b na nb, 1 <= na -> 1 <= nb -> ltyped a na false -> ltyped b nb false -> ltidy a -> ltidy b ->
  (exists r, logic_concat a b = Ok r /\ forall p, 0 <= p < na + nb -> sym_at r p = if p <? nb then sym_at b p else sym_at a (p - nb)) <->
  na + nb < 64 /\ (33 <= na \/ (nb <= 31 /\ forall p, 32 - nb <= p < na -> sym_at a p = S0)).
Proof. exact ljoin_iff. Qed.
Print Assumptions C10_logic_exact.
Example C10_logic_exact_ex : ltyped (k4 20 7) 20 false /\ ltidy (k4 20 7) /\ ltyped (k4 40 7) 40 false /\ ltidy (k4 40 7) /\ logic_concat (k4 40 7) (k4 20 7) = Ok (k4 60 (7 * 2 ^ 20 + 7)) /\ logic_concat (k4 20 7) (k4 30 3) <> Ok (k4 50 (7 * 2 ^ 30 + 3)) /\ logic_concat (k4 20 3) (k4 30 3) = Ok (k4 50 (3 * 2 ^ 30 + 3)).
Proof. conc. Qed.

(** C85: slicing a concatenation gives the operands back *)
Theorem C85_slices_exact : forall a b na nb, 1 <= na -> 1 <= nb -> typed a na false -> typed b nb false -> tidy a -> tidy b ->
  (exists r, bit_concat a b = Ok r /\ bit_slice_c r (nb - 1) 0 = Ok b /\ bit_slice_c r (na + nb - 1) nb = Ok a) <->
  na + nb < 64 /\ (33 <= na \/ (nb <= 31 /\ num a * 2 ^ nb < 2 ^ 32)).
Proof. exact bit_slices_iff. Qed.
Print Assumptions C85_slices_exact.
(** concatenating the two parts of a vector gives the vector *)
Theorem C85_split_exact : forall x n k, 1 <= k < n -> typed x n false -> tidy x ->
  (exists hi lo, bit_slice_c x (n - 1) k = Ok hi /\ bit_slice_c x (k - 1) 0 = Ok lo /\ bit_concat hi lo = Ok x) <->
  n < 64 /\ (33 <= n - k \/ (k <= 31 /\ num x < 2 ^ 32)).
Proof. exact bit_split_iff. Qed.
Print Assumptions C85_split_exact.
(** the same for 4-state vectors *)
Theorem C85_logic_slices_exact : forall a b na nb, 1 <= na -> 1 <= nb -> ltyped a na false -> ltyped b nb false -> ltidy a -> ltidy b ->
  (exists r, logic_concat a b = Ok r /\ logic_slice_c r (nb - 1) 0 = Ok b /\ logic_slice_c r (na + nb - 1) nb = Ok a) <->
  na + nb < 64 /\ (33 <= na \/ (nb <= 31 /\ forall p, 32 - nb <= p < na -> sym_at a p = S0)).
Proof. exact logic_slices_iff. Qed.
Print Assumptions C85_logic_slices_exact.
Theorem C85_logic_split_exact : forall x n k, 1 <= k < n -> ltyped x n false -> ltidy x ->
  (exists hi lo, logic_slice_c x (n - 1) k = Ok hi /\ logic_slice_c x (k - 1) 0 = Ok lo /\ logic_concat hi lo = Ok x) <->
  n < 64 /\ (33 <= n - k \/ (k <= 31 /\ forall p, 32 <= p < n -> sym_at x p = S0)).
Proof. exact logic_split_iff. Qed.
Print Assumptions C85_logic_split_exact.
Example C85_exact_ex : typed (bit_of_native 39 0 false (2 ^ 31)) 40 false /\ tidy (bit_of_native 39 0 false (2 ^ 31)) /\ num (bit_of_native 39 0 false (2 ^ 31)) < 2 ^ 32 /\ ltyped (k4 40 (2 ^ 31)) 40 false /\ ltidy (k4 40 (2 ^ 31)) /\ (bit_concat (bit_of_native 19 0 false (2 ^ 11)) (bit_of_native 19 0 false 0) = Ok (bit_of_native 39 0 false (2 ^ 31))) /\
  bit_concat (bit_of_native 19 0 false (2 ^ 12)) (bit_of_native 19 0 false 0) <> Ok (bit_of_native 39 0 false (2 ^ 32)).
Proof. conc. Qed.

(** C12: unpacking a 4-state vector into any number of variables and joining them again gives the vector *)
Theorem C12_exact : forall l n t ts, ltyped l n false -> Forall (fun t => ltyped t (lw t) false) (t :: ts) -> total (map lw (t :: ts)) = n -> (n <= 64 \/ Forall (fun t => lw t <> 65) (t :: ts)) ->
  (exists r rs c, logic_unpack l (t :: ts) = Ok (r :: rs) /\ ofold logic_concat rs r = Ok c /\ forall p, 0 <= p < n -> sym_at c p = sym_at l p) <-> steps_fit l n (lw t) (map lw ts).
Proof. exact unpack_join_iff. Qed.
Print Assumptions C12_exact.
Example C12_exact_ex : ltyped (k4 36 5) 36 false /\ Forall (fun t => ltyped t (lw t) false) [k4 12 0; k4 12 0; k4 12 0] /\ total (map lw [k4 12 0; k4 12 0; k4 12 0]) = 36 /\
  steps_fit (k4 36 5) 36 12 [12; 12] /\ ~ steps_fit (k4 36 (2 ^ 33)) 36 12 [12; 12].
Proof. split; [conc|]. split; [repeat (apply Forall_cons; [conc|]); apply Forall_nil|]. split; [conc|]. split.
  - intros pre w post E. split; [reflexivity|]. right. destruct pre as [|x [|y [|z pre]]]; cbn in E; inversion E; subst; try discriminate; (split; [vm_compute; discriminate|]); intros p P; cbn in P;
      assert (p = 32 \/ p = 33 \/ p = 34 \/ p = 35) as [->|[->|[->| ->]]] by lia; reflexivity.
  - intros A. destruct (A [12] 12 [] eq_refl) as [_ [B|[_ B]]]; [revert B; vm_compute; congruence|]. specialize (B 33 ltac:(cbn; lia)). revert B. vm_compute. discriminate. Qed.

(** C111: comparing an unsigned 4-state with a signed 2-state vector compares with the number the conversion gives *)
Theorem C111_mixed : forall a b n, 1 <= n -> ltyped a n false -> typed b n true -> ltidy a -> tidy b -> seen a ->
  forall lop z, In (lop, z) comparisons ->
  exists r, logic_cmp_bit lop a b = Ok r /\ ltyped r 1 false /\
    (~ known a -> sym_at r 0 = SX) /\ (known a -> sym_at r 0 = sym_of_bool (z (num (l_val a)) (received b))).
Proof. exact cmp_mixed. Qed.
Print Assumptions C111_mixed.
(** which is the comparison of the numbers exactly if *)
Theorem C111_mixed_exact : forall a b n, 1 <= n -> ltyped a n false -> typed b n true -> ltidy a -> tidy b -> seen a ->
  forall lop z, In (lop, z) comparisons ->
  (exists r, logic_cmp_bit lop a b = Ok r /\ (~ known a -> sym_at r 0 = SX) /\ (known a -> sym_at r 0 = sym_of_bool (z (num (l_val a)) (num b)))) <->
  (known a -> clean_copy b \/ z (num (l_val a)) (num b) = z (num (l_val a)) (num b + (2 ^ storage n - 2 ^ n))).
Proof. exact cmp_mixed_iff. Qed.
Print Assumptions C111_mixed_exact.
(** and matching *)
Theorem C111_match_exact : forall a b n, 1 <= n -> ltyped a n false -> typed b n true -> ltidy a -> tidy b ->
  (exists c, logic_match_bit a b = Ok c /\ logic_nmatch_bit a b = Ok (negb c) /\ (c = true <-> forall p, 0 <= p < n -> sym_at a p = sym_of_bool (bit_at b p))) <->
  clean_copy b \/ ~ (forall p, 0 <= p < n -> sym_at a p = sym_of_bool (bit_at b p)).
Proof. exact match_mixed_iff. Qed.
Print Assumptions C111_match_exact.
Example C111_mixed_exact_ex : ltyped (k4 5 30) 5 false /\ typed (bit_of_native 4 0 true (-3)) 5 true /\ ltidy (k4 5 30) /\ tidy (bit_of_native 4 0 true (-3)) /\ seen (k4 5 30) /\ known (k4 5 30) /\ In (logic_gt, Z.gtb) comparisons /\ ~ clean_copy (bit_of_native 4 0 true (-3)) /\
  num (bit_of_native 4 0 true (-3)) = 29 /\ received (bit_of_native 4 0 true (-3)) = 253 /\ (30 >? 29) = true /\ (30 >? 253) = false /\ (12 >? 29) = (12 >? 253).
Proof. split; [conc|]. split; [conc|]. split; [conc|]. split; [conc|]. split; [vis|]. split; [apply known_of_num0; reflexivity|]. split; [do 3 right; left; reflexivity|].
  split; [intros [A|[A|[A|A]]]; revert A; vm_compute; try discriminate; congruence|]. repeat split. Qed.

(** C78: comparing vectors whose storage may hold results that overflowed the width *)
Theorem C78_exact : forall a b n, 1 <= n -> typed a n false -> typed b n false ->
  (bit_eq a b = Ok (num a =? num b) <-> num a <> num b \/ stored a = stored b) /\
  (bit_lt a b = Ok (num a <? num b) <-> (num a < num b <-> stored a < stored b)) /\
  (bit_ge a b = Ok (num b <=? num a) <-> (num a < num b <-> stored a < stored b)).
Proof. exact compare_iff. Qed.
Print Assumptions C78_exact.
Example C78_exact_ex : typed (mkBit 3 0 false (HN 21)) 4 false /\ typed (mkBit 3 0 false (HN 6)) 4 false /\ num (mkBit 3 0 false (HN 21)) = 5 /\ stored (mkBit 3 0 false (HN 21)) = 21 /\ bit_lt (mkBit 3 0 false (HN 21)) (mkBit 3 0 false (HN 6)) = Ok false /\ bit_lt (mkBit 3 0 false (HN 6)) (mkBit 3 0 false (HN 21)) = Ok true.
Proof. conc. Qed.

