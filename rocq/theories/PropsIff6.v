(** Exactly when writing ranges, references to slices, the order and division laws and the construction of [big_num] objects behave as
    promised (compare [PropsIff.v]). *)
From Coq Require Import ZArith List Bool Lia.
From Verif Require Import Cpp BigNum Bit Logic More Util BigObj Spec SpecText SpecBig SpecExact SpecMachine SpecWide SpecIff SpecIff4 SpecIff5 BitExt BitMain BitMain2 BigObjProofs LogicMain TextMain PropsBig Iff23 Iff24 Iff25.
Import ListNotations.
Open Scope Z_scope.

(** C50: update(a, b, op), for ranges in either direction: which position of the source each index receives, and exactly when that is the promised one *)
Theorem C50_exact : forall x op a b, vec x -> from_zero x -> vec op -> from_zero op -> tidy op -> in_range (bmsb x) (blsb x) a -> in_range (bmsb x) (blsb x) b ->
  ((exists r, bit_update_r x a b op = Ok r /\ range_written x op (Z.min a b) (Z.max a b) r) <->
    forall i, Z.min a b <= i <= Z.max a b -> readable op (source x op (Z.min a b) i) /\ reads op (source x op (Z.min a b) i) = bit_at op (within x (Z.min a b) (Z.max a b) i)) /\
  (bit_update_r x a b op = UB <-> exists i, Z.min a b <= i <= Z.max a b /\ ~ readable op (source x op (Z.min a b) i)).
Proof. exact update_r_iff. Qed.
Print Assumptions C50_exact.
(** update<a, b>(op): the source is read at the index of the destination *)
Theorem C50_constant_iff : forall x op a b, vec x -> from_zero x -> vec op -> from_zero op -> tidy op -> in_range (bmsb x) (blsb x) a -> in_range (bmsb x) (blsb x) b ->
  ((exists r, bit_update_c x a b op = Ok r /\ range_written x op (Z.min a b) (Z.max a b) r) <->
    forall i, Z.min a b <= i <= Z.max a b -> readable op (source x op 0 i) /\ reads op (source x op 0 i) = bit_at op (within x (Z.min a b) (Z.max a b) i)) /\
  (bit_update_c x a b op = UB <-> exists i, Z.min a b <= i <= Z.max a b /\ ~ readable op (source x op 0 i)).
Proof. exact update_c_iff. Qed.
Print Assumptions C50_constant_iff.
(** update(a, b, op) of vectors [n-1:0]: sources too narrow for the range supply zeros unless they are negative *)
Theorem C50_plain_exact : forall x n s op k so a b, 1 <= n -> 1 <= k -> typed x n s -> typed op k so -> tidy op -> 0 <= a < n -> 0 <= b < n ->
  ((exists r, bit_update_r x a b op = Ok r /\ range_written x op (Z.min a b) (Z.max a b) r) <->
    Z.abs (a - b) < k \/ 65 <= k \/ (Z.abs (a - b) < computing k /\ (k = 1 \/ 0 <= value op))) /\
  (bit_update_r x a b op = UB <-> k <= 64 /\ computing k <= Z.abs (a - b)).
Proof. exact update_run_iff. Qed.
Print Assumptions C50_plain_exact.
Example C50_iff_ex : let x := bit_of_native 0 7 false 200 in let op := bit_of_native 3 0 false 5 in let y := bit_of_native 7 0 false 200 in
  vec x /\ from_zero x /\ vec op /\ from_zero op /\ tidy op /\ in_range (bmsb x) (blsb x) 3 /\ in_range (bmsb x) (blsb x) 0 /\ descending x = false /\
  (forall i, 0 <= i <= 3 -> readable op (source x op 0 i) /\ reads op (source x op 0 i) = bit_at op (within x 0 3 i)) /\
  ~ (forall i, 4 <= i <= 7 -> readable op (source x op 4 i) /\ reads op (source x op 4 i) = bit_at op (within x 4 7 i)) /\
  typed y 8 false /\ typed op 4 false /\ computing 4 = 32.
Proof. cbv zeta. do 8 (split; [conc|]). split; [intros i Hi; assert (i = 0 \/ i = 1 \/ i = 2 \/ i = 3) as [->|[->|[->| ->]]] by lia; (split; [right; vm_compute; split; [discriminate|reflexivity]|reflexivity])|].
  split; [intros A; destruct (A 4 ltac:(lia)) as [[B|[B _]] _]; vm_compute in B; apply B; reflexivity|]. conc. Qed.

(** C87: assignments through slice_ref<a, b>(), slice_ref(a, b) and slice_ref<k, up>(a) *)
Theorem C87_exact : forall x op a b, vec x -> from_zero x -> vec op -> from_zero op -> tidy op -> in_range (bmsb x) (blsb x) a -> in_range (bmsb x) (blsb x) b ->
  ((exists r, bit_slice_ref_c x a b op = Ok r /\ range_written x op (Z.min a b) (Z.max a b) r) <->
    forall i, Z.min a b <= i <= Z.max a b -> readable op (source x op 0 i) /\ reads op (source x op 0 i) = bit_at op (within x (Z.min a b) (Z.max a b) i)) /\
  ((exists r, bit_slice_ref_r x a b op = Ok r /\ range_written x op (Z.min a b) (Z.max a b) r) <->
    forall i, Z.min a b <= i <= Z.max a b -> readable op (source x op (Z.min a b) i) /\ reads op (source x op (Z.min a b) i) = bit_at op (within x (Z.min a b) (Z.max a b) i)) /\
  (forall k (up : bool), 1 <= k -> b = (if up then a + (k - 1) else a - (k - 1)) -> bit_slice_ref_idx x k up a op = bit_slice_ref_r x a b op).
Proof. exact slice_ref_iff. Qed.
Print Assumptions C87_exact.
Example C87_exact_ex : let x := bit_of_native 7 0 false 200 in let op := bit_of_native 3 0 false 5 in in_range (bmsb x) (blsb x) 6 /\ in_range (bmsb x) (blsb x) 3 /\
  (forall i, 3 <= i <= 6 -> readable op (source x op 3 i) /\ reads op (source x op 3 i) = bit_at op (within x 3 6 i)) /\ ~ (forall i, 3 <= i <= 6 -> readable op (source x op 0 i) /\ reads op (source x op 0 i) = bit_at op (within x 3 6 i)).
Proof. cbv zeta. do 2 (split; [conc|]). split; [intros i Hi; assert (i = 3 \/ i = 4 \/ i = 5 \/ i = 6) as [->|[->|[->| ->]]] by lia; (split; [right; vm_compute; split; [discriminate|reflexivity]|reflexivity])|].
  intros A. destruct (A 3 ltac:(lia)) as [_ B]. discriminate B. Qed.

(** C79: the comparisons of two vectors of one type are a total order *)
Theorem C79_exact : forall a b n s, 1 <= n -> typed a n s -> typed b n s -> tidy a -> tidy b -> ranked a b n (amount a) (amount b) <-> s = false \/ n <= 64.
Proof. exact order_laws_iff. Qed.
Print Assumptions C79_exact.
Example C79_exact_ex : typed (bit_of_native 0 0 true 1) 1 true /\ tidy (bit_of_native 0 0 true 1) /\ amount (bit_of_native 0 0 true 1) = 1 /\ typed (big 70 true [5; 2]) 70 true /\ tidy (big 70 true [5; 2]) /\ bit_eq (big 70 true [5; 2]) (big 70 true [5; 2]) = IllFormed.
Proof. conc. Qed.

(** C80: the division law beyond 64 positions *)
Theorem C80_exact : forall a b n, 65 <= n -> typed a n false -> typed b n false -> tidy a -> tidy b ->
  (exists q m p r, bit_div a b = Ok q /\ bit_rem a b = Ok m /\ num a = num q * num b + num m /\ 0 <= num m < num b /\ bit_mul q b = Ok p /\ bit_add p m = Ok r /\ num r = num a) <->
  divides_right n (num a) (num b) /\ multiplies_right n (num a / num b) (num b).
Proof. exact division_law_wide. Qed.
Print Assumptions C80_exact.
Example C80_exact_ex : typed (big 200 false [5; 2; 0; 0]) 200 false /\ tidy (big 200 false [5; 2; 0; 0]) /\ typed (big 200 false [3; 0; 0; 0]) 200 false /\ num (big 200 false [5; 2; 0; 0]) / num (big 200 false [3; 0; 0; 0]) = 12297829382473034412 /\
  omap num (bit_div (big 200 false [5; 2; 0; 0]) (big 200 false [3; 0; 0; 0])) = Ok 12297829382473034412 /\ omap num (bit_rem (big 200 false [5; 2; 0; 0]) (big 200 false [3; 0; 0; 0])) = Ok 1 /\
  omap num (bit_mul (big 200 false [12297829382473034412; 0; 0; 0]) (big 200 false [3; 0; 0; 0])) = Ok (2 ^ 65 + 4).
Proof. do 3 (split; [conc|]). do 3 (split; [vm_compute; reflexivity|]). vm_compute. reflexivity. Qed.

(** C100: a [big_num] made from a native number *)
Theorem C100_native_exact : forall n s v, 1 <= n < 2 ^ 32 -> - 2 ^ 63 <= v < 2 ^ 64 ->
  is_num (num_of_native n s v) n s /\ (magn (num_of_native n s v) = v mod 2 ^ n <-> s = true \/ 0 <= v \/ n <= 64).
Proof. exact of_native_iff. Qed.
Print Assumptions C100_native_exact.
(** a [big_num] made from a text: the words the text does not reach keep what the memory of the object held *)
Theorem C100_text_any : forall n sg mem pre size base k s, 65 <= n < 2 ^ 31 -> prefix_ok pre size -> pow2_base base k -> k <> 3 -> digits_ok k s -> no_underscore s ->
  Z.of_nat (List.length mem) = (n + 63) / 64 -> Forall (fun w => 0 <= w < 2 ^ 64) mem ->
  exists x, num_of_str n sg mem (literal pre size base s) = Ok x /\ is_num x n sg /\
    forall p, 0 <= p < n -> pos x p = if p <? (k * len s + 63) / 64 * 64 then sym_val (text_sym k s p) else Z.testbit (words_num mem) p.
Proof. exact of_str_any. Qed.
Print Assumptions C100_text_any.
(** so the number is right exactly if that is 0 *)
Theorem C100_text_exact : forall n sg mem pre size base k s, 65 <= n < 2 ^ 31 -> prefix_ok pre size -> pow2_base base k -> k <> 3 -> digits_ok k s -> no_underscore s ->
  Z.of_nat (List.length mem) = (n + 63) / 64 -> Forall (fun w => 0 <= w < 2 ^ 64) mem ->
  (exists x, num_of_str n sg mem (literal pre size base s) = Ok x /\ is_num x n sg /\ forall p, 0 <= p < n -> pos x p = sym_val (text_sym k s p)) <->
  forall p, (k * len s + 63) / 64 * 64 <= p < n -> Z.testbit (words_num mem) p = false.
Proof. exact of_str_iff. Qed.
Print Assumptions C100_text_exact.
Example C100_exact_ex : Z.of_nat (List.length [3; 0]) = (70 + 63) / 64 /\ Forall (fun w => 0 <= w < 2 ^ 64) [3; 0] /\ (4 * len [65; 66] + 63) / 64 * 64 = 64 /\ (forall p, 64 <= p < 70 -> Z.testbit (words_num [3; 0]) p = false) /\ Z.testbit (words_num [3; 1]) 64 = true.
Proof. split; [reflexivity|]. split; [repeat (apply Forall_cons; [split; [discriminate|reflexivity]|]); apply Forall_nil|]. split; [reflexivity|]. split; [|reflexivity]. intros p Hp. assert (p = 64 \/ p = 65 \/ p = 66 \/ p = 67 \/ p = 68 \/ p = 69) as D by lia.
  repeat (destruct D as [->|D]; [reflexivity|]). subst p. reflexivity. Qed.

