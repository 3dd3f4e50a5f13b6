(** Property theorems about client programs: sequences of calls and expression trees.  Programs, their execution and
    their meaning are in Client.v and Client4.v; [typed b n s] says that [b] is a bit<n-1, 0, s>, [bit_at b p] is the bit
    in position [p], [num b] the unsigned number. *)
From Coq Require Import ZArith List Bool Lia.
From Verif Require Import Cpp BigNum Bit Logic Spec BitMain BitMain5 LogicProofs LogicOps LogicRed LogicArith LogicArith2 LogicConv LogicConv2 LogicMain Client ClientProofs LawProofs Client4 Client4Proofs CounterProofs.
Import ListNotations.
Open Scope Z_scope.

Definition u8_200 := bit_of_native 7 0 false 200.
Definition u8_77 := bit_of_native 7 0 false 77.
Definition u4_5 := bit_of_native 3 0 false 5.
Definition u4_1 := bit_of_native 3 0 false 1.
Definition u4_6 := bit_of_native 3 0 false 6.
Definition u70_9 := bit_of_arith 69 0 false (2 ^ 63 + 9).
Definition env8 : nat -> bit := two u8_200 u8_77.
(** 8 bits 10zx_0110, 1100_1000, and a known 4-bit 5 *)
Definition e1 := mkLogic (bit_of_native 7 0 false 166) (bit_of_native 7 0 false 48).
Definition k1 := mkLogic u8_200 (bit_of_native 7 0 false 0).
(** 70 bits: 1 in position 69, x in position 3, 0 elsewhere; and the known 2^63 + 9 *)
Definition w70 := mkLogic (mkBit 69 0 false (HB [0; 32])) (mkBit 69 0 false (HB [8; 0])).
Definition k70 := mkLogic u70_9 (bit_of_arith 69 0 false 0).
Definition k5 := mkLogic u4_5 (bit_of_native 3 0 false 0).

(** C71 *)
Theorem C71_last_write_wins : forall n s ws b, 1 <= n -> typed b n s -> Forall (valid2 n) ws ->
  exists r, ofold run2 ws b = Ok r /\ typed r n s /\ forall p, 0 <= p < n -> last_write covers2 puts2 ws p (bit_at b p) (bit_at r p).
Proof. exact writes2. Qed.
Print Assumptions C71_last_write_wins.
Example C71_ex : typed u70_9 70 false /\ Forall (valid2 70) [Set2 69 true; Range2 60 67 u8_200; Set2 63 false; Range2 5 2 u4_5].
Proof. split; [conc|]. repeat constructor; cbn; try lia; conc. Qed.

(** C72: copying 70 positions from a 70-bit vector reaches shifts by 64 and more *)
Theorem C72_refuted : exists x op, ltyped x 70 false /\ ltidy x /\ ltyped op 70 false /\ ltidy op /\ logic_update_r x 69 0 op = UB.
Proof. exact update_counter. Qed.
Print Assumptions C72_refuted.
(** Missing: sources with an x or z in the positions from 64 on. *)
Theorem C72_last_write_wins_partial : forall n s ws l, 1 <= n -> ltyped l n s -> Forall (valid4 n) ws ->
  exists r, ofold run4 ws l = Ok r /\ ltyped r n s /\ forall p, 0 <= p < n -> last_write covers4 puts4 ws p (sym_at l p) (sym_at r p).
Proof. exact writes4. Qed.
Print Assumptions C72_last_write_wins_partial.
Example C72_ex : ltyped e1 8 false /\ Forall (valid4 8) [Set4 7 SZ; Range4 0 7 e1; Set4 3 SX; Range4 6 4 k5].
Proof. split; [conc|]. repeat constructor; cbn; try lia; conc. Qed.

(** C73 *)
Theorem C73_counting : forall (up : bool) n s k, 2 <= n -> forall b, typed b n s ->
  exists r, ofold (fun x (_ : unit) => if up then bit_inc x else bit_dec x) (repeat tt k) b = Ok r /\ typed r n s /\
    num r = (num b + (if up then 1 else -1) * Z.of_nat k) mod 2 ^ n.
Proof. exact count_up. Qed.
Print Assumptions C73_counting.
Example C73_ex : typed u70_9 70 false /\ typed (bit_of_native 7 0 true (-3)) 8 true.
Proof. conc. Qed.

(** C74: a 70-bit vector whose only x is in position 40 is counted up to a known number *)
Theorem C74_refuted : exists a r, ltyped a 70 false /\ ltidy a /\ sym_at a 40 = SX /\ logic_inc a = Ok r /\ known r.
Proof. exact count_counter. Qed.
Print Assumptions C74_refuted.
(** C74.  Missing: vectors of more than 64 bits whose x and z all go unnoticed (C44). *)
Theorem C74_counting_partial : forall (up : bool) n s k, 2 <= n -> forall a, ltyped a n s -> tidy (l_xz a) -> seen a ->
  exists r, ofold (fun x (_ : unit) => if up then logic_inc x else logic_dec x) (repeat tt k) a = Ok r /\ ltyped r n s /\
    (known a -> known r /\ num (l_val r) = (num (l_val a) + (if up then 1 else -1) * Z.of_nat k) mod 2 ^ n) /\
    (~ known a -> k <> 0%nat -> all_x r).
Proof. exact count4. Qed.
Print Assumptions C74_counting_partial.
Example C74_ex : ltyped e1 8 false /\ tidy (l_xz e1) /\ seen e1 /\ ltyped k1 8 false /\ tidy (l_xz k1) /\ known k1 /\ ltyped w70 70 false /\ tidy (l_xz w70) /\ seen w70.
Proof. do 2 (split; [conc|]). split; [left; vm_compute; discriminate|]. do 2 (split; [conc|]). split; [apply known_of_num0; reflexivity|]. do 2 (split; [conc|]). right. vis. Qed.

(** C75 *)
Theorem C75_refuted : exists env, good 16 env /\ eval env (Mul (Var 0) (Var 0)) = UB.
Proof. exact product_counter. Qed.
Print Assumptions C75_refuted.
(** Missing: what [supported] leaves out, namely 9- to 16-bit products of 2^31 and more, multi-word products except those of
    [factors], multi-word negation, multi-word quotients where an operand's words defeat the library's tests for zero,
    division of intermediate results at widths with storage above the positions. *)
Theorem C75_expressions_partial : forall n env e, 2 <= n -> good n env -> supported n (fun k => num (env k)) e ->
  exists r, eval env e = Ok r /\ typed r n false /\ num r = meaning n (fun k => num (env k)) e /\ (full_width n \/ neat e -> tidy r).
Proof. exact eval_meaning. Qed.
Print Assumptions C75_expressions_partial.
Example C75_ex : good 8 env8 /\
  supported 8 (fun k => num (env8 k)) (Add (Mul (Var 0) (Not (Var 1))) (Div (Sub (Var 1) (Var 0)) (Neg (Xor (Shl (Var 0) u4_1) (Shr (Var 1) u4_5))))).
Proof.
  split; [intros [|k]; cbn [two env8]; conc|]. cbn [supported]. unfold full_width, amount. repeat split; try lia; try (left; lia); try conc; try (vm_compute; discriminate); try (intro; lia).
Qed.
Example C75_ex70 : good 70 (fun _ => u70_9) /\ supported 70 (fun _ => num u70_9) (Add (Mul (Shr (Var 0) u4_5) (Shr (Var 0) u4_6)) (Div (Var 0) (Shr (Var 0) u4_1))).
Proof.
  split; [intros k; conc|].
  assert (A : forall k, bw k = 4 -> vec k -> tidy k -> value k < 70 -> 0 <= value k -> amount 70 k) by (intros k W V Y H H0; split; [exact V|]; split; [exact Y|]; split; [lia|]; intros _; lia).
  assert (A5 : amount 70 u4_5) by (apply A; conc). assert (A6 : amount 70 u4_6) by (apply A; conc). assert (A1 : amount 70 u4_1) by (apply A; conc).
  cbn [supported neat].
  assert (E0 : meaning 70 (fun _ => num u70_9) (Var 0) = 9223372036854775817) by (vm_compute; reflexivity).
  assert (E1 : meaning 70 (fun _ => num u70_9) (Shr (Var 0) u4_1) = 4611686018427387908) by (vm_compute; reflexivity).
  assert (E5 : meaning 70 (fun _ => num u70_9) (Shr (Var 0) u4_5) = 288230376151711744) by (vm_compute; reflexivity).
  assert (E6 : meaning 70 (fun _ => num u70_9) (Shr (Var 0) u4_6) = 144115188075855872) by (vm_compute; reflexivity).
  rewrite E0, E1, E5, E6. repeat (split; [tauto|]). split; [repeat (split; [tauto|])|repeat (split; [tauto|])].
  - right. right. split; [tauto|]. right. split; [lia|]. split; [exact vis_0|]. split; [exact vis_0|]. exists 1, 1. repeat split; (lia || reflexivity).
  - split; [discriminate|]. intros _. split; [vis|]. split; exact vis_0.
Qed.

(** C76: x & 0 is x *)
Theorem C76_refuted : exists env, good4 2 env /\ exists r, eval4 env (And (Var 0) (Var 1)) = Ok r /\
  sym_at r 0 = SX /\ meaning4 2 (fun k => sym_at (env k)) (And (Var 0) (Var 1)) 0 = S0.
Proof. exact and_counter. Qed.
Print Assumptions C76_refuted.
(** Missing: what [supported4] leaves out. *)
Theorem C76_expressions_partial : forall n env, 2 <= n -> good4 n env -> forall e, supported4 n (fun k => sym_at (env k)) e ->
  exists r, eval4 env e = Ok r /\ ltyped r n false /\ tidy (l_xz r) /\ (full_width n \/ neat4 e -> tidy (l_val r)) /\
    forall p, 0 <= p < n -> sym_at r p = meaning4 n (fun k => sym_at (env k)) e p.
Proof. exact eval4_meaning. Qed.
Print Assumptions C76_expressions_partial.
Example C76_ex : good4 8 (two e1 k1) /\
  supported4 8 (fun k => sym_at (two e1 k1 k)) (Xor (Not (Var 0)) (Add (Mul (Var 1) (Shl (Var 1) k5)) (Div (Var 1) (Neg (Var 1))))) /\
  supported4 8 (fun k => sym_at (two e1 k1 k)) (Add (Var 0) (Shr (Var 1) k5)).
Proof.
  split; [intros [|k]; cbn [two]; conc|]. cbn [supported4]. unfold full_width, amount4. repeat split; try lia; try (left; lia); try conc; try (vm_compute; discriminate).
Qed.
Example C76_ex70 : good4 70 (two w70 k70) /\ supported4 70 (fun k => sym_at (two w70 k70 k)) (Xor (Not (Var 0)) (Add (Var 0) (Shr (Sub (Var 1) (Var 1)) k5))).
Proof.
  split; [intros [|k]; cbn [two]; conc|]. cbn [supported4].
  assert (N1 : noticed 70 (meaning4 70 (fun k => sym_at (two w70 k70 k)) (Var 1))) by (right; left; vm_compute; reflexivity).
  assert (N0 : noticed 70 (meaning4 70 (fun k => sym_at (two w70 k70 k)) (Var 0))) by (right; right; exists 3; split; [lia|]; split; vm_compute; reflexivity).
  assert (N2 : noticed 70 (meaning4 70 (fun k => sym_at (two w70 k70 k)) (Sub (Var 1) (Var 1)))) by (right; left; vm_compute; reflexivity).
  assert (N3 : noticed 70 (meaning4 70 (fun k => sym_at (two w70 k70 k)) (Shr (Sub (Var 1) (Var 1)) k5))) by (right; left; vm_compute; reflexivity).
  assert (A : amount4 70 k5) by (split; [conc|]; split; [conc|]; split; [conc|]; intros _; vm_compute; reflexivity).
  split; [exact I|]. split; [exact I|]. split; [split; [split; [exact I|]; split; [exact I|]; split; [exact N1|exact N1]|]; split; [exact N2|exact A]|]. split; [exact N0|exact N3].
Qed.

(** C77 *)
Theorem C77_bitwise : forall n env, 2 <= n -> good n env -> forall a b c,
  supported n (fun k => num (env k)) a -> supported n (fun k => num (env k)) b -> supported n (fun k => num (env k)) c ->
  Forall (agree n env) (bitwise_laws a b c).
Proof. exact laws_bitwise. Qed.
Print Assumptions C77_bitwise.
Theorem C77_additive : forall n env, 2 <= n -> good n env -> forall a b c,
  supported n (fun k => num (env k)) a -> supported n (fun k => num (env k)) b -> supported n (fun k => num (env k)) c ->
  Forall (agree n env) (additive_laws a b c).
Proof. exact laws_additive. Qed.
Print Assumptions C77_additive.
(** (a * b) * b is defined and a * (b * b) is not; a + (-a) of 70 bits does not compile *)
Theorem C77_refuted : 
  (exists env s, good 16 env /\ eval env (Mul (Mul (Var 0) (Var 1)) (Var 1)) = Ok s /\ eval env (Mul (Var 0) (Mul (Var 1) (Var 1))) = UB) /\
  (exists env, good 70 env /\ eval env (Add (Var 0) (Neg (Var 0))) = IllFormed).
Proof. exact products_counter. Qed.
Print Assumptions C77_refuted.
(** Missing: multi-word negation. *)
Theorem C77_negation_partial : forall n env, 2 <= n -> good n env -> forall a b, n <= 64 ->
  supported n (fun k => num (env k)) a -> supported n (fun k => num (env k)) b -> Forall (agree n env) (negation_laws a b).
Proof. exact laws_negation. Qed.
Print Assumptions C77_negation_partial.
(** Missing: products of 9 to 16 bits (undefined behaviour, C75_refuted) and of more than 64 bits. *)
Theorem C77_product_partial : forall n env, 2 <= n -> good n env -> forall a b c, n <= 8 \/ 17 <= n <= 64 ->
  supported n (fun k => num (env k)) a -> supported n (fun k => num (env k)) b -> supported n (fun k => num (env k)) c ->
  Forall (agree n env) (product_laws a b c).
Proof. exact laws_product. Qed.
Print Assumptions C77_product_partial.
Example C77_ex : good 8 env8 /\ supported 8 (fun k => num (env8 k)) (Not (Var 0)) /\ supported 8 (fun k => num (env8 k)) (Add (Var 0) (Var 1)) /\
  good 70 (fun _ => u70_9) /\ supported 70 (fun k => num u70_9) (Sub (Not (Var 0)) (Var 1)).
Proof. split; [intros [|k]; cbn [two env8]; conc|]. cbn [supported]. repeat split; try lia; conc. Qed.

(** C78: 8 + 8 and 0 are equal in all four positions but not [==] *)
Theorem C78_refuted : exists env, good 4 env /\ exists r s, eval env (Add (Var 0) (Var 0)) = Ok r /\ eval env (Var 1) = Ok s /\
  (forall i, 0 <= i < 4 -> bit_at r i = bit_at s i) /\ bit_eq r s = Ok false.
Proof. exact eq_after_add_counter. Qed.
Print Assumptions C78_refuted.
(** Missing: results of [+], [-], [*], [~], [<<] at widths other than 8, 16, 32, 64 and multiples of 64. *)
Theorem C78_compare_results_partial : forall n env e f, 2 <= n -> good n env ->
  supported n (fun k => num (env k)) e -> supported n (fun k => num (env k)) f -> full_width n \/ neat e /\ neat f ->
  exists r s, eval env e = Ok r /\ eval env f = Ok s /\
    bit_eq r s = Ok (meaning n (fun k => num (env k)) e =? meaning n (fun k => num (env k)) f) /\
    bit_lt r s = Ok (meaning n (fun k => num (env k)) e <? meaning n (fun k => num (env k)) f) /\
    bit_ge r s = Ok (meaning n (fun k => num (env k)) f <=? meaning n (fun k => num (env k)) e).
Proof. exact eq_eval. Qed.
Print Assumptions C78_compare_results_partial.
Example C78_ex : good 8 env8 /\ supported 8 (fun k => num (env8 k)) (Add (Var 0) (Var 1)) /\ full_width 8 /\
  good 70 (fun _ => u70_9) /\ neat (Xor (And (Var 0) (Var 1)) (Var 2)).
Proof. split; [intros [|k]; cbn [two env8]; conc|]. unfold full_width. cbn [supported neat]. repeat split; try lia; conc. Qed.

(** C79: comparing the most negative 70-bit signed vector with itself does not terminate *)
Theorem C79_refuted : exists a ws, typed a 70 true /\ tidy a /\ bval a = HB ws /\ bit_gt a a = Fuel /\
  forall fuel, bn_gt_f fuel 70 true ws 70 true ws = Fuel.
Proof. exact signed_order_counter. Qed.
Print Assumptions C79_refuted.
(** Missing: signed vectors of more than 64 bits. *)
Theorem C79_trichotomy_partial : forall a b n s, 1 <= n -> typed a n s -> typed b n s -> tidy a -> tidy b -> (s = true -> 2 <= n <= 64) ->
  exists lt eq gt, bit_lt a b = Ok lt /\ bit_eq a b = Ok eq /\ bit_gt a b = Ok gt /\
    (lt, eq, gt) = (match value a ?= value b with Lt => (true, false, false) | Eq => (false, true, false) | Gt => (false, false, true) end) /\
    bit_le a b = Ok (lt || eq) /\ bit_ge a b = Ok (gt || eq) /\ bit_ne a b = Ok (negb eq) /\
    bit_gt b a = Ok lt /\ bit_lt b a = Ok gt /\ bit_eq b a = Ok eq /\
    (eq = true <-> forall i, 0 <= i < n -> bit_at a i = bit_at b i).
Proof. exact order_laws. Qed.
Print Assumptions C79_trichotomy_partial.
Theorem C79_transitive_partial : forall a b c n s, 1 <= n -> typed a n s -> typed b n s -> typed c n s -> tidy a -> tidy b -> tidy c -> (s = true -> 2 <= n <= 64) ->
  (bit_lt a b = Ok true -> bit_lt b c = Ok true -> bit_lt a c = Ok true) /\
  (bit_le a b = Ok true -> bit_le b c = Ok true -> bit_le a c = Ok true) /\
  (bit_le a b = Ok true -> bit_lt b c = Ok true -> bit_lt a c = Ok true) /\
  (bit_eq a b = Ok true -> bit_eq b c = Ok true -> bit_eq a c = Ok true).
Proof. exact order_trans. Qed.
Print Assumptions C79_transitive_partial.
Example C79_ex : typed u8_77 8 false /\ typed u8_200 8 false /\ tidy u8_77 /\ tidy u8_200 /\ bit_lt u8_77 u8_200 = Ok true /\ typed u70_9 70 false /\ tidy u70_9.
Proof. conc. Qed.

(** C80: (a / 1) * 1 + a % 1 of 70 bits is undefined *)
Theorem C80_refuted : exists env, good 70 env /\ num (env 1%nat) = 1 /\ eval env (Add (Mul (Div (Var 0) (Var 1)) (Var 1)) (Rem (Var 0) (Var 1))) = UB.
Proof. exact divide_counter. Qed.
Print Assumptions C80_refuted.
(** every pair of expressions up to 64 bits that have a value, whatever they contain; [amounts_vec]: shift amounts are vectors.  Missing: more than 64 bits (false) *)
Theorem C80_native_partial : forall n env a b x y, 1 <= n <= 64 -> (forall k, typed (env k) n false) -> amounts_vec a -> amounts_vec b ->
  eval env a = Ok x -> eval env b = Ok y -> num y <> 0 ->
  exists r s, eval env (Rem a b) = Ok r /\ bit_lt r y = Ok true /\ eval env (Add (Mul (Div a b) b) (Rem a b)) = Ok s /\ typed s n false /\ num s = num x /\ bit_eq s x = Ok true.
Proof. exact law_divide_native. Qed.
Print Assumptions C80_native_partial.
Example C80_native_ex : let env := fun k : nat => if Nat.eqb k 0 then bit_of_native 11 0 false 3000 else bit_of_native 11 0 false 16 in
  amounts_vec (Div (Not (Sub (Var 0) (Var 0))) (Var 1)) /\ (forall k, typed (env k) 12 false) /\ num (env 1%nat) <> 0 /\
  (exists x, eval env (Div (Not (Sub (Var 0) (Var 0))) (Var 1)) = Ok x /\ num x = 4095).
Proof. split; [vm_compute; tauto|]. split; [intros [|k]; conc|]. split; [vm_compute; discriminate|]. eexists. split; vm_compute; reflexivity. Qed.
(** C80.  Missing: vectors of more than 64 bits, and intermediate results at widths with storage above the positions. *)
Theorem C80_division_partial : forall n env, 2 <= n -> good n env -> forall a b, n <= 64 ->
  supported n (fun k => num (env k)) a -> supported n (fun k => num (env k)) b -> full_width n \/ neat a /\ neat b ->
  meaning n (fun k => num (env k)) b <> 0 ->
  agree n env (Add (Mul (Div a b) b) (Rem a b), a) /\
  exists x y, eval env (Rem a b) = Ok x /\ eval env b = Ok y /\ bit_lt x y = Ok true.
Proof. exact law_divide. Qed.
Print Assumptions C80_division_partial.
Example C80_ex : good 8 env8 /\ full_width 8 /\ meaning 8 (fun k => num (env8 k)) (Sub (Var 1) (Var 0)) = 133.
Proof. split; [intros [|k]; cbn [two env8]; conc|]. unfold full_width. split; [lia|reflexivity]. Qed.

(** C81 *)
Theorem C81_shifts : forall n env, 2 <= n -> good n env -> forall a i j k, supported n (fun k => num (env k)) a ->
  amount n i -> amount n j -> amount n k -> value k = value i + value j ->
  Forall (agree n env) [(Shl (Shl a i) j, Shl a k); (Shr (Shr a i) j, Shr a k); (Shl (Shr (Shl a i) i) i, Shl a i); (Shr (Shl (Shr a i) i) i, Shr a i)].
Proof. exact law_shift. Qed.
Print Assumptions C81_shifts.
Example C81_ex : good 8 env8 /\ amount 8 u4_5 /\ amount 8 u4_1 /\ amount 8 u4_6 /\ value u4_6 = value u4_5 + value u4_1 /\ good 70 (fun _ => u70_9) /\ amount 70 u4_5.
Proof. split; [intros [|k]; cbn [two env8]; conc|]. unfold amount. repeat split; try lia; conc. Qed.

(** C82: z & 1 is 1 but 0 & 1 is 0 *)
Theorem C82_refuted : exists env env', good4 2 env /\ good4 2 env' /\ (forall k, refines 2 (sym_at (env' k)) (sym_at (env k))) /\
  exists r r', eval4 env (And (Var 0) (Var 1)) = Ok r /\ eval4 env' (And (Var 0) (Var 1)) = Ok r' /\ ~ refines 2 (sym_at r') (sym_at r).
Proof. exact mono_counter. Qed.
Print Assumptions C82_refuted.
(** Missing: as in C76. *)
Theorem C82_monotone_partial : forall n env env' e, 2 <= n -> good4 n env -> good4 n env' ->
  supported4 n (fun k => sym_at (env k)) e -> supported4 n (fun k => sym_at (env' k)) e ->
  (forall k, refines n (sym_at (env' k)) (sym_at (env k))) ->
  exists r r', eval4 env e = Ok r /\ eval4 env' e = Ok r' /\ refines n (sym_at r') (sym_at r).
Proof. exact eval4_mono. Qed.
Print Assumptions C82_monotone_partial.
(** 10zx_0110 and 1000_0110 *)
Example C82_ex : good4 8 (two e1 k1) /\ good4 8 (two (mkLogic (bit_of_native 7 0 false 134) (bit_of_native 7 0 false 0)) k1) /\
  refines 8 (sym_at (mkLogic (bit_of_native 7 0 false 134) (bit_of_native 7 0 false 0))) (sym_at e1).
Proof.
  do 2 (split; [intros [|k]; cbn [two]; conc|]). intros p Hp K.
  assert (D : p = 0 \/ p = 1 \/ p = 2 \/ p = 3 \/ p = 4 \/ p = 5 \/ p = 6 \/ p = 7) by lia.
  repeat (destruct D as [-> | D]; [vm_compute; reflexivity || (vm_compute in K; discriminate)|]). subst p. reflexivity.
Qed.

(** C83: ~(a - a) / b over 12-bit logic is 255 for b = 16, over bit it is 4095 *)
Theorem C83_refuted : exists env e r v, good4 12 env /\ (forall k, known (env k)) /\ eval4 env e = Ok r /\ eval (fun k => l_val (env k)) (to2 e) = Ok v /\ num (l_val r) <> num v.
Proof. exact agree_counter. Qed.
Print Assumptions C83_refuted.
(** C83.  Missing: what [supported] leaves out (C75). *)
Theorem C83_known_agrees_partial : forall n env e, 2 <= n -> good4 n env -> (forall k, known (env k)) ->
  supported n (fun k => num (l_val (env k))) (to2 e) -> known_amounts e ->
  exists r v, eval4 env e = Ok r /\ eval (fun k => l_val (env k)) (to2 e) = Ok v /\ known r /\ num (l_val r) = num v.
Proof. exact eval4_known. Qed.
Print Assumptions C83_known_agrees_partial.
Example C83_ex : full_width 8 /\ good4 8 (fun _ => k1) /\ known k1 /\
  supported 8 (fun k => num (l_val k1)) (to2 (Add (Var 0) (Div (Mul (Var 0) (Not (Var 0))) (Shr (Var 0) k5)))) /\
  known_amounts (Add (Var 0) (Div (Mul (Var 0) (Not (Var 0))) (Shr (Var 0) k5))).
Proof.
  unfold full_width. split; [lia|]. split; [intros k; conc|]. split; [apply known_of_num0; reflexivity|]. cbn [to2 supported known_amounts]. unfold full_width, amount.
  repeat split; try lia; try (left; lia); try (vm_compute; reflexivity || discriminate || (intro; discriminate)). apply known_of_num0. reflexivity.
Qed.
