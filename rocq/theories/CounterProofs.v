(** Division laws on whatever native vectors an expression yields, and counterexamples that close properties the model proves only in part. *)
From Coq Require Import ZArith List Bool Lia Zify ZifyBool.
From Verif Require Import Cpp BigNum Bit Logic Util Arr Spec SpecExact SpecArr SpecMachine Client Client4 ZBits BitProofs BitMain BitExt BitMain4 LogicProofs LogicArith LogicMain ReachProofs ReachProofs2 MachineProofs MachineProofs2 MachineProofs3 MachineProofs4 MachineProofs5.
Import ListNotations.
Open Scope Z_scope.
Local Ltac Zify.zify_post_hook ::= idtac.

(** * every value of an expression over unsigned variables of one width has that type *)
Lemma plain_typed r n : 1 <= n -> vec r -> bmsb r = n - 1 -> blsb r = 0 -> bsgn r = false -> typed r n false.
Proof. intros Hn V A B C. split; [exact V|]. split; [split|]; assumption. Qed.
Fixpoint amounts_vec (e : expr) : Prop :=
  match e with
  | Var _ => True
  | Not e | Neg e => amounts_vec e
  | And e f | Or e f | Xor e f | Add e f | Sub e f | Mul e f | Div e f | Rem e f => amounts_vec e /\ amounts_vec f
  | Shl e k | Shr e k => amounts_vec e /\ vec k
  end.
Lemma eval_typed n env : 1 <= n -> (forall k, typed (env k) n false) -> forall e r, amounts_vec e -> eval env e = Ok r -> typed r n false.
Proof.
  intros Hn T. assert (K : forall op a b r, good op -> typed a n false -> typed b n false -> op a b = Ok r -> typed r n false).
  { intros op a b r G A B H. destruct (G _ _ _ (proj1 A) (proj1 B) H) as (V & M & L & Q). rewrite (typed_bw _ _ _ Hn A), (typed_bw _ _ _ Hn B), Z.max_id in M.
    apply plain_typed; auto. rewrite Q. destruct A as (_ & _ & ->). reflexivity. }
  assert (KS : forall op a b r, good_shift op -> typed a n false -> vec b -> op a b = Ok r -> typed r n false).
  { intros op a b r G A B H. destruct (G _ _ _ (proj1 A) B H) as (V & M & L & Q). rewrite (typed_bw _ _ _ Hn A) in M.
    apply plain_typed; auto. rewrite Q. destruct A as (_ & _ & ->). reflexivity. }
  induction e as [k|e IH|e IH|e IHe f IHf|e IHe f IHf|e IHe f IHf|e IHe f IHf|e IHe f IHf|e IHe f IHf|e IHe f IHf|e IHe f IHf|e IH k|e IH k]; intros r Y H; cbn [eval amounts_vec] in *;
    try (injection H as <-; apply T); try (destruct Y as [Ye Yf]; inv_ok H; specialize (IHe _ Ye eq_refl); specialize (IHf _ Yf eq_refl); eapply K; [|exact IHe|exact IHf|exact H]).
  - unfold omap in H. inv_ok H. injection H as <-. specialize (IH _ Y eq_refl). destruct (not_vec _ (proj1 IH)) as (V & M & L & Q). rewrite (typed_bw _ _ _ Hn IH) in M. apply plain_typed; auto.
  - inv_ok H. specialize (IH _ Y eq_refl). destruct (neg_vec _ _ (proj1 IH) H) as (V & M & L & Q). destruct IH as (_ & [A B] & C). apply plain_typed; congruence.
  - apply good_and.
  - apply good_or.
  - apply good_xor.
  - apply good_add.
  - apply good_sub.
  - apply good_mul.
  - apply good_div.
  - apply good_rem.
  - destruct Y as [Ye Yk]. inv_ok H. eapply KS; [apply good_shl|apply (IH _ Ye eq_refl)|exact Yk|exact H].
  - destruct Y as [Ye Yk]. inv_ok H. eapply KS; [apply good_shr|apply (IH _ Ye eq_refl)|exact Yk|exact H].
Qed.

(** * unsigned native vectors of one width *)
Lemma plain_range x n : 1 <= n <= 64 -> typed x n false -> 0 <= stored x < 2 ^ computing n /\ (n <= 16 -> stored x < 2 ^ 16) /\
  (forall z, 0 <= z <= stored x -> store n false z = z).
Proof.
  intros Hn T. pose proof (typed_bw _ _ _ (proj1 Hn) T) as W. assert (V : vec x) by apply T.
  pose proof (stored_in x n V ltac:(lia)) as R. assert (Q : bsgn x = false) by apply T. rewrite Q in R.
  assert (K : forall z, 0 <= z <= stored x -> in_ity (hty n false) z = true).
  { intros z Hz. revert R. unfold hty. destruct (Z.leb_spec n 1), (Z.leb_spec n 8), (Z.leb_spec n 16), (Z.leb_spec n 32); try lia; cbn; lia. }
  split; [|split].
  - revert R. unfold hty, computing. destruct (Z.leb_spec n 1), (Z.leb_spec n 8), (Z.leb_spec n 16), (Z.leb_spec n 32); try lia; cbn; lia.
  - intros Hs. revert R. unfold hty. destruct (Z.leb_spec n 1), (Z.leb_spec n 8), (Z.leb_spec n 16), (Z.leb_spec n 32); try lia; cbn; lia.
  - intros z Hz. apply store_in; [exact Hn|]. apply K. exact Hz.
Qed.
Lemma plain_pairs a b n : 1 <= n -> typed a n false -> typed b n false -> pairs_up a b = true /\ wider a b = n /\ both_signed a b = false.
Proof.
  intros Hn A B. pose proof (typed_bw _ _ _ Hn A) as WA. pose proof (typed_bw _ _ _ Hn B) as WB. unfold pairs_up, wider, both_signed. rewrite WA, WB, Z.eqb_refl, Z.max_id.
  destruct A as (_ & _ & ->), B as (_ & [-> ->] & _). split; [lia|split; reflexivity].
Qed.
Lemma plain_operand x n : 1 <= n <= 64 -> typed x n false -> operand n false false (stored x) = stored x.
Proof. intros Hn T. destruct (plain_range x n Hn T) as [R _]. unfold operand, with_sign. cbn [andb]. destruct ((n <=? 16) || false); [reflexivity|]. apply Z.mod_small. exact R. Qed.
Lemma plain_computed op und a b n : 1 <= n <= 64 -> typed a n false -> typed b n false -> und = false -> 0 <= op (stored a) (stored b) < 2 ^ 16 \/ 17 <= n ->
  computed op und a b = Ok (vector n false (op (stored a) (stored b))).
Proof.
  intros Hn A B -> C. destruct (plain_pairs a b n (proj1 Hn) A B) as (P & W & S0). unfold computed. cbv zeta. rewrite W, P, S0. cbn [negb orb].
  assert (SA : bsgn a = false) by apply A. assert (SB : bsgn b = false) by apply B. rewrite SA, SB, (plain_operand a n Hn A), (plain_operand b n Hn B).
  replace (with_sign n false false && negb (fitting (computing n) (op (stored a) (stored b)))) with false; [reflexivity|]. symmetry. unfold with_sign. cbn [andb].
  destruct (Z.leb_spec n 16) as [L | L]; [|reflexivity]. cbn [orb]. unfold computing, fitting. replace (n <=? 32) with true by lia.
  destruct C as [C | C]; [|lia]. change (2 ^ 16) with 65536 in C. change (2 ^ (32 - 1)) with 2147483648. lia.
Qed.
Lemma plain_vector n z : 1 <= n <= 64 -> typed (vector n false z) n false /\ stored (vector n false z) = store n false z.
Proof. intros Hn. destruct (vector_vec n false z Hn) as (V & W & E). split; [|exact E]. split; [exact V|]. split; [split|]; reflexivity. Qed.
Lemma native_division x y n : 1 <= n <= 64 -> typed x n false -> typed y n false -> stored y <> 0 ->
  exists q p r s, bit_div x y = Ok q /\ bit_mul q y = Ok p /\ bit_rem x y = Ok r /\ bit_add p r = Ok s /\ typed s n false /\ stored s = stored x /\ bit_lt r y = Ok true.
Proof.
  intros Hn X Y Z0. pose proof (typed_bw _ _ _ (proj1 Hn) X) as WX. pose proof (typed_bw _ _ _ (proj1 Hn) Y) as WY.
  assert (VX : vec x) by apply X. assert (VY : vec y) by apply Y. destruct (plain_range x n Hn X) as (RX & SX & KX). destruct (plain_range y n Hn Y) as (RY & SY & KY).
  set (u := stored x) in *. set (v := stored y) in *. pose proof (Z.div_mod u v Z0) as DM. pose proof (Z.mod_pos_bound u v ltac:(lia)) as MB.
  assert (Q0 : 0 <= u / v <= u) by (split; [apply Z.div_pos; lia|apply Z.div_le_upper_bound; nia]).
  assert (P0 : 0 <= u / v * v <= u) by nia. assert (M0 : 0 <= u mod v <= u) by nia.
  assert (SM : forall z, 0 <= z <= u -> 0 <= z < 2 ^ 16 \/ 17 <= n) by (intros z Hz; destruct (Z_le_dec n 16); [left; specialize (SX ltac:(lia)); lia|right; lia]).
  assert (QE : Z.quot u v = u / v) by (apply Z.quot_div_nonneg; lia). assert (RE : Z.rem u v = u mod v) by (apply Z.rem_mod_nonneg; lia).
  destruct (plain_vector n (u / v) Hn) as [TQ EQ]. rewrite (KX _ Q0) in EQ. set (q := vector n false (u / v)) in *. pose proof (typed_bw _ _ _ (proj1 Hn) TQ) as WQ.
  destruct (plain_vector n (u / v * v) Hn) as [TP EP]. rewrite (KX _ P0) in EP. set (p := vector n false (u / v * v)) in *. pose proof (typed_bw _ _ _ (proj1 Hn) TP) as WP.
  destruct (plain_vector n (u mod v) Hn) as [TR ER]. rewrite (KX _ M0) in ER. set (r := vector n false (u mod v)) in *. pose proof (typed_bw _ _ _ (proj1 Hn) TR) as WR.
  destruct (plain_vector n u Hn) as [TS ES]. rewrite (KX u ltac:(lia)) in ES.
  exists q, p, r, (vector n false u). split; [|split; [|split; [|split; [|split; [exact TS|split; [exact ES|]]]]]].
  - rewrite div_machine by (try assumption; lia). fold v. rewrite (plain_computed _ _ _ _ n Hn X Y); [fold u v; rewrite QE; reflexivity|apply Z.eqb_neq; exact Z0|]. fold u v. rewrite QE. apply SM, Q0.
  - rewrite mul_machine by (try apply TQ; try assumption; lia). rewrite (plain_computed _ _ _ _ n Hn TQ Y); [rewrite EQ; reflexivity|reflexivity|]. rewrite EQ. apply SM, P0.
  - rewrite rem_machine by (try assumption; lia). destruct (plain_pairs x y n (proj1 Hn) X Y) as (P & W & S0). unfold remainder. cbv zeta. rewrite W, P, S0.
    assert (SA : bsgn x = false) by apply X. assert (SB : bsgn y = false) by apply Y. rewrite SA, SB, (plain_operand x n Hn X), (plain_operand y n Hn Y). fold u v. rewrite QE, RE.
    cbn [negb]. replace (v =? 0) with false by lia. cbn [orb]. replace (with_sign n false false && negb (fitting (computing n) (u / v))) with false; [reflexivity|]. symmetry. unfold with_sign. cbn [andb].
    destruct (Z.leb_spec n 16) as [L | L]; [|reflexivity]. cbn [orb]. unfold computing, fitting. replace (n <=? 32) with true by lia. destruct (SM _ Q0) as [C | C]; [|lia].
    change (2 ^ 16) with 65536 in C. change (2 ^ (32 - 1)) with 2147483648. lia.
  - rewrite add_machine by (try apply TP; try apply TR; lia). rewrite (plain_computed _ _ _ _ n Hn TP TR); [|reflexivity|]; rewrite EP, ER; replace (u / v * v + u mod v) with u by lia; [reflexivity|apply SM; lia].
  - destruct (order_machine r y) as (LT & _); try apply TR; try assumption; try lia. rewrite LT. unfold ordered. destruct (plain_pairs r y n (proj1 Hn) TR Y) as (_ & _ & ->). rewrite ER. fold v.
    assert (2 ^ computing n <= 2 ^ 64) by (unfold computing; destruct (n <=? 32); vm_compute; discriminate).
    rewrite (Z.mod_small (u mod v) (2 ^ 64)), (Z.mod_small v (2 ^ 64)) by lia. f_equal. apply Z.ltb_lt. lia.
Qed.
Lemma law_divide_native n env a b x y : 1 <= n <= 64 -> (forall k, typed (env k) n false) -> amounts_vec a -> amounts_vec b ->
  eval env a = Ok x -> eval env b = Ok y -> num y <> 0 ->
  exists r s, eval env (Rem a b) = Ok r /\ bit_lt r y = Ok true /\ eval env (Add (Mul (Div a b) b) (Rem a b)) = Ok s /\ typed s n false /\ num s = num x /\ bit_eq s x = Ok true.
Proof.
  intros Hn T Ya Yb A B Z0. pose proof (eval_typed n env (proj1 Hn) T a x Ya A) as X. pose proof (eval_typed n env (proj1 Hn) T b y Yb B) as Y.
  assert (Sy : stored y <> 0). { intros C. apply Z0. unfold num. rewrite C. apply Z.mod_0_l. apply Z.pow_nonzero; [lia|]. pose proof (bw_pos y). lia. }
  destruct (native_division x y n Hn X Y Sy) as (q & p & r & s & E1 & E2 & E3 & E4 & TS & ES & LT). exists r, s. cbn [eval]. rewrite A, B. cbn [bind]. rewrite E1. cbn [bind]. rewrite E2, E3. cbn [bind].
  pose proof (typed_bw _ _ _ (proj1 Hn) X) as WX. pose proof (typed_bw _ _ _ (proj1 Hn) TS) as WS.
  split; [reflexivity|]. split; [exact LT|]. split; [exact E4|]. split; [exact TS|]. split; [unfold num; rewrite WX, WS, ES; reflexivity|].
  destruct (eq_ne_machine s x) as [EQ _]; [apply TS|apply X|lia|lia|]. rewrite EQ. unfold equal_native. destruct (plain_range x n Hn X) as (RX & _ & KX).
  assert (QS : bsgn s = false) by apply TS. rewrite WS, QS, KX, ES, Z.eqb_refl by lia. reflexivity.
Qed.

(** * counterexamples *)
Definition plain12 z := mkBit 11 0 false (HN z).
Definition plain16 z := mkBit 15 0 false (HN z).
Definition wide70 ws := mkBit 69 0 false (HB ws).
Lemma divide_counter : exists env, Client.good 70 env /\ num (env 1%nat) = 1 /\ eval env (Add (Mul (Div (Var 0) (Var 1)) (Var 1)) (Rem (Var 0) (Var 1))) = UB.
Proof. exists (fun k => match k with O => wide70 [5; 1] | _ => wide70 [1; 0] end). split; [intros [|k]; conc|]. conc. Qed.
Lemma products_counter :
  (exists env s, Client.good 16 env /\ eval env (Mul (Mul (Var 0) (Var 1)) (Var 1)) = Ok s /\ eval env (Mul (Var 0) (Mul (Var 1) (Var 1))) = UB) /\
  (exists env, Client.good 70 env /\ eval env (Add (Var 0) (Neg (Var 0))) = IllFormed).
Proof.
  split.
  - exists (fun k => match k with O => plain16 0 | _ => plain16 65535 end). eexists. split; [intros [|k]; conc|]. split; [vm_compute; reflexivity|]. vm_compute; reflexivity.
  - exists (fun _ => wide70 [5; 1]). split; [intros k; conc|]. vm_compute; reflexivity.
Qed.
Lemma agree_counter : exists env e r v, good4 12 env /\ (forall k, known (env k)) /\ eval4 env e = Ok r /\ eval (fun k => l_val (env k)) (to2 e) = Ok v /\ num (l_val r) <> num v.
Proof.
  exists (fun k => match k with O => mkLogic (plain12 4095) (plain12 0) | _ => mkLogic (plain12 16) (plain12 0) end), (Div (Not (Sub (Var 0) (Var 0))) (Var 1)). eexists. eexists.
  split; [intros [|k]; conc|]. split; [intros [|k]; apply known_of_num0; reflexivity|]. split; [vm_compute; reflexivity|]. split; [vm_compute; reflexivity|]. vm_compute. discriminate.
Qed.
Lemma count_counter : exists a r, ltyped a 70 false /\ ltidy a /\ sym_at a 40 = SX /\ logic_inc a = Ok r /\ known r.
Proof.
  exists (mkLogic (wide70 [0; 0]) (wide70 [2 ^ 40; 0])). eexists. split; [conc|]. split; [conc|]. split; [vm_compute; reflexivity|]. split; [vm_compute; reflexivity|]. apply known_of_num0; reflexivity.
Qed.
(** {a, b} of 32 bits each is unpacked but cannot be concatenated back; of 31 and 2 bits it comes back without its top position *)
Definition all1 n : logic := mkLogic (bit_mask (n - 1) 0 false) (bit_zero (n - 1) 0 false).
Lemma unpack_counter :
  (exists r s, logic_unpack (all1 64) [all1 32; all1 32] = Ok [r; s] /\ logic_concat r s = IllFormed) /\
  (exists r s c, ltyped (all1 33) 33 false /\ ltidy (all1 33) /\ logic_unpack (all1 33) [all1 31; all1 2] = Ok [r; s] /\ logic_concat r s = Ok c /\
     sym_at (all1 33) 32 = S1 /\ sym_at c 32 = S0).
Proof.
  split.
  - eexists. eexists. split; [vm_compute; reflexivity|]. vm_compute; reflexivity.
  - eexists. eexists. eexists. split; [conc|]. split; [conc|]. split; [vm_compute; reflexivity|]. split; [vm_compute; reflexivity|]. split; vm_compute; reflexivity.
Qed.
(** two signed 16-bit elements: reading both is undefined; ten 8-bit elements: writing a range with an x at position 64 or above is undefined *)
Lemma range_counter :
  (exists t a, arr4 t a /\ pa_sgn t = true /\ element t 1 /\ element t 0 /\ pa_slice_array t a 1 0 = UB) /\
  (exists t a v, arr4 t a /\ element t 9 /\ element t 0 /\ ltyped v 80 false /\ pa_update_c t a 9 0 v = UB).
Proof.
  split.
  - exists (mkParrTy 16 true 1 0), (mkLogic (mkBit 31 0 true (HN 5)) (mkBit 31 0 false (HN 0))). split; [split; [vm_compute; discriminate|conc]|]. conc.
  - exists (mkParrTy 8 false 9 0), (mkLogic (mkBit 79 0 false (HB [5; 1])) (mkBit 79 0 false (HB [0; 0]))), (mkLogic (mkBit 79 0 false (HB [0; 0])) (mkBit 79 0 false (HB [0; 2]))).
    split; [split; [vm_compute; discriminate|conc]|]. conc.
Qed.
