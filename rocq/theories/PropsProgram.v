(** Property theorems about whole programs over 4-state vectors, client algorithms, and the operators they rest on.
    [widened], [lib_and], [lib_or]: SpecExact4.v; [exec4], [exec4_of]: Program4.v; the algorithms: Algo.v. *)
From Coq Require Import ZArith List Bool.
From Verif Require Import Cpp BigNum Bit Logic Spec SpecExact4 BitMain Exact6 Client Client4 More Program Program4 Program4Proofs Algo AlgoProofs MoreExamples Program4Examples.
Import ListNotations.
Open Scope Z_scope.

(** C102: the 4-bit signed x001 extended to 8 bits *)
Theorem C102_refuted : exists l r, ltyped l 4 true /\ ltidy l /\ logic_extend l 8 = Ok r /\ sym_at l 3 = SX /\ sym_at r 7 = S0.
Proof. exact extend_counter. Qed.
Print Assumptions C102_refuted.
(** exactly: the positions are kept; the new ones are 0 (unsigned or one bit), the value bit of the top position (native signed:
    0 for 0 and x, 1 for 1 and z), or 1 (multi-word signed). Missing: the property for signed vectors with an x or z on top and for
    multi-word signed vectors (false). *)
Theorem C102_exact_partial : forall l n s m, 1 <= n <= m -> m < 2 ^ 31 -> ltyped l n s -> ltidy l ->
  exists r, logic_extend l m = Ok r /\ ltyped r m s /\ tidy (l_xz r) /\ forall p, 0 <= p < m -> sym_at r p = widened l n s p.
Proof. exact logic_extend_any. Qed.
Print Assumptions C102_exact_partial.
Example C102_ex : ltyped sz001 4 true /\ ltidy sz001 /\ sym_at sz001 3 = SZ /\ widened sz001 4 true 7 = S1 /\ ltyped e8 8 false /\ ltidy e8.
Proof. exact extend_ex. Qed.

(** C109: the tables at equal widths, whatever the bounds *)
Theorem C109_and : forall a b m, lvec a -> lvec b -> lw a = m -> lw b = m -> llsb a <= lmsb a -> llsb b <= lmsb b -> lsgn a && lsgn b = false ->
  exists r, logic_and a b = Ok r /\ ltyped r m false /\ (tidy (l_xz a) -> tidy (l_xz b) -> ltidy r) /\ forall p, 0 <= p < m -> sym_at r p = lib_and (sym_at a p) (sym_at b p).
Proof. exact lib_and_gen. Qed.
Print Assumptions C109_and.
Theorem C109_or : forall a b m, lvec a -> lvec b -> lw a = m -> lw b = m -> llsb a <= lmsb a -> llsb b <= lmsb b -> lsgn a && lsgn b = false ->
  exists r, logic_or a b = Ok r /\ ltyped r m false /\ (tidy (l_xz a) -> tidy (l_xz b) -> ltidy r) /\ forall p, 0 <= p < m -> sym_at r p = lib_or (sym_at a p) (sym_at b p).
Proof. exact lib_or_gen. Qed.
Print Assumptions C109_or.
(** different widths: the narrower operand is widened; ^ computes | *)
Theorem C109_and_widths : forall a b na nb sa sb, 1 <= na -> 1 <= nb -> na <> nb -> ltyped a na sa -> ltyped b nb sb -> ltidy a -> ltidy b -> sa && sb = false ->
  exists r, logic_and a b = Ok r /\ ltyped r (Z.max na nb) false /\ ltidy r /\ forall p, 0 <= p < Z.max na nb ->
    sym_at r p = lib_and (widened a na sa p) (widened b nb sb p).
Proof. exact and_any. Qed.
Print Assumptions C109_and_widths.
Theorem C109_or_xor_widths : forall a b na nb sa sb, 1 <= na -> 1 <= nb -> na <> nb -> ltyped a na sa -> ltyped b nb sb -> ltidy a -> ltidy b -> sa && sb = false ->
  exists r, logic_or a b = Ok r /\ logic_xor a b = Ok r /\ ltyped r (Z.max na nb) false /\ ltidy r /\ forall p, 0 <= p < Z.max na nb ->
    sym_at r p = lib_or (widened a na sa p) (widened b nb sb p).
Proof. exact or_any. Qed.
Print Assumptions C109_or_xor_widths.
Example C109_ex : lvec e8 /\ lvec (kn u8_77) /\ lw e8 = 8 /\ lw (kn u8_77) = 8 /\ ltyped sz001 4 true /\ ltidy sz001 /\ ltyped e8 8 false /\ ltidy e8.
Proof. conc. Qed.

(** C103: v0 = v0 & v1 with x and 0 leaves x *)
Theorem C103_refuted : exists env env', good4 8 env /\ usable_cmd4 8 (Assign4 0 (And (Var 0) (Var 1))) /\
  exec4 2 env (Assign4 0 (And (Var 0) (Var 1))) = Ok env' /\ sym_at (env 0%nat) 4 = SX /\ sym_at (env 1%nat) 4 = S0 /\ sym_at (env' 0%nat) 4 = SX /\ and4 SX S0 = S0.
Proof. exact program4_counter. Qed.
Print Assumptions C103_refuted.
(** Missing: programs with & and | (false), widths other than 8, 16, 32, 64, products of 16-bit variables. *)
Theorem C103_lockstep_partial : forall n c, full_width n -> n <= 64 -> usable_cmd4 n c -> no_tables_cmd c -> forall fuel env st, good4 n env ->
  (forall k p, 0 <= p < n -> sym_at (env k) p = st k p) -> same_outcome4 n (exec4 fuel env c) (exec4_of and4 or4 n fuel st c).
Proof. exact lockstep4_ieee. Qed.
Print Assumptions C103_lockstep_partial.
(** every program, with the tables the library implements (C109) *)
Theorem C103_own_tables : forall n c, full_width n -> n <= 64 -> usable_cmd4 n c -> forall fuel env st, good4 n env ->
  (forall k p, 0 <= p < n -> sym_at (env k) p = st k p) -> same_outcome4 n (exec4 fuel env c) (exec4_of lib_and lib_or n fuel st c).
Proof. exact lockstep4_tables. Qed.
Print Assumptions C103_own_tables.
Example C103_ex : full_width 8 /\ usable_cmd4 8 prog8x /\ no_tables_cmd prog8x /\ good4 8 env8x /\ unknown (sym_at (env8x 0%nat) 4) = true.
Proof. exact prog4_ex. Qed.

(** C104: programs over known variables *)
Theorem C104_two_and_four_state : forall n c c2, full_width n -> n <= 64 -> usable_cmd4 n c -> known_amounts_cmd c -> to2_cmd c = Some c2 -> forall fuel env env2,
  good4 n env -> good n env2 -> (forall k, known (env k) /\ num (l_val (env k)) = num (env2 k)) ->
  match exec fuel env2 c2 with
  | Ok env2' => exists env', exec4 fuel env c = Ok env' /\ good4 n env' /\ forall k, known (env' k) /\ num (l_val (env' k)) = num (env2' k)
  | Fuel => exec4 fuel env c = Fuel
  | _ => True
  end.
Proof. exact two_four. Qed.
Print Assumptions C104_two_and_four_state.
Example C104_ex : full_width 8 /\ usable_cmd4 8 prog8k /\ known_amounts_cmd prog8k /\ (exists c2, to2_cmd prog8k = Some c2) /\ good4 8 env8k /\ good 8 env8 /\
  (forall k, known (env8k k) /\ num (l_val (env8k k)) = num (env8 k)).
Proof. exact agree_ex. Qed.

(** C105: multiplication by shifting and adding *)
Theorem C105_shift_and_add : forall n env, full_width n -> good n env -> num (env 2%nat) = 0 -> num (env 3%nat) = 0 -> num (env 4%nat) = 1 ->
  exists fuel env', (forall fuel', (fuel <= fuel')%nat -> exec fuel' env shift_mul = Ok env') /\ good n env' /\
    num (env' 2%nat) = (num (env 0%nat) * num (env 1%nat)) mod 2 ^ n.
Proof. exact shift_mul_run. Qed.
Print Assumptions C105_shift_and_add.
Example C105_ex : full_width 128 /\ good 128 env128 /\ num (env128 0%nat) = 2 ^ 100 + 7 /\ num (env128 1%nat) = 2 ^ 70 + 3 /\
  num (env128 2%nat) = 0 /\ num (env128 3%nat) = 0 /\ num (env128 4%nat) = 1.
Proof. exact algo_ex. Qed.

(** C106: exponentiation by squaring *)
Theorem C106_power : forall n env, full_width n -> n <= 64 -> n <> 16 -> good n env -> num (env 2%nat) = 1 -> num (env 3%nat) = 0 -> num (env 4%nat) = 1 ->
  exists fuel env', (forall fuel', (fuel <= fuel')%nat -> exec fuel' env power = Ok env') /\ good n env' /\
    num (env' 2%nat) = (num (env 0%nat) ^ num (env 1%nat)) mod 2 ^ n.
Proof. exact power_run. Qed.
Print Assumptions C106_power.
Example C106_ex : full_width 8 /\ good 8 env8p /\ num (env8p 2%nat) = 1 /\ num (env8p 3%nat) = 0 /\ num (env8p 4%nat) = 1.
Proof. exact power_ex. Qed.

(** C107: division by repeated subtraction *)
Theorem C107_subtract : forall n env, full_width n -> good n env -> num (env 2%nat) = 0 -> num (env 4%nat) = 1 -> num (env 1%nat) <> 0 ->
  exists fuel env', (forall fuel', (fuel <= fuel')%nat -> exec fuel' env sub_div = Ok env') /\ good n env' /\
    num (env' 2%nat) = num (env 0%nat) / num (env 1%nat) /\ num (env' 0%nat) = num (env 0%nat) mod num (env 1%nat).
Proof. exact sub_div_run. Qed.
Print Assumptions C107_subtract.
Example C107_ex : full_width 128 /\ good 128 env128 /\ num (env128 0%nat) = 2 ^ 100 + 7 /\ num (env128 1%nat) = 2 ^ 70 + 3 /\
  num (env128 2%nat) = 0 /\ num (env128 3%nat) = 0 /\ num (env128 4%nat) = 1.
Proof. exact algo_ex. Qed.

(** C108: counting ones *)
Theorem C108_count : forall n env, full_width n -> good n env -> num (env 2%nat) = 0 -> num (env 3%nat) = 0 -> num (env 4%nat) = 1 ->
  exists fuel env', (forall fuel', (fuel <= fuel')%nat -> exec fuel' env popcount = Ok env') /\ good n env' /\
    num (env' 2%nat) = ones_of n (num (env 0%nat)).
Proof. exact popcount_run. Qed.
Print Assumptions C108_count.
Example C108_ex : full_width 128 /\ good 128 env128 /\ num (env128 0%nat) = 2 ^ 100 + 7 /\ num (env128 1%nat) = 2 ^ 70 + 3 /\
  num (env128 2%nat) = 0 /\ num (env128 3%nat) = 0 /\ num (env128 4%nat) = 1.
Proof. exact algo_ex. Qed.
