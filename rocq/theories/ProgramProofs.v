(** Lemmas about imperative programs: the library and the integers modulo 2^n run in lockstep. *)
From Coq Require Import ZArith List Bool Lia.
From Verif Require Import Cpp BigNum Bit Logic Spec ZBits Words BigNumProofs BigArith BitProofs BitSlice BitExt BitOps
  BitShift BitCmp BitArith BitMain BitMain2 BitMain3 BitMain4 BitMain5 Client ClientProofs More Program.
Import ListNotations.
Open Scope Z_scope.

Definition same_value (n : Z) (r : outcome bit) (s : outcome Z) : Prop :=
  match r, s with
  | Ok x, Ok z => typed x n false /\ num x = z
  | UB, UB => True
  | _, _ => False
  end.

Lemma same_bin n (f : bit -> bit -> outcome bit) (g : Z -> Z -> outcome Z) r1 s1 r2 s2 :
  (forall x y, typed x n false -> typed y n false -> same_value n (f x y) (g (num x) (num y))) ->
  same_value n r1 s1 -> same_value n r2 s2 ->
  same_value n (let! x := r1 in let! y := r2 in f x y) (let! x := s1 in let! y := s2 in g x y).
Proof.
  intros H A B. destruct r1, s1; cbn [same_value bind] in *; try tauto. destruct r2, s2; cbn [same_value bind] in *; try tauto.
  destruct A as [A <-], B as [B <-]. now apply H.
Qed.
Lemma same_un n (f : bit -> outcome bit) (g : Z -> outcome Z) r s :
  (forall x, typed x n false -> same_value n (f x) (g (num x))) ->
  same_value n r s -> same_value n (let! x := r in f x) (let! x := s in g x).
Proof. intros H A. destruct r, s; cbn [same_value bind] in *; try tauto. destruct A as [A <-]. now apply H. Qed.

Lemma div_zero n x y : full_width n -> n <= 64 -> typed x n false -> typed y n false -> num y = 0 -> bit_div x y = UB /\ bit_rem x y = UB.
Proof.
  intros F Hn Tx Ty E. assert (H1 : 1 <= n) by (unfold full_width in F; lia).
  assert (Wx := typed_bw _ _ _ H1 Tx). assert (Wy := typed_bw _ _ _ H1 Ty). assert (Px := typed_sgn _ _ _ Tx). assert (Py := typed_sgn _ _ _ Ty).
  pose proof (plain_be _ _ _ Ty H1) as Be. rewrite (num_of_tidy y (full_tidy y n F Ty) Py) in E.
  destruct (vec_cases_n x n (typed_vec _ _ _ Tx) Wx) as [(u & Ea & Na & Ia & Sa & Ma) | (u & Ea & Na & _)]; [|lia].
  destruct (vec_cases_n y n (typed_vec _ _ _ Ty) Wy) as [(v & Eb & Nb & Ib & Sb & Mb) | (v & Eb & Nb & _)]; [|lia].
  rewrite Sb in E. subst v. unfold bit_div, bit_rem, bit_arith. rewrite (bsize_bw x n Wx), (bsize_bw y n Wy), Z.eqb_refl.
  unfold bit_div_same, bit_rem_same, bit_bin, requires, same_size_op. cbn zeta.
  rewrite (bsize_bw x n Wx), (bsize_bw y n Wy), Z.eqb_refl. rewrite (proj2 (Z.leb_le _ _) Be). rewrite Px, Py, Ea, Eb. cbn [andb].
  assert (C : forall t, conv t 0 = 0) by (intros []; reflexivity).
  unfold c_div, c_rem. cbn zeta. rewrite C. cbn. auto.
Qed.

Lemma eval_value n env st e : full_width n -> good n env -> (forall k, num (env k) = st k) -> usable n e ->
  same_value n (eval env e) (value_of n st e).
Proof.
  intros F G N. assert (Hn : 2 <= n) by (unfold full_width in F; lia). assert (H1 : 1 <= n) by lia.
  assert (R : forall x, typed x n false -> num x mod 2 ^ n = num x).
  { intros x T. apply Z.mod_small. pose proof (num_range x) as Q. rewrite (typed_bw x n false H1 T) in Q. exact Q. }
  assert (M : forall x y e z, typed x n false -> typed y n false -> supported n (fun k => num (match k with O => x | _ => y end)) e ->
     meaning n (fun k => num (match k with O => x | _ => y end)) e = z ->
     same_value n (eval (fun k => match k with O => x | _ => y end) e) (Ok z)).
  { intros x y e0 z Tx Ty S E. destruct (eval_meaning n (fun k => match k with O => x | _ => y end) e0 Hn) as (r & Er & Tr & Nr & _).
    - intros [|k]; split; auto; now apply (full_tidy _ n F).
    - exact S.
    - rewrite Er. cbn [same_value]. split; [exact Tr|]. now rewrite Nr. }
  induction e as [k|e IH|e IH|e IHe f IHf|e IHe f IHf|e IHe f IHf|e IHe f IHf|e IHe f IHf|e IHe f IHf|e IHe f IHf|e IHe f IHf|e IH amt|e IH amt];
    cbn [usable eval value_of]; intros U.
  - cbn [same_value]. split; [apply G|apply N].
  - change (omap bit_not (eval env e)) with (let! x := eval env e in Ok (bit_not x)).
    refine (same_un n (fun x => Ok (bit_not x)) (fun x => Ok (2 ^ n - 1 - x)) _ _ _ (IH U)). intros x T.
    apply (M x x (Not (Var 0)) _ T T I). cbn [meaning]. now rewrite R.
  - destruct U as [U L]. refine (same_un n bit_neg (fun x => Ok ((- x) mod 2 ^ n)) _ _ _ (IH U)). intros x T.
    apply (M x x (Neg (Var 0)) _ T T (conj I L)). cbn [meaning]. now rewrite R.
  - refine (same_bin n bit_and (fun x y => Ok (Z.land x y)) _ _ _ _ _ (IHe (proj1 U)) (IHf (proj2 U))). intros x y Tx Ty.
    apply (M x y (And (Var 0) (Var 1)) _ Tx Ty (conj I I)). cbn [meaning]. now rewrite !R.
  - refine (same_bin n bit_or (fun x y => Ok (Z.lor x y)) _ _ _ _ _ (IHe (proj1 U)) (IHf (proj2 U))). intros x y Tx Ty.
    apply (M x y (Or (Var 0) (Var 1)) _ Tx Ty (conj I I)). cbn [meaning]. now rewrite !R.
  - refine (same_bin n bit_xor (fun x y => Ok (Z.lxor x y)) _ _ _ _ _ (IHe (proj1 U)) (IHf (proj2 U))). intros x y Tx Ty.
    apply (M x y (Xor (Var 0) (Var 1)) _ Tx Ty (conj I I)). cbn [meaning]. now rewrite !R.
  - refine (same_bin n bit_add (fun x y => Ok ((x + y) mod 2 ^ n)) _ _ _ _ _ (IHe (proj1 U)) (IHf (proj2 U))). intros x y Tx Ty.
    apply (M x y (Add (Var 0) (Var 1)) _ Tx Ty (conj I I)). cbn [meaning]. now rewrite !R.
  - refine (same_bin n bit_sub (fun x y => Ok ((x - y) mod 2 ^ n)) _ _ _ _ _ (IHe (proj1 U)) (IHf (proj2 U))). intros x y Tx Ty.
    apply (M x y (Sub (Var 0) (Var 1)) _ Tx Ty (conj I I)). cbn [meaning]. now rewrite !R.
  - destruct U as (U1 & U2 & L & L'). refine (same_bin n bit_mul (fun x y => Ok ((x * y) mod 2 ^ n)) _ _ _ _ _ (IHe U1) (IHf U2)). intros x y Tx Ty.
    apply (M x y (Mul (Var 0) (Var 1)) _ Tx Ty). { cbn [supported]. unfold full_width in F. lia. } cbn [meaning]. now rewrite !R.
  - destruct U as (U1 & U2 & L). refine (same_bin n bit_div (fun x y => if y =? 0 then UB else Ok (x / y)) _ _ _ _ _ (IHe U1) (IHf U2)). intros x y Tx Ty.
    destruct (Z.eqb_spec (num y) 0) as [E|E]. { rewrite (proj1 (div_zero n x y F L Tx Ty E)). exact I. }
    apply (M x y (Div (Var 0) (Var 1)) _ Tx Ty). { cbn [supported meaning]. rewrite !R by assumption. repeat (split; [tauto|]). lia. } cbn [meaning]. now rewrite !R.
  - destruct U as (U1 & U2 & L). refine (same_bin n bit_rem (fun x y => if y =? 0 then UB else Ok (x mod y)) _ _ _ _ _ (IHe U1) (IHf U2)). intros x y Tx Ty.
    destruct (Z.eqb_spec (num y) 0) as [E|E]. { rewrite (proj2 (div_zero n x y F L Tx Ty E)). exact I. }
    apply (M x y (Rem (Var 0) (Var 1)) _ Tx Ty). { cbn [supported meaning]. rewrite !R by assumption. repeat (split; [tauto|]). lia. } cbn [meaning]. now rewrite !R.
  - refine (same_un n (fun x => bit_shl x amt) (fun x => Ok ((x * 2 ^ value amt) mod 2 ^ n)) _ _ _ (IH (proj1 U))). intros x T.
    apply (M x x (Shl (Var 0) amt) _ T T (conj I (proj2 U))). cbn [meaning]. now rewrite !R.
  - refine (same_un n (fun x => bit_shr x amt) (fun x => Ok (x / 2 ^ value amt)) _ _ _ (IH (proj1 U))). intros x T.
    apply (M x x (Shr (Var 0) amt) _ T T (conj I (proj2 U))). cbn [meaning]. now rewrite !R.
Qed.

Lemma compare_full n x y : full_width n -> typed x n false -> typed y n false ->
  bit_eq x y = Ok (num x =? num y) /\ bit_lt x y = Ok (num x <? num y) /\ bit_ge x y = Ok (num y <=? num x).
Proof.
  intros F Tx Ty. assert (H1 : 1 <= n) by (unfold full_width in F; lia).
  assert (Wx := typed_bw _ _ _ H1 Tx). assert (Wy := typed_bw _ _ _ H1 Ty). assert (Px := typed_sgn _ _ _ Tx). assert (Py := typed_sgn _ _ _ Ty).
  assert (Vx := typed_vec _ _ _ Tx). assert (Vy := typed_vec _ _ _ Ty).
  assert (Yx := full_tidy x n F Tx). assert (Yy := full_tidy y n F Ty).
  assert (Xx : extendable x) by (split; [exact Yx|congruence]). assert (Xy : extendable y) by (split; [exact Yy|congruence]). split.
  - rewrite <- (value_u x Px), <- (value_u y Py). apply equality; auto. unfold eq_ok. destruct (Z.leb_spec n 64).
    + split; [congruence|]. split; [exact Xx|]. split; [exact Xy|]. left. rewrite Wx, Wy, Px, Py. intuition (congruence || lia).
    + split; [congruence|]. split; [exact Xx|]. split; [exact Xy|]. right. right. rewrite Wx, Wy. intuition (congruence || lia).
  - destruct (Z.leb_spec n 64).
    + destruct (order_unsigned_native x y Vx Vy ltac:(lia) ltac:(lia) Px Py Yx Yy) as (_ & A & B & _). auto.
    + destruct (order_big_unsigned x y Vx Vy ltac:(lia) ltac:(lia) ltac:(now rewrite Px) Yx Yy) as (_ & A & B).
      rewrite Wx, Wy in B. destruct (B (or_introl eq_refl)). auto.
Qed.

Definition same_test (r s : outcome bool) : Prop := match r, s with Ok x, Ok y => x = y | UB, UB => True | _, _ => False end.
Lemma test_value n env st b : full_width n -> good n env -> (forall k, num (env k) = st k) -> usable_cond n b ->
  same_test (test env b) (test_of n st b).
Proof.
  intros F G N U.
  assert (H : forall f g e e', (forall x y, typed x n false -> typed y n false -> f x y = Ok (g (num x) (num y) : bool)) -> usable n e -> usable n e' ->
    same_test (let! x := eval env e in let! y := eval env e' in f x y) (let! x := value_of n st e in let! y := value_of n st e' in Ok (g x y))).
  { intros f g e e' H U1 U2. pose proof (eval_value n env st e F G N U1) as A. pose proof (eval_value n env st e' F G N U2) as B.
    destruct (eval env e), (value_of n st e); cbn [same_value bind same_test] in *; try tauto.
    destruct (eval env e'), (value_of n st e'); cbn [same_value bind same_test] in *; try tauto.
    destruct A as [A <-], B as [B <-]. now rewrite H. }
  destruct b as [e f|e f|e f]; cbn [test test_of usable_cond] in *; destruct U as [U1 U2].
  - apply (H bit_eq Z.eqb); auto. intros x y Tx Ty. apply (compare_full n x y F Tx Ty).
  - apply (H bit_lt Z.ltb); auto. intros x y Tx Ty. apply (compare_full n x y F Tx Ty).
  - apply (H bit_ge (fun x y => y <=? x)); auto. intros x y Tx Ty. apply (compare_full n x y F Tx Ty).
Qed.

Lemma lockstep n c : full_width n -> usable_cmd n c -> forall fuel env st, good n env -> (forall k, num (env k) = st k) ->
  same_outcome n (exec fuel env c) (exec_of n fuel st c).
Proof.
  intros F U fuel. revert c U. induction fuel as [|fuel IH]; intros c U env st G N; [exact I|].
  assert (SEQ : forall c d env st, usable_cmd n c -> usable_cmd n d -> good n env -> (forall k, num (env k) = st k) ->
    same_outcome n (let! env' := exec fuel env c in exec fuel env' d) (let! st' := exec_of n fuel st c in exec_of n fuel st' d)).
  { clear c U env st G N. intros c d env st U1 U2 G N. pose proof (IH c U1 env st G N) as A.
    destruct (exec fuel env c), (exec_of n fuel st c); cbn [same_outcome bind] in *; try tauto. destruct A as [G' N']. now apply IH. }
  destruct c as [|k e|c d|b c d|b c]; cbn [exec exec_of usable_cmd] in *.
  - cbn. auto.
  - pose proof (eval_value n env st e F G N U) as A. destruct (eval env e) as [x| | | |], (value_of n st e); cbn [same_value bind same_outcome] in *; try tauto.
    destruct A as [T <-]. unfold upd. split.
    + intros j. destruct (Nat.eqb j k); [|apply G]. split; [exact T|]. apply (full_tidy x n F T).
    + intros j. destruct (Nat.eqb j k); [reflexivity|apply N].
  - destruct U. now apply SEQ.
  - destruct U as (Ub & U1 & U2). pose proof (test_value n env st b F G N Ub) as A.
    destruct (test env b) as [t| | | |], (test_of n st b) as [t'| | | |]; cbn [same_test bind same_outcome] in *; try tauto. subst t'. destruct t; now apply IH.
  - destruct U as [Ub Uc]. pose proof (test_value n env st b F G N Ub) as A.
    destruct (test env b) as [t| | | |], (test_of n st b) as [t'| | | |]; cbn [same_test bind same_outcome] in *; try tauto. subst t'. destruct t.
    + apply SEQ; auto. cbn. auto.
    + cbn. auto.
Qed.

(** more fuel changes nothing but [Fuel] *)
Lemma exec_fuel c : forall fuel env, exec fuel env c <> Fuel -> exec (S fuel) env c = exec fuel env c.
Proof.
  intros fuel. revert c. induction fuel as [|fuel IH]; intros c env H; [now destruct H|].
  assert (SEQ : forall c d env, (let! env' := exec fuel env c in exec fuel env' d) <> Fuel ->
    (let! env' := exec (S fuel) env c in exec (S fuel) env' d) = (let! env' := exec fuel env c in exec fuel env' d)).
  { clear - IH. intros c d env H. assert (Q : exec fuel env c <> Fuel) by (intros E; rewrite E in H; now destruct H).
    rewrite (IH c env Q). destruct (exec fuel env c); cbn [bind] in *; auto. }
  destruct c as [|k e|c d|b c d|b c]; cbn [exec] in H |- *; auto.
  - apply (SEQ c d env H).
  - destruct (test env b) as [t| | | |]; cbn [bind] in *; auto. destruct t; apply IH; exact H.
  - destruct (test env b) as [t| | | |]; cbn [bind] in *; auto. destruct t; [|reflexivity]. apply (SEQ c (While b c) env H).
Qed.

(** * Euclid's algorithm *)
Lemma euclid_ints n : forall m st, 0 <= st 0%nat -> 0 <= st 1%nat -> (Z.to_nat (st 1%nat) < m)%nat -> st 3%nat = 0 ->
  exists fuel st', exec_of n fuel st euclid = Ok st' /\ st' 0%nat = Z.gcd (st 0%nat) (st 1%nat) /\
    (forall fuel', (fuel <= fuel')%nat -> exec_of n fuel' st euclid = Ok st').
Proof.
  induction m as [|m IH]; intros st H0 H1 Hm H3; [lia|]. destruct (Z.eq_dec (st 1%nat) 0) as [E|E].
  - exists 1%nat, st. assert (Q : forall f, exec_of n (S f) st euclid = Ok st).
    { intros f. cbn [exec_of euclid test_of value_of bind]. rewrite H3, E. reflexivity. }
    split; [apply Q|]. split; [rewrite E, Z.gcd_0_r, Z.abs_eq; auto|]. intros [|f] L; [lia|apply Q].
  - set (st' := upd (upd (upd st 2 (st 0%nat mod st 1%nat)) 0 (st 1%nat)) 1 (st 0%nat mod st 1%nat)).
    destruct (IH st') as (f & s & Es & G & Mo).
    { unfold st', upd. cbn. lia. } { unfold st', upd. cbn. apply Z.mod_pos_bound. lia. }
    { unfold st', upd. cbn. pose proof (Z.mod_pos_bound (st 0%nat) (st 1%nat)). lia. } { unfold st', upd. cbn. exact H3. }
    assert (Q : forall g, (f <= g)%nat -> exec_of n (S (S (S (S g)))) st euclid = Ok s).
    { intros g L. remember (S (S (S g))) as g3. unfold euclid. cbn [exec_of]. fold euclid. cbn [test_of value_of bind].
      rewrite H3, (proj2 (Z.ltb_lt 0 _)) by lia. subst g3. cbn [exec_of value_of bind].
      rewrite (proj2 (Z.eqb_neq _ _) E). cbn [bind].
      rewrite <- (Mo (S (S (S g)))) by lia. reflexivity. }
    exists (S (S (S (S f)))), s. split; [apply Q; lia|]. split.
    + rewrite G. unfold st', upd. cbn [Nat.eqb]. rewrite (Z.gcd_comm (st 1%nat)), Z.gcd_mod by exact E. apply Z.gcd_comm.
    + intros [|[|[|[|g]]]] L; try lia. apply Q. lia.
Qed.
Lemma euclid_gcd n env : full_width n -> n <= 64 -> good n env -> num (env 3%nat) = 0 ->
  exists fuel env', (forall fuel', (fuel <= fuel')%nat -> exec fuel' env euclid = Ok env' ) /\ good n env' /\
    num (env' 0%nat) = Z.gcd (num (env 0%nat)) (num (env 1%nat)).
Proof.
  intros F L G H3. assert (P : forall k, 0 <= num (env k)) by (intros k; pose proof (num_range (env k)); lia).
  destruct (euclid_ints n (S (Z.to_nat (num (env 1%nat)))) (fun k => num (env k)) (P _) (P _) ltac:(lia) H3) as (f & st' & E & R & M).
  assert (U : usable_cmd n euclid) by (cbn; tauto).
  pose proof (lockstep n euclid F U f env _ G (fun k => eq_refl)) as Q. rewrite E in Q. destruct (exec f env euclid) as [env'| | | |] eqn:X; cbn [same_outcome] in Q; try tauto.
  destruct Q as [G' N']. exists f, env'. split; [|split; [exact G'|rewrite N'; exact R]].
  intros f' Lf. assert (forall d, exec (d + f) env euclid = Ok env').
  { induction d as [|d IH]; [exact X|]. cbn [Nat.add]. rewrite exec_fuel; [exact IH|]. rewrite IH. discriminate. }
  replace f' with ((f' - f) + f)%nat by lia. apply H.
Qed.
