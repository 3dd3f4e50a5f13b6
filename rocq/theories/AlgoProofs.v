(** Lemmas about client algorithms: total correctness over the integers, carried over to the library by lockstep. *)
From Coq Require Import ZArith Zpow_facts List Bool Lia Zify ZifyBool.
From Verif Require Import Cpp BigNum Bit Spec ZBits Words BigNumProofs BigArith BitProofs BitSlice BitExt BitOps
  BitShift BitCmp BitArith BitMain BitMain2 BitMain3 BitMain4 BitMain5 Client ClientProofs LawProofs Program ProgramProofs Algo.
Import ListNotations.
Open Scope Z_scope.

(** * more fuel does not change a finished run over the integers *)
Lemma exec_of_fuel n : forall fuel c st, exec_of n fuel st c <> Fuel -> exec_of n (S fuel) st c = exec_of n fuel st c.
Proof.
  induction fuel as [|fuel IH]; intros c st H; [now destruct H|].
  assert (SEQ : forall c d st, (let! s := exec_of n fuel st c in exec_of n fuel s d) <> Fuel ->
    (let! s := exec_of n (S fuel) st c in exec_of n (S fuel) s d) = (let! s := exec_of n fuel st c in exec_of n fuel s d)).
  { clear - IH. intros c d st H. assert (Q : exec_of n fuel st c <> Fuel) by (intros E; rewrite E in H; now destruct H).
    rewrite (IH c st Q). destruct (exec_of n fuel st c); cbn [bind] in *; auto. }
  destruct c as [|k e|c d|b c d|b c].
  - reflexivity.
  - reflexivity.
  - apply (SEQ c d st H).
  - change (exec_of n (S (S fuel)) st (If b c d)) with (let! t := test_of n st b in exec_of n (S fuel) st (if t : bool then c else d)).
    change (exec_of n (S fuel) st (If b c d)) with (let! t := test_of n st b in exec_of n fuel st (if t : bool then c else d)) in *.
    destruct (test_of n st b) as [t| | | |]; cbn [bind] in *; auto.
  - change (exec_of n (S (S fuel)) st (While b c)) with (let! t := test_of n st b in if t : bool then let! s := exec_of n (S fuel) st c in exec_of n (S fuel) s (While b c) else Ok st).
    change (exec_of n (S fuel) st (While b c)) with (let! t := test_of n st b in if t : bool then let! s := exec_of n fuel st c in exec_of n fuel s (While b c) else Ok st) in *.
    destruct (test_of n st b) as [t| | | |]; cbn [bind] in *; auto. destruct t; [|reflexivity]. apply (SEQ c (While b c) st H).
Qed.
Lemma exec_of_more n c st s f g : exec_of n f st c = Ok s -> (f <= g)%nat -> exec_of n g st c = Ok s.
Proof.
  intros E L. assert (H : forall d, exec_of n (d + f) st c = Ok s).
  { induction d as [|d IH]; [exact E|]. cbn [Nat.add]. rewrite exec_of_fuel; [exact IH|]. rewrite IH. discriminate. }
  replace g with ((g - f) + f)%nat by lia. apply H.
Qed.

(** * total correctness *)
Definition total (n : Z) (P : (nat -> Z) -> Prop) (c : cmd) (Q : (nat -> Z) -> Prop) : Prop :=
  forall st, P st -> exists fuel st', exec_of n fuel st c = Ok st' /\ Q st'.
Lemma total_assign n (P : (nat -> Z) -> Prop) k e (Q : (nat -> Z) -> Prop) : (forall st, P st -> exists x, value_of n st e = Ok x /\ Q (upd st k x)) -> total n P (Assign k e) Q.
Proof. intros H st Hp. destruct (H st Hp) as (x & E & q). exists 1%nat, (upd st k x). cbn [exec_of]. rewrite E. auto. Qed.
Lemma total_skip n (P Q : (nat -> Z) -> Prop) : (forall st, P st -> Q st) -> total n P Skip Q.
Proof. intros H st Hp. exists 1%nat, st. cbn. auto. Qed.
Lemma total_seq n (P : (nat -> Z) -> Prop) c (R : (nat -> Z) -> Prop) d (Q : (nat -> Z) -> Prop) : total n P c R -> total n R d Q -> total n P (Seq c d) Q.
Proof.
  intros A B st Hp. destruct (A st Hp) as (f & s & E & r). destruct (B s r) as (g & t & E2 & q). exists (S (Nat.max f g)), t. split; [|exact q].
  cbn [exec_of]. rewrite (exec_of_more n c st s f (Nat.max f g) E) by lia. cbn [bind]. apply (exec_of_more n d s t g); [exact E2|lia].
Qed.
Lemma total_if n (P : (nat -> Z) -> Prop) b c d (Q : (nat -> Z) -> Prop) : (forall st, P st -> exists t, test_of n st b = Ok t) -> total n (fun st => P st /\ test_of n st b = Ok true) c Q ->
  total n (fun st => P st /\ test_of n st b = Ok false) d Q -> total n P (If b c d) Q.
Proof.
  intros T A B st Hp. destruct (T st Hp) as [[|] Et].
  - destruct (A st (conj Hp Et)) as (f & s & E & q). exists (S f), s. cbn [exec_of]. rewrite Et. auto.
  - destruct (B st (conj Hp Et)) as (f & s & E & q). exists (S f), s. cbn [exec_of]. rewrite Et. auto.
Qed.
Lemma total_while n (I : (nat -> Z) -> Prop) (m : (nat -> Z) -> Z) b c : (forall st, I st -> 0 <= m st /\ exists t, test_of n st b = Ok t) ->
  (forall k, total n (fun st => I st /\ test_of n st b = Ok true /\ m st = k) c (fun st => I st /\ m st < k)) ->
  total n I (While b c) (fun st => I st /\ test_of n st b = Ok false).
Proof.
  intros T B. assert (G : forall k st, I st -> (Z.to_nat (m st) < k)%nat -> exists fuel st', exec_of n fuel st (While b c) = Ok st' /\ I st' /\ test_of n st' b = Ok false).
  { induction k as [|k IH]; intros st Hi L; [lia|]. destruct (T st Hi) as [M [[|] Et]].
    - destruct (B (m st) st (conj Hi (conj Et eq_refl))) as (f & s & E & Is & D). destruct (IH s Is) as (g & t & E2 & q). { destruct (T s Is). lia. }
      exists (S (Nat.max f g)), t. split; [|exact q]. cbn [exec_of]. rewrite Et. cbn [bind]. rewrite (exec_of_more n c st s f (Nat.max f g) E) by lia. cbn [bind].
      apply (exec_of_more n (While b c) s t g); [exact E2|lia].
    - exists 1%nat, st. cbn [exec_of]. rewrite Et. cbn [bind]. auto. }
  intros st Hi. apply (G (S (Z.to_nat (m st))) st Hi). lia.
Qed.
Lemma total_pre n (P P' : (nat -> Z) -> Prop) c Q : (forall st, P st -> P' st) -> total n P' c Q -> total n P c Q.
Proof. intros H A st Hp. apply A, H, Hp. Qed.

(** what holds of the integer run holds of the library's run *)
Lemma transfer n c (P Q : (nat -> Z) -> Prop) : full_width n -> usable_cmd n c -> total n P c Q -> forall env, good n env -> P (fun k => num (env k)) ->
  exists fuel env' st', (forall fuel', (fuel <= fuel')%nat -> exec fuel' env c = Ok env') /\ good n env' /\ (forall k, num (env' k) = st' k) /\ Q st'.
Proof.
  intros F U T env G Hp. destruct (T _ Hp) as (f & st' & E & q).
  pose proof (lockstep n c F U f env _ G (fun k => eq_refl)) as L. rewrite E in L. destruct (exec f env c) as [env'| | | |] eqn:X; cbn [same_outcome] in L; try tauto. destruct L as [G' N'].
  exists f, env', st'. split; [|auto]. intros f' Lf. assert (H : forall d, exec (d + f) env c = Ok env').
  { induction d as [|d IH]; [exact X|]. cbn [Nat.add]. rewrite exec_fuel; [exact IH|]. rewrite IH. discriminate. }
  replace f' with ((f' - f) + f)%nat by lia. apply H.
Qed.

Lemma amount_one n : 2 <= n -> amount n by_one.
Proof. intros H. unfold amount. split; [|split; [|split; [|intros _]]]; [conc|conc| |cbn; lia]. change (value by_one) with 1. lia. Qed.
Lemma low_bit x : 0 <= x -> Z.land x 1 = x mod 2.
Proof. intros H. change 1 with (Z.ones 1). rewrite Z.land_ones by lia. reflexivity. Qed.
Lemma half x : x = 2 * (x / 2) + x mod 2 /\ 0 <= x mod 2 < 2. Proof. split; [apply Z.div_mod; lia|apply Z.mod_pos_bound; lia]. Qed.

Section Loops.
Variable n : Z.
Hypothesis Hn : 2 <= n.
Let P : 0 < 2 ^ n. Proof. apply pow2_pos. lia. Qed.
(** the loop invariant of both loops: combining the accumulator with what is left gives the wanted number *)
Definition left_over (f : Z -> Z -> Z -> Z) (want : Z) (st : nat -> Z) : Prop :=
  st 3%nat = 0 /\ st 4%nat = 1 /\ 0 <= st 0%nat /\ 0 <= st 1%nat /\ 0 <= st 2%nat < 2 ^ n /\ f (st 2%nat) (st 0%nat) (st 1%nat) mod 2 ^ n = want.
Ltac ups := unfold left_over, upd in *; cbn [Nat.eqb] in *.

Lemma mul_total want : total n (left_over (fun r a b => r + a * b) want) shift_mul (fun st => st 2%nat = want).
Proof.
  intros st Hi.
  destruct (total_while n (left_over (fun r a b => r + a * b) want) (fun st => st 1%nat) (CLt (Var 3) (Var 1))
    (Seq (If (CEq (And (Var 1) (Var 4)) (Var 4)) (Assign 2 (Add (Var 2) (Var 0))) Skip) (Seq (Assign 0 (Shl (Var 0) by_one)) (Assign 1 (Shr (Var 1) by_one))))) with (st := st) as (f & st' & E & (A & B & C & D & R & W) & T); auto.
  - intros s (A & B & C & D & R & W). split; [exact D|]. cbn [test_of value_of bind]. eauto.
  - intros k. apply total_seq with (R := fun s => s 3%nat = 0 /\ s 4%nat = 1 /\ 0 <= s 0%nat /\ 0 < s 1%nat /\ s 1%nat = k /\ 0 <= s 2%nat < 2 ^ n /\ (s 2%nat + s 0%nat * (s 1%nat - s 1%nat mod 2)) mod 2 ^ n = want).
    + apply total_if.
      * intros s _. cbn [test_of value_of bind]. eauto.
      * apply total_assign. intros s (((A & B & C & D & R & W) & T & M) & T2). cbn [test_of value_of bind] in *. rewrite A in T. injection T as T. injection T2 as T2. rewrite B in T2. apply Z.eqb_eq in T2. rewrite low_bit in T2 by exact D.
        eexists. split; [reflexivity|]. ups. repeat (split; [first [assumption|lia|apply Z.mod_pos_bound; lia]|]). rewrite <- W, T2. rewrite Zplus_mod_idemp_l. f_equal. ring.
      * apply total_skip. intros s (((A & B & C & D & R & W) & T & M) & T2). cbn [test_of value_of bind] in *. rewrite A in T. injection T as T. injection T2 as T2. rewrite B in T2. apply Z.eqb_neq in T2. rewrite low_bit in T2 by exact D.
        repeat (split; [first [assumption|lia]|]). rewrite <- W. destruct (half (s 1%nat)). replace (s 1%nat mod 2) with 0 by lia. now rewrite Z.sub_0_r.
    + apply total_seq with (R := fun s => s 3%nat = 0 /\ s 4%nat = 1 /\ 0 <= s 0%nat /\ 0 < s 1%nat /\ s 1%nat = k /\ 0 <= s 2%nat < 2 ^ n /\ (s 2%nat + s 0%nat * (s 1%nat / 2)) mod 2 ^ n = want).
      * apply total_assign. intros s (A & B & C & D & M & R & W). cbn [value_of bind]. change (value by_one) with 1. eexists. split; [reflexivity|]. ups.
        repeat (split; [first [assumption|lia|apply Z.mod_pos_bound; lia]|]). rewrite <- W. rewrite <- Zplus_mod_idemp_r, Zmult_mod_idemp_l, Zplus_mod_idemp_r. f_equal. destruct (half (s 1%nat)). change (2 ^ 1) with 2. nia.
      * apply total_assign. intros s (A & B & C & D & M & R & W). cbn [value_of bind]. change (value by_one) with 1. eexists. split; [reflexivity|]. ups. change (2 ^ 1) with 2. destruct (half (s 1%nat)).
        split; [|lia]. repeat (split; [first [assumption|lia]|]). exact W.
  - cbn [test_of value_of bind] in T. injection T as T. rewrite A in T. apply Z.ltb_ge in T. exists f, st'. split; [exact E|]. rewrite <- W. replace (st' 1%nat) with 0 by lia. rewrite Z.mul_0_r, Z.add_0_r. symmetry. now apply Z.mod_small.
Qed.
Lemma pow_total want : total n (left_over (fun r a b => r * a ^ b) want) power (fun st => st 2%nat = want).
Proof.
  intros st Hi.
  destruct (total_while n (left_over (fun r a b => r * a ^ b) want) (fun st => st 1%nat) (CLt (Var 3) (Var 1))
    (Seq (If (CEq (And (Var 1) (Var 4)) (Var 4)) (Assign 2 (Mul (Var 2) (Var 0))) Skip) (Seq (Assign 0 (Mul (Var 0) (Var 0))) (Assign 1 (Shr (Var 1) by_one))))) with (st := st) as (f & st' & E & (A & B & C & D & R & W) & T); auto.
  - intros s (A & B & C & D & R & W). split; [exact D|]. cbn [test_of value_of bind]. eauto.
  - intros k. apply total_seq with (R := fun s => s 3%nat = 0 /\ s 4%nat = 1 /\ 0 <= s 0%nat /\ 0 < s 1%nat /\ s 1%nat = k /\ 0 <= s 2%nat < 2 ^ n /\ (s 2%nat * s 0%nat ^ (2 * (s 1%nat / 2))) mod 2 ^ n = want).
    + apply total_if.
      * intros s _. cbn [test_of value_of bind]. eauto.
      * apply total_assign. intros s (((A & B & C & D & R & W) & T & M) & T2). cbn [test_of value_of bind] in *. rewrite A in T. injection T as T. injection T2 as T2. rewrite B in T2. apply Z.eqb_eq in T2. rewrite low_bit in T2 by exact D.
        eexists. split; [reflexivity|]. ups. repeat (split; [first [assumption|lia|apply Z.mod_pos_bound; lia]|]). rewrite <- W. destruct (half (s 1%nat)) as [H _]. rewrite T2 in H. rewrite H at 2. rewrite Z.pow_add_r, Z.pow_1_r by (first [lia | apply Z.mul_nonneg_nonneg; [lia|apply Z.div_pos; lia]]). rewrite Zmult_mod_idemp_l. f_equal. ring.
      * apply total_skip. intros s (((A & B & C & D & R & W) & T & M) & T2). cbn [test_of value_of bind] in *. rewrite A in T. injection T as T. injection T2 as T2. rewrite B in T2. apply Z.eqb_neq in T2. rewrite low_bit in T2 by exact D.
        repeat (split; [first [assumption|lia]|]). rewrite <- W. destruct (half (s 1%nat)). replace (2 * (s 1%nat / 2)) with (s 1%nat) by lia. reflexivity.
    + apply total_seq with (R := fun s => s 3%nat = 0 /\ s 4%nat = 1 /\ 0 <= s 0%nat /\ 0 < s 1%nat /\ s 1%nat = k /\ 0 <= s 2%nat < 2 ^ n /\ (s 2%nat * s 0%nat ^ (s 1%nat / 2)) mod 2 ^ n = want).
      * apply total_assign. intros s (A & B & C & D & M & R & W). cbn [value_of bind]. eexists. split; [reflexivity|]. ups.
        repeat (split; [first [assumption|lia|apply Z.mod_pos_bound; lia]|]). rewrite <- W. assert (Q : 0 <= s 1%nat / 2) by (apply Z.div_pos; lia).
        rewrite Z.pow_mul_r by lia. rewrite (Z.pow_2_r (s 0%nat)). rewrite <- Zmult_mod_idemp_r, <- Zpower_mod, Zmult_mod_idemp_r by lia. reflexivity.
      * apply total_assign. intros s (A & B & C & D & M & R & W). cbn [value_of bind]. change (value by_one) with 1. eexists. split; [reflexivity|]. ups. change (2 ^ 1) with 2. destruct (half (s 1%nat)).
        split; [|lia]. repeat (split; [first [assumption|lia]|]). exact W.
  - cbn [test_of value_of bind] in T. injection T as T. rewrite A in T. apply Z.ltb_ge in T. exists f, st'. split; [exact E|]. rewrite <- W. replace (st' 1%nat) with 0 by lia. rewrite Z.pow_0_r, Z.mul_1_r. symmetry. now apply Z.mod_small.
Qed.
Lemma sub_div_total a b : 0 <= a < 2 ^ n -> 0 < b < 2 ^ n ->
  total n (fun s => s 4%nat = 1 /\ s 1%nat = b /\ s 0%nat = a /\ s 2%nat = 0) sub_div (fun s => s 2%nat = a / b /\ s 0%nat = a mod b).
Proof.
  intros Ha Hb st (S4 & S1 & S0 & S2).
  destruct (total_while n (fun s => s 4%nat = 1 /\ s 1%nat = b /\ 0 <= s 0%nat < 2 ^ n /\ 0 <= s 2%nat /\ s 2%nat * b + s 0%nat = a) (fun s => s 0%nat) (CGe (Var 0) (Var 1))
    (Seq (Assign 0 (Sub (Var 0) (Var 1))) (Assign 2 (Add (Var 2) (Var 4))))) with (st := st) as (f & st' & E & (B & C & D & G & W) & T).
  - intros s (B & C & D & G & W). split; [lia|]. cbn [test_of value_of bind]. eauto.
  - intros k. apply total_seq with (R := fun s => s 4%nat = 1 /\ s 1%nat = b /\ 0 <= s 0%nat < 2 ^ n /\ 0 <= s 2%nat /\ (s 2%nat + 1) * b + s 0%nat = a /\ s 0%nat < k).
    + apply total_assign. intros s ((B & C & D & G & W) & T & M). cbn [test_of value_of bind] in *. injection T as T. apply Z.leb_le in T. eexists. split; [reflexivity|]. ups. rewrite Z.mod_small by lia.
      rewrite C in *. repeat (split; [first [assumption|lia]|]). lia.
    + apply total_assign. intros s (B & C & D & G & W & M). cbn [value_of bind]. eexists. split; [reflexivity|]. ups. rewrite B. rewrite Z.mod_small by nia.
      split; [|assumption]. repeat (split; [first [assumption|lia]|]). lia.
  - repeat (split; [first [assumption|lia]|]). lia.
  - exists f, st'. split; [exact E|]. cbn [test_of value_of bind] in T. injection T as T. apply Z.leb_gt in T. rewrite C in T.
    assert (Q : a = b * st' 2%nat + st' 0%nat) by lia. split; [apply (Z.div_unique_pos a b _ (st' 0%nat)); lia|apply (Z.mod_unique_pos a b (st' 2%nat)); lia].
Qed.

Lemma ones_step z m : 0 <= z -> 0 <= m -> ones_of (m + 1) z = z mod 2 + ones_of m (z / 2).
Proof.
  intros Hz Hm. unfold ones_of.
  assert (G : forall j c, 0 <= j -> fold_left (fun c p => c + b2z (Z.testbit z p)) (zrange 0 (j + 1)) c = c + z mod 2 + fold_left (fun c p => c + b2z (Z.testbit (z / 2) p)) (zrange 0 j) 0).
  { intros j c Hj. revert j Hj. apply (natlike_ind (fun j => fold_left (fun c p => c + b2z (Z.testbit z p)) (zrange 0 (j + 1)) c = c + z mod 2 + fold_left (fun c p => c + b2z (Z.testbit (z / 2) p)) (zrange 0 j) 0)).
    - change (zrange 0 (0 + 1)) with [0]. change (zrange 0 0) with (@nil Z). cbn [fold_left]. rewrite Z.bit0_odd, Zmod_odd. unfold b2z. destruct (Z.odd z); lia.
    - intros j Hj IH. unfold Z.succ. rewrite (zrange_snoc 0 (j + 1)) by lia. rewrite fold_left_app. cbn [fold_left]. rewrite IH, (zrange_snoc 0 j), fold_left_app by lia. cbn [fold_left].
      rewrite Z.div2_bits by lia. unfold Z.succ. lia. }
  rewrite G by lia. lia.
Qed.
Lemma ones_range z m : 0 <= m -> 0 <= ones_of m z <= m.
Proof.
  intros Hm. unfold ones_of. apply (zrange_fold_ind _ (fun i c => 0 <= c <= i)); [lia|lia|]. intros i x Hi R. unfold b2z. destruct (Z.testbit z i); lia.
Qed.
Lemma pop_total a : 0 <= a < 2 ^ n ->
  total n (fun s => s 4%nat = 1 /\ s 3%nat = 0 /\ s 0%nat = a /\ s 2%nat = 0) popcount (fun s => s 2%nat = ones_of n a).
Proof.
  intros Ha st (S4 & S3 & S0 & S2). assert (BIG : n < 2 ^ n) by (apply Z.pow_gt_lin_r; lia). pose proof (ones_range a n ltac:(lia)) as W0.
  destruct (total_while n (fun s => s 4%nat = 1 /\ s 3%nat = 0 /\ 0 <= s 0%nat /\ 0 <= s 2%nat /\ exists m, 0 <= m /\ s 0%nat < 2 ^ m /\ s 2%nat + ones_of m (s 0%nat) = ones_of n a) (fun s => s 0%nat) (CLt (Var 3) (Var 0))
    (Seq (Assign 2 (Add (Var 2) (And (Var 0) (Var 4)))) (Assign 0 (Shr (Var 0) by_one)))) with (st := st) as (f & st' & E & (B & C & D & G & m & Hm & L & W) & T).
  - intros s (B & C & D & G & _). split; [lia|]. cbn [test_of value_of bind]. eauto.
  - intros k. apply total_seq with (R := fun s => s 4%nat = 1 /\ s 3%nat = 0 /\ 0 < s 0%nat /\ s 0%nat = k /\ 0 <= s 2%nat /\ exists m, 0 <= m /\ s 0%nat < 2 ^ (m + 1) /\ s 2%nat + ones_of m (s 0%nat / 2) = ones_of n a).
    + apply total_assign. intros s ((B & C & D & G & m & Hm & L & W) & T & M). cbn [test_of value_of bind] in *. injection T as T. rewrite C in T. apply Z.ltb_lt in T.
      assert (m <> 0) by (intros ->; change (2 ^ 0) with 1 in L; lia). rewrite B, low_bit by lia. replace m with ((m - 1) + 1) in W by lia. rewrite ones_step in W by lia.
      pose proof (ones_range (s 0%nat / 2) (m - 1) ltac:(lia)). pose proof (Z.mod_pos_bound (s 0%nat) 2 ltac:(lia)).
      eexists. split; [reflexivity|]. ups. rewrite (Z.mod_small (s 2%nat + _)) by lia. repeat (split; [first [assumption|lia]|]). exists (m - 1). split; [lia|]. replace (m - 1 + 1) with m by lia. split; [exact L|lia].
    + apply total_assign. intros s (B & C & D & G & R & m & Hm & L & W). cbn [value_of bind]. change (value by_one) with 1. change (2 ^ 1) with 2. eexists. split; [reflexivity|]. ups. destruct (half (s 0%nat)).
      split; [|lia]. repeat (split; [first [assumption|lia]|]). exists m. rewrite Z.pow_add_r in L by lia. change (2 ^ 1) with 2 in L. split; [lia|]. split; [lia|exact W].
  - repeat (split; [first [assumption|lia]|]). exists n. rewrite S0. split; [lia|]. split; lia.
  - exists f, st'. split; [exact E|]. cbn [test_of value_of bind] in T. injection T as T. rewrite C in T. apply Z.ltb_ge in T. replace (st' 0%nat) with 0 in W by lia.
    rewrite <- W. assert (Z0 : forall j, 0 <= j -> ones_of j 0 = 0); [|rewrite Z0 by lia; lia].
    intros j Hj. unfold ones_of. apply (zrange_fold_ind _ (fun i c => c = 0)); [lia|reflexivity|]. intros i x Hi ->. rewrite Z.testbit_0_l. reflexivity.
Qed.
End Loops.

(** * the algorithms run by the library *)
Lemma start n env k : full_width n -> good n env -> 0 <= num (env k) < 2 ^ n.
Proof. intros F G. pose proof (num_range (env k)) as R. rewrite (typed_bw _ n false) in R by (unfold full_width in F; try apply G; lia). exact R. Qed.
Lemma shift_mul_run n env : full_width n -> good n env -> num (env 2%nat) = 0 -> num (env 3%nat) = 0 -> num (env 4%nat) = 1 ->
  exists fuel env', (forall fuel', (fuel <= fuel')%nat -> exec fuel' env shift_mul = Ok env') /\ good n env' /\
    num (env' 2%nat) = (num (env 0%nat) * num (env 1%nat)) mod 2 ^ n.
Proof.
  intros F G H2 H3 H4. assert (Hn : 2 <= n) by (unfold full_width in F; lia).
  assert (U : usable_cmd n shift_mul) by (cbn; pose proof (amount_one n Hn); tauto).
  destruct (transfer n shift_mul _ _ F U (mul_total n Hn ((num (env 0%nat) * num (env 1%nat)) mod 2 ^ n)) env G) as (f & e' & s' & R & G' & N & Q).
  - unfold left_over. rewrite H2. pose proof (start n env 0 F G). pose proof (start n env 1 F G). repeat (split; [first [assumption|lia]|]). reflexivity.
  - exists f, e'. split; [exact R|]. split; [exact G'|]. now rewrite N.
Qed.
Lemma power_run n env : full_width n -> n <= 64 -> n <> 16 -> good n env -> num (env 2%nat) = 1 -> num (env 3%nat) = 0 -> num (env 4%nat) = 1 ->
  exists fuel env', (forall fuel', (fuel <= fuel')%nat -> exec fuel' env power = Ok env') /\ good n env' /\
    num (env' 2%nat) = (num (env 0%nat) ^ num (env 1%nat)) mod 2 ^ n.
Proof.
  intros F L L2 G H2 H3 H4. assert (Hn : 2 <= n) by (unfold full_width in F; lia).
  assert (U : usable_cmd n power) by (cbn; pose proof (amount_one n Hn); tauto).
  destruct (transfer n power _ _ F U (pow_total n Hn ((num (env 0%nat) ^ num (env 1%nat)) mod 2 ^ n)) env G) as (f & e' & s' & R & G' & N & Q).
  - assert (1 < 2 ^ n) by (apply Z.pow_gt_1; lia). unfold left_over. rewrite H2. pose proof (start n env 0 F G). pose proof (start n env 1 F G). repeat (split; [first [assumption|lia]|]). now rewrite Z.mul_1_l.
  - exists f, e'. split; [exact R|]. split; [exact G'|]. now rewrite N.
Qed.
Lemma sub_div_run n env : full_width n -> good n env -> num (env 2%nat) = 0 -> num (env 4%nat) = 1 -> num (env 1%nat) <> 0 ->
  exists fuel env', (forall fuel', (fuel <= fuel')%nat -> exec fuel' env sub_div = Ok env') /\ good n env' /\
    num (env' 2%nat) = num (env 0%nat) / num (env 1%nat) /\ num (env' 0%nat) = num (env 0%nat) mod num (env 1%nat).
Proof.
  intros F G H2 H4 Z0. assert (Hn : 2 <= n) by (unfold full_width in F; lia). pose proof (start n env 0 F G). pose proof (start n env 1 F G).
  assert (U : usable_cmd n sub_div) by (cbn; tauto).
  destruct (transfer n sub_div _ _ F U (sub_div_total n Hn (num (env 0%nat)) (num (env 1%nat)) ltac:(lia) ltac:(lia)) env G) as (f & e' & s' & R & G' & N & Q1 & Q2).
  - repeat (split; [first [assumption|reflexivity]|]). assumption.
  - exists f, e'. split; [exact R|]. split; [exact G'|]. rewrite !N. auto.
Qed.
Lemma popcount_run n env : full_width n -> good n env -> num (env 2%nat) = 0 -> num (env 3%nat) = 0 -> num (env 4%nat) = 1 ->
  exists fuel env', (forall fuel', (fuel <= fuel')%nat -> exec fuel' env popcount = Ok env') /\ good n env' /\
    num (env' 2%nat) = ones_of n (num (env 0%nat)).
Proof.
  intros F G H2 H3 H4. assert (Hn : 2 <= n) by (unfold full_width in F; lia). pose proof (start n env 0 F G).
  assert (U : usable_cmd n popcount) by (cbn; pose proof (amount_one n Hn); tauto).
  destruct (transfer n popcount _ _ F U (pop_total n Hn (num (env 0%nat)) ltac:(lia)) env G) as (f & e' & s' & R & G' & N & Q).
  - repeat (split; [first [assumption|reflexivity]|]). assumption.
  - exists f, e'. split; [exact R|]. split; [exact G'|]. now rewrite N.
Qed.
