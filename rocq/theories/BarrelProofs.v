(** Barrel shifters. *)
From Coq Require Import ZArith List Bool Lia.
From Verif Require Import Cpp ZBits Bit Spec SpecCircuit SpecExact Barrel BitProofs BitExt BitShift Exact3 CircuitProofs.
From Verif Require SortProofs PermuteProofs.
Import ListNotations.
Open Scope Z_scope.
Local Ltac Zify.zify_post_hook ::= idtac.

Lemma computing_le n : n <= 64 -> n <= computing n.
Proof. intros H. unfold computing. destruct (Z.leb_spec n 32); lia. Qed.
Lemma left_all n m s k a : 2 <= n -> 1 <= m -> typed k m false -> typed a n false -> (forall i, 0 <= i < m -> amount_of n (s i) /\ value (s i) = 2 ^ i /\ (n <= 64 -> bit_at k i = true -> 2 ^ i < computing n)) ->
  exists r, barrel_left m s k a = Ok r /\ typed r n false /\ forall p, 0 <= p < n -> bit_at r p = bit_at a (p - num k).
Proof.
  intros N M K A S. pose proof (typed_bw a n false ltac:(lia) A) as Wa.
  destruct (zrange_ofold_ind (fun a i => let! c := bit_get k i in if c then bit_shl a (s i) else Ok a) (fun i x => typed x n false /\ forall p, 0 <= p < n -> bit_at x p = bit_at a (p - num k mod 2 ^ i)) 0 m a) as (r & E & T & B); [lia| | |].
  - split; [exact A|]. intros p Hp. change (2 ^ 0) with 1. rewrite Z.mod_1_r, Z.sub_0_r. reflexivity.
  - intros i x I [T B]. rewrite (typed_get k m false i K I). cbn [bind]. destruct (S i I) as (Am & V & L). rewrite mod_next by lia. fold (bit_at k i). pose proof (Z.mod_pos_bound (num k) (2 ^ i) ltac:(apply Z.pow_pos_nonneg; lia)) as MB. pose proof (typed_bw x n false ltac:(lia) T) as Wx. destruct (bit_at k i) eqn:Bk.
    + destruct (shl_gen x (s i) n false N T Am) as (y & Ey & Ty & By); [lia|intros H; rewrite V; apply L; [exact H|reflexivity]|]. exists y. split; [exact Ey|]. split; [exact Ty|]. intros p Hp. rewrite By, V by exact Hp. cbn [Z.b2z]. destruct (Z.lt_ge_cases (p - 2 ^ i) 0) as [C|C].
      * rewrite !at_out by lia. reflexivity.
      * rewrite B by (pose proof (Z.pow_nonneg 2 i); lia). f_equal. lia.
    + exists x. split; [reflexivity|]. split; [exact T|]. intros p Hp. rewrite B by exact Hp. cbn [Z.b2z]. f_equal. lia.
  - exists r. split; [exact E|]. split; [exact T|]. intros p Hp. rewrite B by exact Hp. pose proof (num_range k) as R. rewrite (typed_bw k m false M K) in R. rewrite Z.mod_small by (apply R; exact M). reflexivity.
Qed.
Lemma right_all n m s k a : 2 <= n -> 1 <= m -> typed k m false -> typed a n false -> (forall i, 0 <= i < m -> amount_of n (s i) /\ value (s i) = 2 ^ i /\ (n <= 64 -> bit_at k i = true -> 2 ^ i < n)) ->
  exists r, barrel_right m s k a = Ok r /\ typed r n false /\ forall p, 0 <= p < n -> bit_at r p = bit_at a (p + num k).
Proof.
  intros N M K A S. pose proof (typed_bw a n false ltac:(lia) A) as Wa.
  destruct (zrange_ofold_ind (fun a i => let! c := bit_get k i in if c then bit_shr a (s i) else Ok a) (fun i x => typed x n false /\ forall p, 0 <= p < n -> bit_at x p = bit_at a (p + num k mod 2 ^ i)) 0 m a) as (r & E & T & B); [lia| | |].
  - split; [exact A|]. intros p Hp. change (2 ^ 0) with 1. rewrite Z.mod_1_r, Z.add_0_r. reflexivity.
  - intros i x I [T B]. rewrite (typed_get k m false i K I). cbn [bind]. destruct (S i I) as (Am & V & L). rewrite mod_next by lia. fold (bit_at k i). pose proof (Z.mod_pos_bound (num k) (2 ^ i) ltac:(apply Z.pow_pos_nonneg; lia)) as MB. pose proof (typed_bw x n false ltac:(lia) T) as Wx. destruct (bit_at k i) eqn:Bk.
    + destruct (shr_gen x (s i) n false N T Am) as (y & Ey & Ty & By); [lia|intros H; rewrite V; apply L; [exact H|reflexivity]|]. exists y. split; [exact Ey|]. split; [exact Ty|]. intros p Hp. rewrite By, V by lia. cbn [Z.b2z]. destruct (Z.lt_ge_cases (p + 2 ^ i) n) as [C|C].
      * rewrite B by lia. f_equal. lia.
      * rewrite !at_out by lia. reflexivity.
    + exists x. split; [reflexivity|]. split; [exact T|]. intros p Hp. rewrite B by exact Hp. cbn [Z.b2z]. f_equal. lia.
  - exists r. split; [exact E|]. split; [exact T|]. intros p Hp. rewrite B by exact Hp. pose proof (num_range k) as R. rewrite (typed_bw k m false M K) in R. rewrite Z.mod_small by (apply R; exact M). reflexivity.
Qed.
Lemma right_ub n m s k a : 2 <= n <= 64 -> 1 <= m -> typed k m false -> typed a n false -> (forall i, 0 <= i < m -> amount_of n (s i) /\ value (s i) = 2 ^ i) ->
  forall j, 0 <= j < m -> bit_at k j = true -> n <= 2 ^ j -> barrel_right m s k a = UB.
Proof.
  intros N M K A S j J B G. unfold barrel_right. apply (PermuteProofs.zofold_ub _ (fun _ x => typed x n false) m j _ 0 a eq_refl J A).
  - intros i x I T. rewrite (typed_get k m false i K ltac:(lia)). cbn [bind]. destruct (S i ltac:(lia)) as (Am & V). destruct (bit_at k i); [|right; exists x; split; [reflexivity|exact T]]. pose proof (Z.pow_nonneg 2 i ltac:(lia)) as P. destruct (Z.lt_ge_cases (2 ^ i) n) as [C|C].
    + right. destruct (shr_gen x (s i) n false ltac:(lia) T Am) as (y & E & Ty & _); [lia|lia|]. exists y. split; [exact E|exact Ty].
    + left. destruct Am as (Va & Ta & Wa). pose proof (typed_bw x n false ltac:(lia) T) as Wx. apply shr_wide_ub; [apply T|exact Va|lia|apply Wa; lia|]. rewrite (tidy_value_stored (s i) Va Ta ltac:(lia)). lia.
  - intros x T. rewrite (typed_get k m false j K J), B. cbn [bind]. destruct (S j J) as (Am & V). pose proof (Z.pow_nonneg 2 j ltac:(lia)) as P. destruct Am as (Va & Ta & Wa). pose proof (typed_bw x n false ltac:(lia) T) as Wx. apply shr_wide_ub; [apply T|exact Va|lia|apply Wa; lia|]. rewrite (tidy_value_stored (s j) Va Ta ltac:(lia)). lia.
Qed.
Lemma stages_left n m s k : (forall i, 0 <= i < m -> amount_of n (s i) /\ value (s i) = 2 ^ i /\ (n <= 64 -> 2 ^ i < n)) -> forall i, 0 <= i < m -> amount_of n (s i) /\ value (s i) = 2 ^ i /\ (n <= 64 -> bit_at k i = true -> 2 ^ i < computing n).
Proof. intros S i I. destruct (S i I) as (A & V & L). split; [exact A|]. split; [exact V|]. intros H _. pose proof (computing_le n H). specialize (L H). lia. Qed.
Lemma stages_right n m s k : (forall i, 0 <= i < m -> amount_of n (s i) /\ value (s i) = 2 ^ i /\ (n <= 64 -> 2 ^ i < n)) -> forall i, 0 <= i < m -> amount_of n (s i) /\ value (s i) = 2 ^ i /\ (n <= 64 -> bit_at k i = true -> 2 ^ i < n).
Proof. intros S i I. destruct (S i I) as (A & V & L). split; [exact A|]. split; [exact V|]. intros H _. exact (L H). Qed.
(** as the operators shift *)
Lemma as_shifts n m s k a : 2 <= n -> 1 <= m -> typed k m false -> amount_of n k -> (n <= 64 -> num k < n) -> typed a n false -> (forall i, 0 <= i < m -> amount_of n (s i) /\ value (s i) = 2 ^ i /\ (n <= 64 -> 2 ^ i < n)) ->
  (exists r t, barrel_left m s k a = Ok r /\ bit_shl a k = Ok t /\ num r = num t) /\ (exists r t, barrel_right m s k a = Ok r /\ bit_shr a k = Ok t /\ num r = num t).
Proof.
  intros N M K Ak Kn A S. assert (Vk : value k = num k) by (apply (SortProofs.value_num k m K)). pose proof (num_range k) as R. rewrite (typed_bw k m false M K) in R. specialize (R M). split.
  - destruct (left_all n m s k a N M K A (stages_left n m s k S)) as (r & E & T & B). destruct (shl_gen a k n false N A Ak) as (t & F & U & G); [lia|intros H; pose proof (computing_le n H); lia|]. exists r, t. split; [exact E|]. split; [exact F|]. apply (same_bits r t n _ _ ltac:(lia) T U). intros p Hp. rewrite B, G, Vk by lia. reflexivity.
  - destruct (right_all n m s k a N M K A (stages_right n m s k S)) as (r & E & T & B). destruct (shr_gen a k n false N A Ak) as (t & F & U & G); [lia|lia|]. exists r, t. split; [exact E|]. split; [exact F|]. apply (same_bits r t n _ _ ltac:(lia) T U). intros p Hp. rewrite B, G, Vk by lia. reflexivity.
Qed.
Lemma left_ub n m s k a : 2 <= n <= 64 -> 1 <= m -> typed k m false -> typed a n false -> (forall i, 0 <= i < m -> amount_of n (s i) /\ value (s i) = 2 ^ i) ->
  forall j, 0 <= j < m -> bit_at k j = true -> computing n <= 2 ^ j -> j < storage n -> barrel_left m s k a = UB.
Proof.
  intros N M K A S j J B G H. unfold barrel_left. apply (PermuteProofs.zofold_ub _ (fun _ x => typed x n false) m j _ 0 a eq_refl J A).
  - intros i x I T. rewrite (typed_get k m false i K ltac:(lia)). cbn [bind]. destruct (S i ltac:(lia)) as (Am & V). destruct (bit_at k i); [|right; exists x; split; [reflexivity|exact T]]. pose proof (Z.pow_nonneg 2 i ltac:(lia)) as P. pose proof (typed_bw x n false ltac:(lia) T) as Wx. destruct Am as (Va & Ta & Wa). pose proof (tidy_value_stored (s i) Va Ta ltac:(lia)) as Ev.
    destruct (shl_exact x (s i) n _ (proj1 T) Va Wx N (Wa ltac:(lia)) ltac:(lia) eq_refl) as [Q1 Q2]. destruct (Z.lt_ge_cases (stored (s i) mod 2 ^ storage n) (computing n)) as [C|C].
    + right. destruct (Q1 C) as (y & E & Ty & _). exists y. split; [exact E|]. destruct T as (_ & _ & Sx). rewrite Sx in Ty. exact Ty.
    + left. exact (Q2 C).
  - intros x T. rewrite (typed_get k m false j K J), B. cbn [bind]. destruct (S j J) as (Am & V). pose proof (Z.pow_nonneg 2 j ltac:(lia)) as P. pose proof (typed_bw x n false ltac:(lia) T) as Wx. destruct Am as (Va & Ta & Wa). pose proof (tidy_value_stored (s j) Va Ta ltac:(lia)) as Ev.
    destruct (shl_exact x (s j) n _ (proj1 T) Va Wx N (Wa ltac:(lia)) ltac:(lia) eq_refl) as [_ Q2]. apply Q2. rewrite Ev, V. rewrite Z.mod_small; [exact G|]. split; [exact P|]. apply Z.pow_lt_mono_r; lia.
Qed.
