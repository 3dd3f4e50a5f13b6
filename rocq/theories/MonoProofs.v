(** Replacing x and z by known values: exactly which results of & and | change. *)
From Coq Require Import ZArith List Bool Lia.
From Verif Require Import Cpp BigNum Bit Logic Spec SpecExact4 SpecWide SpecMono ZBits BitProofs BitMain2 CircuitProofs LogicProofs LogicMain Program4Proofs Iff3 Iff25.
Import ListNotations.
Open Scope Z_scope.
Local Ltac Zify.zify_post_hook ::= idtac.

(** some vector with given symbols *)
Definition given (n v m : Z) : logic := mkLogic (vec_of n false v) (vec_of n false m).
Lemma given_typed n v m : 1 <= n < 2 ^ 31 -> ltyped (given n v m) n false.
Proof. intros H. split; apply vec_of_typed; exact H. Qed.
Lemma given_at n v m p : 2 <= n -> 0 <= p < n -> sym_at (given n v m) p = sym_of (Z.testbit v p) (Z.testbit m p).
Proof. intros N P. unfold sym_at, given, bit_at. cbn [l_val l_xz]. rewrite !vec_of_num by lia. rewrite !Z.testbit_mod_pow2 by lia. replace (p <? n) with true by lia. reflexivity. Qed.
(** [a] with position [p] replaced by a known value *)
Definition fixed (n p : Z) (x : bool) (a : logic) : logic :=
  given n (Z.lor (Z.ldiff (num (l_val a)) (2 ^ p)) (if x then 2 ^ p else 0)) (Z.ldiff (num (l_xz a)) (2 ^ p)).
Lemma fixed_at n p x a q : 2 <= n -> 0 <= p < n -> 0 <= q < n -> sym_at (fixed n p x a) q = if q =? p then sym_of_bool x else sym_at a q.
Proof.
  intros N P Q. unfold fixed. rewrite given_at by assumption. rewrite Z.lor_spec, !Z.ldiff_spec. rewrite Z.pow2_bits_eqb by lia. rewrite (Z.eqb_sym p q). unfold sym_at, bit_at.
  destruct (Z.eqb_spec q p) as [->|D].
  - cbn [negb]. rewrite !andb_false_r. destruct x; [rewrite Z.pow2_bits_true by lia|rewrite Z.bits_0]; reflexivity.
  - cbn [negb]. rewrite !andb_true_r. destruct x; [rewrite Z.pow2_bits_false by lia|rewrite Z.bits_0]; rewrite orb_false_r; reflexivity.
Qed.
Section Op.
  Context (op : logic -> logic -> outcome logic) (tab : sym -> sym -> sym) (bad : sym -> sym -> Prop).
  Hypothesis main : forall a b n, lvec a -> lvec b -> lw a = n -> lw b = n -> llsb a <= lmsb a -> llsb b <= lmsb b -> lsgn a && lsgn b = false ->
    exists r, op a b = Ok r /\ ltyped r n false /\ (tidy (l_xz a) -> tidy (l_xz b) -> ltidy r) /\ forall p, 0 <= p < n -> sym_at r p = tab (sym_at a p) (sym_at b p).
  Hypothesis fine : forall s t s' t', ~ bad s t -> settled s' s -> settled t' t -> unknown (tab s t) = false -> tab s' t' = tab s t.
  Hypothesis breaks : forall s t, bad s t -> unknown s = true /\ unknown (tab s t) = false /\ exists x, tab (sym_of_bool x) t <> tab s t.
  Lemma op_typed a b n : 1 <= n -> ltyped a n false -> ltyped b n false -> exists r, op a b = Ok r /\ ltyped r n false /\ forall p, 0 <= p < n -> sym_at r p = tab (sym_at a p) (sym_at b p).
  Proof.
    intros N A B. destruct (main a b n) as (r & E & T & _ & Q).
    - apply (ltyped_lvec a n false A).
    - apply (ltyped_lvec b n false B).
    - apply (typed_bw (l_val a) n false N), A.
    - apply (typed_bw (l_val b) n false N), B.
    - destruct A as [(_ & (M & L) & _) _]. unfold llsb, lmsb. rewrite M, L. lia.
    - destruct B as [(_ & (M & L) & _) _]. unfold llsb, lmsb. rewrite M, L. lia.
    - destruct A as [(_ & _ & X) _]. unfold lsgn. rewrite X. reflexivity.
    - exists r. auto.
  Qed.
  Theorem op_stable a b n p : 2 <= n -> ltyped a n false -> ltyped b n false -> 0 <= p < n -> stable op n a b p <-> ~ bad (sym_at a p) (sym_at b p).
  Proof.
    intros N A B P. destruct (op_typed a b n ltac:(lia) A B) as (r & E & T & Q). split.
    - intros H Bd. destruct (breaks _ _ Bd) as (U & K & x & X). assert (M : n < 2 ^ 31) by (rewrite <- (typed_bw (l_val a) n false ltac:(lia) (proj1 A)); apply (proj1 (proj1 A))).
      assert (TF : ltyped (fixed n p x a) n false) by (apply given_typed; lia). destruct (op_typed (fixed n p x a) b n ltac:(lia) TF B) as (r' & E' & _ & Q').
      specialize (H (fixed n p x a) b TF B). apply X. rewrite <- Q by exact P. rewrite <- (fun h1 h2 => H h1 h2 r r'); try assumption.
      + rewrite Q' by exact P. rewrite fixed_at by lia. rewrite Z.eqb_refl. reflexivity.
      + intros q Hq. rewrite fixed_at by lia. destruct (Z.eqb_spec q p) as [->|D]; [right; split; [exact U|destruct x; reflexivity]|left; reflexivity].
      + intros q Hq. left. reflexivity.
      + rewrite Q by exact P. exact K.
    - intros G a' b' A' B' SA SB r1 r1' E1 E1' K. assert (r1 = r) by congruence. subst. destruct (op_typed a' b' n ltac:(lia) A' B') as (r' & E' & _ & Q'). assert (r1' = r') by congruence. subst.
      rewrite Q' by exact P. rewrite Q in K |- * by exact P. apply fine; auto.
  Qed.
End Op.
Theorem and_stable a b n p : 2 <= n -> ltyped a n false -> ltyped b n false -> 0 <= p < n -> stable logic_and n a b p <-> ~ (sym_at a p = SZ /\ sym_at b p = S1).
Proof.
  apply (op_stable logic_and lib_and (fun s t => s = SZ /\ t = S1) (fun a b n => lib_and_gen a b n)).
  - intros s t s' t' G [->|[U K]] [->|[U' K']] R; destruct s, t; cbn in *; try discriminate; try reflexivity; try (exfalso; apply G; split; reflexivity); try destruct s'; try destruct t'; try discriminate; reflexivity.
  - intros s t [-> ->]. split; [reflexivity|]. split; [reflexivity|]. exists false. discriminate.
Qed.
Theorem or_stable a b n p : 2 <= n -> ltyped a n false -> ltyped b n false -> 0 <= p < n -> stable logic_or n a b p <-> ~ (sym_at a p = SX /\ sym_at b p = S0).
Proof.
  apply (op_stable logic_or lib_or (fun s t => s = SX /\ t = S0) (fun a b n => lib_or_gen a b n)).
  - intros s t s' t' G [->|[U K]] [->|[U' K']] R; destruct s, t; cbn in *; try discriminate; try reflexivity; try (exfalso; apply G; split; reflexivity); try destruct s'; try destruct t'; try discriminate; reflexivity.
  - intros s t [-> ->]. split; [reflexivity|]. split; [reflexivity|]. exists false. discriminate.
Qed.
Theorem xor_stable a b n p : 2 <= n -> ltyped a n false -> ltyped b n false -> 0 <= p < n -> stable logic_xor n a b p.
Proof.
  intros N A B P. apply (op_stable logic_xor xor4 (fun _ _ => False) (fun a b n => xor4_main a b n)); auto.
  - intros s t s' t' _ [->|[U K]] [->|[U' K']] R; destruct s, t; cbn in *; try discriminate; try reflexivity; try destruct s'; try destruct t'; try discriminate; reflexivity.
  - intros s t [].
Qed.
