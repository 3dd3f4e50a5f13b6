(** The order of the operands. *)
From Coq Require Import ZArith List Bool Lia.
From Verif Require Import Cpp BigNum Bit Logic Spec SpecExact SpecMachine SpecWide SpecFour ZBits BitProofs WideProofs WideProofs2 WideProofs3 FourProofs2 FourProofs3 Program4Proofs MonoProofs.
From Verif Require SpecExact4.
Import ListNotations.
Open Scope Z_scope.
Local Ltac Zify.zify_post_hook ::= idtac.

Lemma wider_sym a b : wider a b = wider b a. Proof. apply Z.max_comm. Qed.
Lemma both_sym a b : both_signed a b = both_signed b a. Proof. apply andb_comm. Qed.
Lemma with_sym n s t : with_sign n s t = with_sign n t s. Proof. unfold with_sign. now rewrite (andb_comm s t). Qed.
Lemma operand_sym n s t x : operand n s t x = operand n t s x. Proof. unfold operand. now rewrite with_sym. Qed.
(** vectors of one width have bounds of one direction *)
Definition aligned (a b : bit) : Prop := bw a = bw b -> (blsb a <= bmsb a <-> blsb b <= bmsb b).
Lemma pairs_sym a b : aligned a b -> pairs_up a b = pairs_up b a.
Proof.
  intros H. unfold pairs_up. rewrite (Z.eqb_sym (bw b) (bw a)). destruct (Z.eqb_spec (bw a) (bw b)) as [E|E].
  - specialize (H E). destruct (Z.leb_spec (blsb b) (bmsb b)), (Z.leb_spec (blsb a) (bmsb a)); try reflexivity; exfalso; lia.
  - destruct (Z.ltb_spec (bw a) (bw b)), (Z.ltb_spec (bw b) (bw a)); try lia; reflexivity.
Qed.
Lemma pairs_not a b : ~ aligned a b -> (pairs_up a b = true /\ pairs_up b a = false) \/ (pairs_up a b = false /\ pairs_up b a = true).
Proof.
  intros H. unfold pairs_up. rewrite (Z.eqb_sym (bw b) (bw a)). destruct (Z.eqb_spec (bw a) (bw b)) as [E|E]; [|exfalso; apply H; intros X; contradiction].
  destruct (Z.leb_spec (blsb b) (bmsb b)), (Z.leb_spec (blsb a) (bmsb a)); auto; exfalso; apply H; intros _; lia.
Qed.
Lemma computed_sym op a b : (forall x y, op x y = op y x) -> aligned a b -> computed op false a b = computed op false b a.
Proof. intros C H. unfold computed. rewrite (wider_sym b a), (pairs_sym a b H), (both_sym a b). rewrite !(operand_sym _ (bsgn b) (bsgn a)), (with_sym _ (bsgn b) (bsgn a)). rewrite C. reflexivity. Qed.
Lemma combined_sym f g a b : (forall x y, f x y = g y x) -> aligned a b -> combined f a b = combined g b a.
Proof. intros C H. unfold combined. rewrite (wider_sym b a), (pairs_sym a b H), (both_sym a b), C. reflexivity. Qed.
Lemma sum_sym a b : aligned a b -> any_sum a b = any_sum b a.
Proof. intros H. unfold any_sum. rewrite (andb_comm (small b)). destruct (small a && small b); [apply computed_sym; [apply Z.add_comm|exact H]|]. apply combined_sym; [intros; f_equal; apply Z.add_comm|exact H]. Qed.
Lemma product_sym a b : aligned a b -> any_product a b = any_product b a.
Proof.
  intros H. unfold any_product. cbn zeta. rewrite (andb_comm (small b)). destruct (small a && small b); [apply computed_sym; [apply Z.mul_comm|exact H]|].
  apply combined_sym; [|exact H]. intros x y. rewrite (wider_sym b a). rewrite (andb_comm (seems_small _ y)), (orb_comm (y =? 0)), (Z.add_comm (Z.log2 y / 64)), (Z.mul_comm y), (Z.mul_comm (y mod _)). reflexivity.
Qed.
Lemma any_bitwise_sym op c a b : (forall x y, op x y = op y x) -> aligned a b -> any_bitwise op c a b = any_bitwise op c b a.
Proof.
  intros C H. unfold any_bitwise. rewrite (andb_comm (small b)). destruct (small a && small b).
  - unfold bitwise. rewrite (wider_sym b a), (pairs_sym a b H), (both_sym a b), (Z.eqb_sym (bw b)), C. reflexivity.
  - apply combined_sym; [|exact H]. intros x y. rewrite (wider_sym b a), (Z.eqb_sym (bw b)), C. reflexivity.
Qed.
(** an operator accepts a pair exactly if [pairs_up] says so *)
Lemma combined_ill f a b : (forall x y, f x y <> IllFormed) -> combined f a b = IllFormed <-> pairs_up a b = false.
Proof. intros F. unfold combined. destruct (pairs_up a b); cbn [negb]; [|split; reflexivity]. split; [|discriminate]. specialize (F (widened a (wider a b)) (widened b (wider a b))). destruct (f _ _); try discriminate. congruence. Qed.
Lemma computed_ill op a b : computed op false a b = IllFormed <-> pairs_up a b = false.
Proof. unfold computed. cbn zeta. destruct (pairs_up a b); cbn [negb]; [|split; reflexivity]. split; [|discriminate]. match goal with |- (if ?c then _ else _) = _ -> _ => destruct c; discriminate end. Qed.
Definition symmetric_ops : list (bit -> bit -> outcome bit) := [bit_add; bit_mul; bit_and; bit_or; bit_xor].
Lemma op_any op : In op symmetric_ops -> exists f, (forall a b, vec a -> vec b -> op a b = f a b) /\ (forall a b, aligned a b -> f a b = f b a) /\ forall a b, f a b = IllFormed <-> pairs_up a b = false.
Proof.
  intros [<-|[<-|[<-|[<-|[<-|[]]]]]].
  - exists any_sum. split; [exact add_any|]. split; [exact sum_sym|]. intros a b. unfold any_sum. destruct (small a && small b); [apply computed_ill|apply combined_ill; discriminate].
  - exists any_product. split; [exact mul_any|]. split; [exact product_sym|]. intros a b. unfold any_product. cbn zeta. destruct (small a && small b); [apply computed_ill|apply combined_ill]. intros x y. repeat match goal with |- (if ?c then _ else _) <> _ => destruct c end; discriminate.
  - exists (any_bitwise Z.land true). split; [exact and_any|]. split; [intros a b; apply any_bitwise_sym, Z.land_comm|]. intros a b. unfold any_bitwise. destruct (small a && small b); [|apply combined_ill; discriminate]. unfold bitwise. cbn zeta. destruct (pairs_up a b); cbn [negb]; split; discriminate || reflexivity.
  - exists (any_bitwise Z.lor false). split; [exact or_any|]. split; [intros a b; apply any_bitwise_sym, Z.lor_comm|]. intros a b. unfold any_bitwise. destruct (small a && small b); [|apply combined_ill; discriminate]. unfold bitwise. cbn zeta. destruct (pairs_up a b); cbn [negb]; split; discriminate || reflexivity.
  - exists (any_bitwise Z.lxor false). split; [exact xor_any|]. split; [intros a b; apply any_bitwise_sym, Z.lxor_comm|]. intros a b. unfold any_bitwise. destruct (small a && small b); [|apply combined_ill; discriminate]. unfold bitwise. cbn zeta. destruct (pairs_up a b); cbn [negb]; split; discriminate || reflexivity.
Qed.
Theorem order_exact op a b : In op symmetric_ops -> vec a -> vec b -> op a b = op b a <-> (bw a = bw b -> (blsb a <= bmsb a <-> blsb b <= bmsb b)).
Proof.
  intros I Va Vb. destruct (op_any op I) as (f & E & S & L). rewrite !E by assumption. change (bw a = bw b -> (blsb a <= bmsb a <-> blsb b <= bmsb b)) with (aligned a b). split; [|apply S].
  intros Q. destruct (Z.eq_dec (bw a) (bw b)) as [W|W]; [|intros X; contradiction]. intros _. destruct (Z.le_gt_cases (blsb a) (bmsb a)) as [P|P], (Z.le_gt_cases (blsb b) (bmsb b)) as [R|R]; try (split; lia);
  (exfalso; assert (N : ~ aligned a b) by (intros X; specialize (X W); lia); apply pairs_not in N as [[N1 N2] | [N1 N2]];
   [apply (L b a) in N2; rewrite <- Q in N2; apply (L a b) in N2; congruence|apply (L a b) in N1; rewrite Q in N1; apply (L b a) in N1; congruence]).
Qed.

(** *** 4-state *)
Lemma lalign a b : (lw a = lw b -> (llsb a <= lmsb a <-> llsb b <= lmsb b)) -> aligned (l_val a) (l_val b).
Proof. intros H. exact H. Qed.
Lemma widths_sym a b : widths_ok a b = widths_ok b a.
Proof. unfold widths_ok. rewrite (Z.eqb_sym (lw b)). destruct (Z.eqb_spec (lw a) (lw b)); [reflexivity|]. destruct (Z.ltb_spec (lw a) (lw b)), (Z.ltb_spec (lw b) (lw a)); try lia; reflexivity. Qed.
Lemma four_arith_sym f a b : f (l_val a) (l_val b) = f (l_val b) (l_val a) -> four_arith false f a b = four_arith false f b a.
Proof. intros E. unfold four_arith. cbn zeta. cbn [andb]. rewrite (widths_sym b a), (Z.max_comm (lw b)), (orb_comm (doubt_at b _)), (andb_comm (lsgn b)), E. reflexivity. Qed.
Lemma xor4_comm s t : xor4 s t = xor4 t s. Proof. destruct s, t; reflexivity. Qed.
Theorem order_logic op a b : In op [logic_add; logic_mul] -> lvec a -> lvec b -> (lw a = lw b -> (llsb a <= lmsb a <-> llsb b <= lmsb b)) -> op a b = op b a.
Proof.
  intros I La Lb H. destruct I as [<-|[<-|[]]].
  - rewrite !add_four by assumption. apply four_arith_sym, sum_sym, lalign, H.
  - rewrite !mul_four by assumption. apply four_arith_sym, product_sym, lalign, H.
Qed.
Theorem order_xor a b : lvec a -> lvec b -> lw a = lw b -> (llsb a <= lmsb a <-> llsb b <= lmsb b) -> logic_xor a b = logic_xor b a.
Proof.
  intros La Lb W H. rewrite !xor_four by assumption. unfold four_xor. cbn zeta. rewrite W, Z.eqb_refl. cbn [negb]. rewrite (andb_comm (lsgn b)), Z.lor_comm.
  replace (llsb b <=? lmsb b) with (llsb a <=? lmsb a) by (destruct (Z.leb_spec (llsb a) (lmsb a)), (Z.leb_spec (llsb b) (lmsb b)); try reflexivity; exfalso; lia).
  destruct (negb (llsb a <=? lmsb a) || (lsgn a && lsgn b)); [reflexivity|]. f_equal. f_equal. generalize (Z.to_nat (lw b)). intros k. induction k as [|k IH]; [reflexivity|]. cbn [gather]. rewrite IH, xor4_comm. reflexivity.
Qed.
(** the tables of & and | are symmetric but for x with 0 and z with 1 *)
Definition uneven (s t : sym) : Prop := (s = SX /\ t = S0) \/ (s = S0 /\ t = SX) \/ (s = SZ /\ t = S1) \/ (s = S1 /\ t = SZ).
Lemma and_even s t : SpecExact4.lib_and s t = SpecExact4.lib_and t s <-> ~ uneven s t.
Proof. unfold uneven. destruct s, t; cbn; split; intros H; try reflexivity; try discriminate; try (intros [[? ?]|[[? ?]|[[? ?]|[? ?]]]]; discriminate); exfalso; apply H; auto. Qed.
Lemma or_even s t : SpecExact4.lib_or s t = SpecExact4.lib_or t s <-> ~ uneven s t.
Proof. unfold uneven. destruct s, t; cbn; split; intros H; try reflexivity; try discriminate; try (intros [[? ?]|[[? ?]|[[? ?]|[? ?]]]]; discriminate); exfalso; apply H; auto. Qed.
Theorem order_tables op a b n : In op [logic_and; logic_or] -> 1 <= n -> ltyped a n false -> ltyped b n false ->
  exists r q, op a b = Ok r /\ op b a = Ok q /\ forall p, 0 <= p < n -> (sym_at r p = sym_at q p <-> ~ uneven (sym_at a p) (sym_at b p)).
Proof.
  intros I N A B. destruct I as [<-|[<-|[]]].
  - destruct (op_typed logic_and SpecExact4.lib_and (fun a b n => lib_and_gen a b n) a b n N A B) as (r & E & _ & Q). destruct (op_typed logic_and SpecExact4.lib_and (fun a b n => lib_and_gen a b n) b a n N B A) as (q & E' & _ & Q').
    exists r, q. split; [exact E|]. split; [exact E'|]. intros p P. rewrite Q, Q' by exact P. apply and_even.
  - destruct (op_typed logic_or SpecExact4.lib_or (fun a b n => lib_or_gen a b n) a b n N A B) as (r & E & _ & Q). destruct (op_typed logic_or SpecExact4.lib_or (fun a b n => lib_or_gen a b n) b a n N B A) as (q & E' & _ & Q').
    exists r, q. split; [exact E|]. split; [exact E'|]. intros p P. rewrite Q, Q' by exact P. apply or_even.
Qed.

(** *** comparisons *)
Lemma ordered_sym c d a b : (forall x y, c x y = d y x) -> ordered c a b = ordered d b a.
Proof. intros H. unfold ordered. rewrite (both_sym b a). destruct (both_signed a b); apply H. Qed.
Lemma any_order_sym c d f g a b : (forall x y, c x y = d y x) -> (forall x y, f x y = g y x) -> any_order c f a b = any_order d g b a <-> (bw a <= 64 <-> bw b <= 64).
Proof.
  intros C F. unfold any_order, small. destruct (Z.leb_spec (bw a) 64) as [A|A], (Z.leb_spec (bw b) 64) as [B|B].
  - rewrite (ordered_sym c d a b C). split; [tauto|reflexivity].
  - split; [discriminate|lia].
  - split; [discriminate|lia].
  - rewrite F. split; [lia|reflexivity].
Qed.
Lemma gtb_sym x y : (x <? y) = (y >? x). Proof. symmetry. apply Z.gtb_ltb. Qed.
Lemma geb_sym x y : (x <=? y) = (y >=? x). Proof. symmetry. apply Z.geb_leb. Qed.
Theorem order_compare a b : vec a -> vec b -> (bit_lt a b = bit_gt b a <-> (bw a <= 64 <-> bw b <= 64)) /\ (bit_le a b = bit_ge b a <-> (bw a <= 64 <-> bw b <= 64)).
Proof.
  intros Va Vb. rewrite lt_any, gt_any, le_any, ge_any by assumption. split.
  - apply any_order_sym; [exact gtb_sym|reflexivity].
  - apply any_order_sym; [exact geb_sym|reflexivity].
Qed.
Lemma blank_sym (x y z : bool) u v : (u =? v) && x && y = (v =? u) && y && x.
Proof. rewrite (Z.eqb_sym v u). destruct (u =? v), x, y; reflexivity. Qed.
Theorem order_equal a b : vec a -> vec b ->
  bit_eq a b = bit_eq b a <->
  (bw a <= 64 -> bw b <= 64 -> (stored a = store (bw a) (bsgn a) (stored b) <-> stored b = store (bw b) (bsgn b) (stored a))) /\
  (65 <= bw a -> 65 <= bw b -> bsgn a = true -> bsgn b = true -> bw a = bw b).
Proof.
  intros Va Vb. rewrite !eq_any by assumption. unfold any_equal, small. destruct (Z.leb_spec (bw a) 64) as [A|A], (Z.leb_spec (bw b) 64) as [B|B]; cbn [andb].
  - unfold equal_native. split.
    + intros E. injection E as E. split; [|lia]. intros _ _. destruct (Z.eqb_spec (stored a) (store (bw a) (bsgn a) (stored b))), (Z.eqb_spec (stored b) (store (bw b) (bsgn b) (stored a))); try discriminate; tauto.
    + intros [H _]. specialize (H A B). f_equal. destruct (Z.eqb_spec (stored a) (store (bw a) (bsgn a) (stored b))), (Z.eqb_spec (stored b) (store (bw b) (bsgn b) (stored a))); tauto.
  - split; [intros _; split; lia|reflexivity].
  - split; [intros _; split; lia|reflexivity].
  - rewrite (both_sym b a). unfold both_signed. destruct (bsgn a) eqn:SA, (bsgn b) eqn:SB; cbn [andb].
    1:{ destruct (Z.ltb_spec (bw a) (bw b)) as [L|L], (Z.ltb_spec (bw b) (bw a)) as [M|M]; try lia; (split; [intros E; try discriminate; split; lia|intros [_ H]; try reflexivity; exfalso; specialize (H ltac:(lia) ltac:(lia) eq_refl eq_refl); lia]). }
    all: split; [intros _; split; [lia|intros _ _ ? ?; discriminate]|intros _]; cbn zeta; rewrite (Z.min_comm (words_in (bw b))); f_equal; apply blank_sym; exact true.
Qed.
