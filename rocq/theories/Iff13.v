(** Exactly when results are in order, number queries are right and dynamic indexing is right. *)
From Coq Require Import ZArith List Bool Lia.
From Verif Require Exact FmtDec.
From Verif Require Import Cpp BigNum Bit Logic More Rest BigObj Spec SpecBig SpecExact SpecMachine SpecWide SpecFour SpecIff SpecIff2 BitExt BitOps ZBits Words BigNumProofs BitProofs BitCmp BitShift BitMain BitMain2 BitMain4 BitMain5 LogicProofs LogicRed LogicMain MachineProofs MachineProofs3 MachineProofs4 ReachProofs ReachProofs2 WideProofs WideProofs2 WideProofs3 WideProofs4 RestProofs RestProofs2 BigObjProofs3 Iff2 Iff3 Iff4 Iff5 Iff6 Iff7 Iff8 Iff9 Iff10 Iff12.
Import ListNotations.
Open Scope Z_scope.
Local Ltac Zify.zify_post_hook ::= idtac.

(** * results in order (C14) *)
Lemma tidy_vector n s z : 2 <= n <= 64 -> tidy (vector n s z) <-> if s then - 2 ^ (n - 1) <= wrap s (storage n) z < 2 ^ (n - 1) else z mod 2 ^ storage n < 2 ^ n.
Proof.
  intros H. unfold tidy, vector, bw, width. cbn [bval bsgn bmsb blsb]. replace (Z.abs (n - 1 - 0) + 1) with n by lia. replace (1 <? n) with true by lia. unfold store. replace (n =? 1) with false by lia. rewrite andb_true_r.
  destruct s; [reflexivity|]. unfold wrap. pose proof (Z.mod_pos_bound z (2 ^ storage n) ltac:(destruct (MachineProofs.storage_cases n H); apply pow2_pos; lia)). lia.
Qed.
Lemma tidy_vec_of n s z : 65 <= n -> tidy (vec_of n s z) <-> z mod 2 ^ capacity n < 2 ^ n.
Proof.
  intros H. unfold tidy, vec_of, object. replace (width (n - 1) 0) with n by (unfold width; lia). replace (n <=? 64) with false by lia. cbn [bval bsgn bmsb blsb]. unfold bw. cbn [bmsb blsb]. replace (width (n - 1) 0) with n by (unfold width; lia).
  rewrite words_of_num by lia. pose proof (Z.mod_pos_bound z (2 ^ capacity n) ltac:(apply pow2_pos; pose proof (capacity_ge n); lia)). lia.
Qed.
Lemma full_iff n : 2 <= n -> fills n <-> (if n <=? 64 then storage n else capacity n) = n.
Proof.
  intros H. unfold fills, storage, capacity, words_in. destruct (n <=? 64) eqn:L.
  - repeat match goal with |- context [?u <=? ?v] => destruct (Z.leb_spec u v) end; lia.
  - pose proof (Z.div_mod (n + 63) 64 ltac:(lia)). pose proof (Z.mod_pos_bound (n + 63) 64 ltac:(lia)). pose proof (Z.div_mod n 64 ltac:(lia)). pose proof (Z.mod_pos_bound n 64 ltac:(lia)). split.
    + intros F. assert (M : n mod 64 = 0) by lia. assert ((n + 63) / 64 = n / 64) by (symmetry; apply (Z.div_unique _ _ _ 63); lia). lia.
    + intros F. assert (M : n mod 64 = 0) by (symmetry; apply (Z.mod_unique n 64 ((n + 63) / 64) 0); lia). lia.
Qed.
Lemma room n : 2 <= n -> let c := if n <=? 64 then storage n else capacity n in n <= c /\ (fills n <-> c = n) /\ (~ fills n -> 2 * 2 ^ n <= 2 ^ c).
Proof.
  intros H. cbn zeta. pose proof (full_iff n H) as F. set (c := if n <=? 64 then storage n else capacity n) in *. assert (L : n <= c). { unfold c. destruct (n <=? 64) eqn:E; [destruct (MachineProofs.storage_cases n ltac:(lia)); lia|apply capacity_ge; lia]. }
  split; [exact L|]. split; [exact F|]. intros N. assert (c <> n) by tauto. rewrite <- Z.pow_succ_r by lia. apply Z.pow_le_mono_r; lia.
Qed.
(** the sum, difference and inverse written into [c] bits *)
Lemma sum_room n c x y : 2 <= n -> n <= c -> (c <> n -> 2 * 2 ^ n <= 2 ^ c) -> 0 <= x < 2 ^ n -> 0 <= y < 2 ^ n -> (x + y) mod 2 ^ c < 2 ^ n <-> c = n \/ x + y < 2 ^ n.
Proof.
  intros Hn L G Hx Hy. destruct (Z.eq_dec c n) as [E|E]; [rewrite E; pose proof (Z.mod_pos_bound (x + y) (2 ^ n) ltac:(apply pow2_pos; lia)); tauto|]. specialize (G E). rewrite Z.mod_small by lia. tauto.
Qed.
Lemma diff_room n c x y : 2 <= n -> n <= c -> (c <> n -> 2 * 2 ^ n <= 2 ^ c) -> 0 <= x < 2 ^ n -> 0 <= y < 2 ^ n -> (x - y) mod 2 ^ c < 2 ^ n <-> c = n \/ y <= x.
Proof.
  intros Hn L G Hx Hy. destruct (Z.eq_dec c n) as [E|E]; [rewrite E; pose proof (Z.mod_pos_bound (x - y) (2 ^ n) ltac:(apply pow2_pos; lia)); tauto|]. specialize (G E). destruct (Z.le_gt_cases y x) as [P|P]; [rewrite Z.mod_small by lia; lia|]. rewrite <- (Z.mod_add (x - y) 1) by (pose proof (pow2_pos c ltac:(lia)); lia). rewrite Z.mod_small by lia. lia.
Qed.
Lemma plain_pairs a b n s t : 1 <= n -> typed a n s -> typed b n t -> pairs_up a b = true.
Proof. intros H Ta Tb. unfold pairs_up. rewrite (typed_bw a n s H Ta), (typed_bw b n t H Tb), Z.eqb_refl. destruct Tb as (_ & [-> ->] & _). lia. Qed.
Lemma operand_small n x : 2 <= n <= 64 -> 0 <= x < 2 ^ n -> operand n false false x = x.
Proof. intros H R. unfold operand. destruct (with_sign n false false); [reflexivity|]. destruct (MachineProofs.storage_cases n H) as (A & B & _). apply Z.mod_small. assert (2 ^ n <= 2 ^ computing n) by (apply Z.pow_le_mono_r; lia). lia. Qed.
Ltac unsig a b n Ta Tb Da Db Wa Wb Sa Sb Na Nb Ra Rb :=
  assert (Wa : bw a = n) by (apply (typed_bw a n false); [lia|exact Ta]); assert (Wb : bw b = n) by (apply (typed_bw b n false); [lia|exact Tb]);
  assert (Sa : bsgn a = false) by apply Ta; assert (Sb : bsgn b = false) by apply Tb;
  assert (Na : stored a = num a) by (apply stored_num; [apply Ta|exact Da|now left]); assert (Nb : stored b = num b) by (apply stored_num; [apply Tb|exact Db|now left]);
  assert (Ra : 0 <= num a < 2 ^ n) by (rewrite <- Wa; apply num_range); assert (Rb : 0 <= num b < 2 ^ n) by (rewrite <- Wb; apply num_range).
Lemma result_room op f a b n r : 2 <= n -> typed a n false -> typed b n false -> tidy a -> tidy b ->
  op a b = (if small a && small b then computed f false a b else combined (fun x y => Ok (f x y)) a b) -> op a b = Ok r -> tidy r <-> f (num a) (num b) mod 2 ^ (if n <=? 64 then storage n else capacity n) < 2 ^ n.
Proof.
  intros Hn Ta Tb Da Db Eop E. unsig a b n Ta Tb Da Db Wa Wb Sa Sb Na Nb Ra Rb. rewrite Eop in E. unfold small in E. rewrite Wa, Wb in E. unfold computed, combined in E. rewrite (plain_pairs a b n false false) in E by (lia || assumption). cbn [negb orb] in E. unfold both_signed in E. rewrite Sa, Sb in E. cbn [andb] in E.
  assert (W : wider a b = n) by (unfold wider; lia). rewrite W, Na, Nb in E. destruct (n <=? 64) eqn:L; cbn [andb] in E.
  - rewrite !operand_small in E by lia. destruct (with_sign n false false && _) in E; [discriminate|]. injection E as <-. apply (tidy_vector n false). lia.
  - unfold widened in E. rewrite Wa, Wb, Z.eqb_refl, Na, Nb in E. injection E as <-. apply tidy_vec_of. lia.
Qed.
Lemma tidy_iff a b n : 2 <= n -> typed a n false -> typed b n false -> tidy a -> tidy b ->
  (forall r, bit_add a b = Ok r -> (tidy r <-> fills n \/ num a + num b < 2 ^ n)) /\
  (forall r, bit_sub a b = Ok r -> (tidy r <-> fills n \/ num b <= num a)) /\
  (tidy (bit_not a) <-> fills n) /\
  (forall r, bit_neg a = Ok r -> (tidy r <-> fills n \/ num a = 0)) /\
  (n <= 64 -> forall r, bit_mul a b = Ok r -> (tidy r <-> (num a * num b) mod 2 ^ storage n < 2 ^ n)) /\
  (n <= 64 -> forall r, num b < n -> bit_shl a b = Ok r -> (tidy r <-> (num a * 2 ^ num b) mod 2 ^ storage n < 2 ^ n)) /\
  (65 <= n -> forall r, bit_shl a b = Ok r -> tidy r).
Proof.
  intros Hn Ta Tb Da Db. destruct (room n Hn) as (Rm & Fl & Sp). set (c := if n <=? 64 then storage n else capacity n) in *. assert (Sp' : c <> n -> 2 * 2 ^ n <= 2 ^ c) by (intros X; apply Sp; tauto).
  unsig a b n Ta Tb Da Db Wa Wb Sa Sb Na Nb Ra Rb. pose proof (pow2_pos n ltac:(lia)) as Pn. pose proof (proj1 Ta) as Va. pose proof (proj1 Tb) as Vb.
  split; [|split; [|split; [|split; [|split; [|split]]]]].
  - intros r E. rewrite (result_room bit_add Z.add a b n r Hn Ta Tb Da Db (add_any a b Va Vb) E). fold c. rewrite sum_room by assumption. tauto.
  - intros r E. rewrite (result_room bit_sub Z.sub a b n r Hn Ta Tb Da Db (sub_any a b Va Vb) E). fold c. rewrite diff_room by assumption. tauto.
  - rewrite not_any by exact Va. unfold any_inverse, inverse, small. rewrite Wa, Na. replace (n =? 1) with false by lia. assert (Q : tidy (if n <=? 64 then vector n false (- num a - 1) else vec_of n false (- num a - 1)) <-> (- num a - 1) mod 2 ^ c < 2 ^ n).
    { unfold c. destruct (n <=? 64) eqn:L; [apply (tidy_vector n false); lia|apply tidy_vec_of; lia]. }
    rewrite Q. rewrite Fl. destruct (Z.eq_dec c n) as [E|E]; [rewrite E; pose proof (Z.mod_pos_bound (- num a - 1) (2 ^ n) Pn); tauto|]. specialize (Sp' E). split; [|tauto]. intros X. exfalso. rewrite <- (Z.mod_add (- num a - 1) 1) in X by lia. rewrite Z.mod_small in X by lia. lia.
  - intros r E. rewrite neg_any in E by exact Va. unfold any_minus, negated, small in E. rewrite Wa, Sa, Na in E. destruct (n <=? 64) eqn:L; [|discriminate]. rewrite andb_false_r in E. cbn [andb] in E. injection E as <-.
    unfold written. rewrite Wa, Sa. destruct Ta as (_ & [Pm Pl] & _). rewrite Pm, Pl. fold (vector n false (- num a)). rewrite (tidy_vector n false) by lia. fold c. change (storage n) with c. replace (- num a) with (0 - num a) by lia. rewrite diff_room by (assumption || lia). rewrite Fl. lia.
  - intros L r E. rewrite mul_any in E by assumption. unfold any_product, small in E. rewrite Wa, Wb in E. replace (n <=? 64) with true in E by lia. cbn [andb] in E. unfold computed in E. rewrite (plain_pairs a b n false false) in E by (lia || assumption). cbn [negb orb] in E. unfold both_signed in E. rewrite Sa, Sb in E. cbn [andb] in E.
    assert (W : wider a b = n) by (unfold wider; lia). rewrite W, Na, Nb, !operand_small in E by lia. destruct (with_sign n false false && _) in E; [discriminate|]. injection E as <-. apply (tidy_vector n false). lia.
  - intros L r Lb E. rewrite shl_any in E by assumption. unfold any_left, any_shift, small in E. rewrite Wa, Wb in E. replace (n <=? 64) with true in E by lia. unfold shifted_left, both_signed in E. rewrite Wa, Sa, Sb, Na in E. cbn [andb] in E. destruct (shiftable a b); [|discriminate].
    assert (A : amount a b = num b). { unfold amount. rewrite Wa, Sa, Nb. unfold store. replace (n =? 1) with false by lia. unfold wrap. apply Z.mod_small. destruct (MachineProofs.storage_cases n ltac:(lia)) as (A & _). assert (2 ^ n <= 2 ^ storage n) by (apply Z.pow_le_mono_r; lia). lia. }
    rewrite A in E. injection E as <-. apply (tidy_vector n false). lia.
  - intros L r E. rewrite shl_any in E by assumption. unfold any_left, any_shift, small in E. rewrite Wa in E. replace (n <=? 64) with false in E by lia. injection E as <-. apply tidy_vec_of; [lia|]. pose proof (Z.mod_pos_bound (stored a * 2 ^ any_amount b) (2 ^ n) Pn). rewrite (Z.mod_small (_ mod _)); [lia|]. assert (2 ^ n <= 2 ^ capacity n) by (apply Z.pow_le_mono_r; [lia|]; apply capacity_ge; lia). lia.
Qed.

(** * queries of numbers (C68, C99) *)
Lemma hollow_zero : hollow 0. Proof. intros p _ _. apply Z.bits_0. Qed.
Lemma fit_iff n ws : 65 <= n -> words_ok n ws = true ->
  (bn_fit_in_64 ws = (words_num ws <? 2 ^ 64) <-> (hollow (words_num ws / 2 ^ 64) -> words_num ws < 2 ^ 64)) /\
  (bn_is_one ws = (words_num ws =? 1) <-> (hollow (words_num ws / 2 ^ 64) -> words_num ws mod 2 ^ 64 = 1 -> words_num ws = 1)).
Proof.
  intros Hn K. apply words_ok_wfn in K. assert (R : 0 <= words_num ws < 2 ^ capacity n) by (apply words_range; [lia|exact K]). pose proof (seems_small_words n ws ltac:(lia) K) as S. pose proof (seems_small_hollow n (words_num ws) Hn R) as H. rewrite S in H.
  assert (O : bn_is_one ws = bn_fit_in_64 ws && (words_num ws mod 2 ^ 64 =? 1)).
  { unfold bn_is_one, bn_fit_in_64. destruct K as [F L]. pose proof (nwords_bounds n ltac:(lia)). unfold wlen in L. replace (Z.of_nat (length ws) =? 1) with false by lia. rewrite andb_comm. f_equal. f_equal. rewrite <- (words_num_word ws 0) by (exact F || lia). change (64 * 0) with 0. rewrite Z.pow_0_r, Z.div_1_r. reflexivity. }
  split.
  - destruct (Z.ltb_spec (words_num ws) (2 ^ 64)) as [Lt|Ge].
    + assert (E : words_num ws / 2 ^ 64 = 0) by (apply Z.div_small; lia). rewrite E in *. split; [auto|]. intros _. apply H. exact hollow_zero.
    + destruct (bn_fit_in_64 ws); [split; [discriminate|]; intros X; specialize (X (proj1 H eq_refl)); lia|]. split; [|reflexivity]. intros _ X. apply H in X. discriminate.
  - rewrite O. destruct (Z.eqb_spec (words_num ws) 1) as [E|E].
    + rewrite E in *. split; [auto|]. intros _. change (1 / 2 ^ 64) with 0 in H. rewrite (proj2 H hollow_zero). reflexivity.
    + destruct (bn_fit_in_64 ws); cbn [andb]; [|split; [|reflexivity]; intros _ X; apply H in X; discriminate]. pose proof (proj1 H eq_refl) as X. destruct (Z.eqb_spec (words_num ws mod 2 ^ 64) 1) as [M|M]; [split; [discriminate|]; intros Y; specialize (Y X M); lia|]. split; [|reflexivity]. intros _ _ Y. lia.
Qed.

(** * dynamic index (C113) *)
Lemma get_at_iff l op : lvec l -> Z.min (lmsb l) (llsb l) = 0 -> lw l <= 64 -> vec op -> bw op <= 64 -> tidy op -> (bsgn op = true -> 2 <= bw op) ->
  let v := value op in let j := twos 32 (v mod 2 ^ 32) in
  (exists r, logic_get_at l op = Ok r /\ (in_range (lmsb l) (llsb l) v -> sym_at r 0 = sym_at l (place (lmsb l) (llsb l) v)) /\ (~ in_range (lmsb l) (llsb l) v -> sym_at r 0 = SX)) <->
  in_range (lmsb l) (llsb l) v \/ (in_range (lmsb l) (llsb l) j -> sym_at l (place (lmsb l) (llsb l) j) = SX).
Proof.
  intros L Z0 Hl V Ho T S1. cbn zeta. rewrite get_at_raw by assumption. rewrite (FmtDec.tidy_value op V T Ho S1). set (v := value op).
  assert (W : lw l = Z.max (lmsb l) (llsb l) + 1). { unfold lw, bw, width. fold (lmsb l) (llsb l). lia. }
  assert (J : i32 v = twos 32 (v mod 2 ^ 32)). { unfold i32. now rewrite twos_swrap by lia. }
  rewrite J. set (j := twos 32 (v mod 2 ^ 32)) in *.
  assert (Dj : in_range (lmsb l) (llsb l) j \/ ~ in_range (lmsb l) (llsb l) j) by (unfold in_range; lia). assert (Dv : in_range (lmsb l) (llsb l) v \/ ~ in_range (lmsb l) (llsb l) v) by (unfold in_range; lia).
  assert (VJ : in_range (lmsb l) (llsb l) v -> j = v) by (intros X; rewrite <- J; apply i32_id; unfold in_range in X; lia).
  assert (G : exists r, logic_get l j = Ok r /\ (in_range (lmsb l) (llsb l) j -> sym_at r 0 = sym_at l (place (lmsb l) (llsb l) j)) /\ (~ in_range (lmsb l) (llsb l) j -> sym_at r 0 = SX)).
  { destruct Dj as [D|D].
    - destruct (read4 l j L Z0 D ltac:(intros _; unfold in_range in D; lia)) as (r & E & _ & Sr). exists r. tauto.
    - rewrite logic_get_outside by exact D. exists (sym1 SX). destruct (sym1_spec SX) as (_ & _ & T2). tauto. }
  destruct G as (r & Gr & G1 & G2). rewrite Gr. split.
  - intros (r' & E & H1 & H2). injection E as <-. destruct Dv as [D|D]; [now left|]. right. intros X. rewrite <- (G1 X). auto.
  - intros H. exists r. split; [reflexivity|]. destruct Dv as [D|D].
    + rewrite (VJ D) in *. tauto.
    + split; [tauto|]. intros _. destruct H as [H|H]; [tauto|]. destruct Dj as [X|X]; [rewrite G1; auto|auto].
Qed.
